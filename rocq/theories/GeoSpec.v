(** Independent vocabulary for positions on a sphere: unit vectors in space. *)
From Coq Require Import Reals.
Local Open Scope R_scope.

(** degrees to radians *)
Definition rad (x : R) : R := x * PI / 180.

Definition vec : Type := (R * R * R)%type.

(** The point at latitude [lat] and longitude [lon] (degrees) on the unit sphere:
    x towards (0, 0), y towards (0, 90), z towards the north pole. *)
Definition point (lat lon : R) : vec :=
  (cos (rad lat) * cos (rad lon), cos (rad lat) * sin (rad lon), sin (rad lat)).

Definition dot (u v : vec) : R :=
  let '(a, b, c) := u in let '(x, y, z) := v in a * x + b * y + c * z.

(** [d] is the angle (degrees) between the unit vectors [u] and [v] *)
Definition angle_between (u v : vec) (d : R) : Prop :=
  0 <= d <= 180 /\ cos (rad d) = dot u v.

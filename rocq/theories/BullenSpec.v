(** Independent vocabulary for rays in a spherical layer: the power law for the slowness and the
    ray integrals. *)
From Coq Require Import Reals.
From Verif Require Import Num SlownessLayer.
Local Open Scope R_scope.

(** [v] is the integral of [f] from [a] to [b]: the increment of a function that is continuous on
    [a, b] and has derivative [f] inside.  (The value at the ends does not matter, so that the
    integrands below may be infinite at a turning point.) *)
Definition integral (f : R -> R) (a b v : R) : Prop :=
  exists F, (forall x, a < x < b -> derivable_pt_lim F x (f x))
            /\ (forall x, a <= x <= b -> continuity_pt F x)
            /\ v = F b - F a.

(** The spherical slowness (radius / velocity) is A r^B between the two ends of the layer in a
    planet of radius [rad]. *)
Definition power_law (l : slayer R) (rad A B : R) : Prop :=
  sl_topP l = A * Rpower (rad - sl_topDepth l) B /\ sl_botP l = A * Rpower (rad - sl_botDepth l) B.

(** Ray integrals for a slowness [y r] at radius [r]: time and angular distance per unit radius of
    the ray with parameter [p]. *)
Definition time_rate (y : R -> R) (p r : R) : R := y r * y r / (r * sqrt (y r * y r - p * p)).
Definition dist_rate (y : R -> R) (p r : R) : R := p / (r * sqrt (y r * y r - p * p)).

(** a layer with positive radii and slownesses, thicker than the 1e-9 km below which the code
    returns zero *)
Definition thick (l : slayer R) (rad : R) : Prop :=
  sl_botDepth l < rad /\ sl_topDepth l < sl_botDepth l /\ / 1000000000 <= sl_botDepth l - sl_topDepth l.
Definition slow_pos (l : slayer R) : Prop := 0 < sl_topP l /\ 0 < sl_botP l.

(** [p] lies strictly between [a] and [b], in either order *)
Definition strictly_between (a b p : R) : Prop := a < p < b \/ b < p < a.

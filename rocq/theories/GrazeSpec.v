(** Independent vocabulary for property C79: rays that graze a boundary and run along it. *)
From Coq Require Import List Reals ZArith.
From Verif Require Import Base Num TauModel SeismicPhase CurveSpec.
Import ListNotations.
Local Open Scope R_scope.

(** [d], [tm]: distance and time of the ray of parameter [p] over all legs, without any part along the boundary *)
Definition grazing (t : tmodel R) (seq : list seg) (p d tm : R) : Prop :=
  exists lo, last_sample (tm_rayParams t) p lo /\ legs_total t tb_dist lo seq d /\ legs_total t tb_time lo seq tm.
(** the arrivals [l] at [deg] degrees: rays that run at most the angle [most] along the boundary, there with [slow] units of time for one of
    distance, one arrival for each total distance that is the one asked for up to full circles and direction *)
Definition along (l : list (arrival R)) (deg d tm most p slow : R) : Prop :=
  (forall s, (exists a, In a l /\ ar_dist a = s) <-> d <= s <= d + most /\ cos s = cos (deg * PI / 180)) /\
  (forall a, In a l -> ar_rayParam a = p /\ ar_time a = tm + slow * (ar_dist a - d)) /\
  (cos (deg * PI / 180) <> 1 -> NoDup (map (fun a => ar_dist a) l)).

(** Independent vocabulary for property C82: models with the source at the surface. *)
From Coq Require Import ZArith List.
From Verif Require Import Base Num TauModel.

(** the source is at the surface, and crust, mantle, outer and inner core have at least one branch each *)
Definition surface {T : Type} (t : tmodel T) : Prop :=
  tm_sourceBranch t = 0%Z /\ (0 <= tm_mohoBranch t < tm_cmbBranch t)%Z /\
  (tm_cmbBranch t < tm_iocbBranch t < Z.of_nat (List.length (tm_P t)))%Z /\
  List.length (tm_S t) = List.length (tm_P t).

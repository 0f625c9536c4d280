(** Independent vocabulary for property C83: models with the source in the mantle or crust. *)
From Coq Require Import ZArith List.
From Verif Require Import Base Num TauModel.

(** the source is above the core, and crust, mantle, outer and inner core have at least one branch each *)
Definition shallow {T : Type} (t : tmodel T) : Prop :=
  (0 <= tm_sourceBranch t < tm_cmbBranch t)%Z /\ (0 <= tm_mohoBranch t < tm_cmbBranch t)%Z /\
  (tm_cmbBranch t < tm_iocbBranch t < Z.of_nat (List.length (tm_P t)))%Z /\
  List.length (tm_S t) = List.length (tm_P t).

(** Vocabulary for the agreement of P and S samples (property C65). *)
From Coq Require Import ZArith Bool List String Reals.
From Verif Require Import Base Num SlownessLayer SlownessModel.
Import ListNotations.
Local Open Scope R_scope.

(** a slowness at the top or bottom of some layer *)
Definition sampled_value (ls : list (slayer R)) (s : R) : Prop :=
  exists y, In y ls /\ (s = sl_topP y \/ s = sl_botP y).
(** strictly between the slownesses at top and bottom *)
Definition passes_through (y : slayer R) (s : R) : Prop :=
  sl_topP y < s < sl_botP y \/ sl_botP y < s < sl_topP y.
(** no layer passes through slowness [s] without having it at its top or bottom *)
Definition clear_of (ls : list (slayer R)) (s : R) : Prop :=
  forall y, In y ls -> ~ passes_through y s.
(** the slowness never rises on the way down *)
Definition never_rises (ls : list (slayer R)) : Prop :=
  forall y, In y ls -> sl_botP y <= sl_topP y.

(** Vocabulary for accepted source depths (property C64). *)
From Coq Require Import ZArith Bool List String Reals.
From Verif Require Import Base Num SlownessLayer SlownessModel SlowSpec BullenSpec LimitSpec SourceSpec ErrSpec TauModel.
Import ListNotations.
Local Open Scope R_scope.

(** cutting the layers of both wave types at depth [x], as the correction does, leaves only layers the code can use *)
Definition regular_after_cut (fuel : nat) (m : smodel R) (x : R) : Prop :=
  forall mS iS mP iP, splitLayer fuel m x false = Ok (mS, iS) -> splitLayer fuel (si_sMod iS) x true = Ok (mP, iP) -> regular (si_sMod iP).
(** with that many steps the correction for a source at depth [x] succeeds *)
Definition accepted (fuel : nat) (t : tmodel R) (x : R) : Prop :=
  forall wd, exists wd' t' r, tm_depthCorrect fuel wd t x = Ok (wd', t', r) /\ tm_sourceDepth r = x /\ regular (tm_sMod r).
(** steps that are enough for the layers of a model *)
Definition enough (fuel : nat) (m : smodel R) : Prop :=
  (2 * (List.length (sm_P m) + List.length (sm_S m)) + 4 <= fuel)%nat.

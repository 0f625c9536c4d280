(** Specification of splitting a slowness layer at a depth. *)
From Coq Require Import ZArith Bool List Reals.
From Verif Require Import Base Num VelocityModel SlownessLayer SlownessModel SlowSpec.
Import ListNotations.

Section Spec.
  Context {T : Type} {N : Num T}.
  Local Open Scope num_scope.

  (** equal contents (the objects may differ) *)
  Definition same (y z : slayer T) : Prop :=
    sl_topP y = sl_topP z /\ sl_topDepth y = sl_topDepth z /\
    sl_botP y = sl_botP z /\ sl_botDepth y = sl_botDepth z.
  (** [l'] is [l] with layer [k] cut in two at depth [x] and slowness [p] *)
  Definition cut (l : list (slayer T)) (k : nat) (p x : T) (l' : list (slayer T)) : Prop :=
    exists l1 y l2 l1' a b l2', l = l1 ++ y :: l2 /\ List.length l1 = k /\
      l' = l1' ++ a :: b :: l2' /\ Forall2 same l1 l1' /\ Forall2 same l2 l2' /\
      halves p y a b /\ sl_botDepth a = x.
  (** at most one layer strictly contains the slowness *)
  Definition spans_once (l : list (slayer T)) (p : T) : Prop :=
    forall i j y z, nth_error l i = Some y -> nth_error l j = Some z ->
      spans y p -> spans z p -> i = j.
  (** less than 1 mm, but not zero *)
  Definition close (x y : T) : Prop := n_abs (x - y) <? n_lit 1 (-6) = true.
  (** everything but layers, critical depths and the identity counter *)
  Definition same_rest (m m' : smodel T) : Prop :=
    sm_vMod m' = sm_vMod m /\ sm_minDeltaP m' = sm_minDeltaP m /\ sm_maxDeltaP m' = sm_maxDeltaP m /\
    sm_maxDepthInterval m' = sm_maxDepthInterval m /\ sm_maxRangeInterval m' = sm_maxRangeInterval m /\
    sm_maxInterpError m' = sm_maxInterpError m /\ sm_allowInnerCoreS m' = sm_allowInnerCoreS m /\
    sm_tolerance m' = sm_tolerance m /\ sm_radius m' = sm_radius m /\
    sm_hiP m' = sm_hiP m /\ sm_hiS m' = sm_hiS m /\ sm_fluid m' = sm_fluid m.
End Spec.

(** ** critical depths and moved boundaries *)
Section More.
  Context {T : Type} {N : Num T}.
  Local Open Scope num_scope.

  (** layer number stored for a wave type *)
  Definition number (w : bool) (c : critdepth T) : Z := if w then cd_pNum c else cd_sNum c.
  (** [l'] is [l] with the boundary below layer [j] moved to depth [x]; slownesses stay *)
  Definition moved (l : list (slayer T)) (j : nat) (x : T) (l' : list (slayer T)) : Prop :=
    exists l1 a b l2 l1' a' b' l2', l = l1 ++ a :: b :: l2 /\ List.length l1 = j /\
      l' = l1' ++ a' :: b' :: l2' /\ Forall2 same l1 l1' /\ Forall2 same l2 l2' /\
      sl_topP a' = sl_topP a /\ sl_botP a' = sl_botP a /\ sl_topDepth a' = sl_topDepth a /\ sl_botDepth a' = x /\
      sl_topP b' = sl_topP b /\ sl_botP b' = sl_botP b /\ sl_topDepth b' = x /\ sl_botDepth b' = sl_botDepth b.
End More.

(** Property C71: the distance check leaves a slowness model alone exactly if the travel times and
    distances of the rays of all layers meet the limits it was given. *)
From Coq Require Import ZArith Bool List String Reals Lia Lra.
From Verif Require Import Base Num PyStr VelocityModel VelSpec VelProofs SlownessLayer SlownessModel SlowSpec SlowProofs
  SlowRealProofs CheckSpec CheckProofs RealRun SlowRun TwoRun.
Import ListNotations.
Local Open Scope list_scope.
Local Open Scope R_scope.

(** approxDistance(turn, p) is twice the sum over the layers from the surface to layer [turn]. *)
Theorem C71_approx : forall {L : Libm R} (m : smodel R) w p n t x,
  ray m w p n t x <-> exists td, approxDistance m (Z.of_nat n - 1) p w = Ok td /\ td_time td = t /\ td_dist td = x.
Proof.
  intros L m w p n t x. split; [apply ray_approx|]. intros [td [H [<- <-]]]. apply approx_ray. exact H.
Qed.

(** A model within the limits is returned as it is. *)
Theorem C71_unchanged : forall {L : Libm R} fuel (m : smodel R),
  (forall w, joined (sm_layers m w) /\ sm_layers m w <> [] /\ (List.length (sm_layers m w) < fuel)%nat /\ settled m w) ->
  distanceCheck fuel m = Ok m.
Proof.
  intros L fuel m H. unfold distanceCheck.
  destruct (H false) as [A1 [B1 [C1 D1]]]. destruct (H true) as [A2 [B2 [C2 D2]]].
  rewrite (check_forward m false fuel A1 B1 D1 C1). cbn [bind]. apply check_forward; assumption.
Qed.

(** Otherwise samples are added: a successful check that returns another model has more layers, and one that
    returns its model has found every layer within the limits. *)
Theorem C71_adds : forall {L : Libm R} fuel (m m' : smodel R), distanceCheck fuel m = Ok m' -> m' <> m ->
  (List.length (sm_P m) + List.length (sm_S m) < List.length (sm_P m') + List.length (sm_S m'))%nat.
Proof.
  intros L fuel m m' H Hn. unfold distanceCheck in H. destruct (distanceCheck1 fuel false m) as [m1| |] eqn:H1; [|discriminate..]. cbn [bind] in H.
  apply check_same in H1, H. unfold tot in *. destruct H1 as [-> |H1], H as [-> |H]; try contradiction; lia.
Qed.
Theorem C71_only_then : forall {L : Libm R} fuel (m : smodel R),
  (forall w, joined (sm_layers m w)) ->
  (forall w y, In y (sm_layers m w) -> ~ zoned m w y -> sl_topP y <> sl_botP y) ->
  distanceCheck fuel m = Ok m -> settled m true /\ (solid m -> settled m false).
Proof.
  intros L fuel m J F H. unfold distanceCheck in H. destruct (distanceCheck1 fuel false m) as [m1| |] eqn:H1; [|discriminate..]. cbn [bind] in H.
  assert (E : m1 = m).
  { destruct (check_same _ _ _ _ H1) as [E|E]; [exact E|]. destruct (check_same _ _ _ _ H) as [E'|E']; [congruence|lia]. }
  subst m1. split.
  - eapply check_backward; [apply J|apply F|left; reflexivity|exact H].
  - intros S. eapply check_backward; [apply J|apply F|right; exact S|exact H1].
Qed.
(** So for a planet without fluid both say the same. *)
Theorem C71_fixed_iff : forall {L : Libm R} fuel (m : smodel R),
  (forall w, joined (sm_layers m w) /\ sm_layers m w <> [] /\ (List.length (sm_layers m w) < fuel)%nat /\ sloped (sm_layers m w)) ->
  solid m -> (distanceCheck fuel m = Ok m <-> settled m true /\ settled m false).
Proof.
  intros L fuel m H S. split.
  - intros C. destruct (C71_only_then fuel m) as [A B]; [intros w; apply H|intros w y Hy _; apply (H w); exact Hy|exact C|]. auto.
  - intros [A B]. apply C71_unchanged. intros w. destruct (H w) as [A1 [B1 [C1 _]]]. repeat (split; [assumption|]). destruct w; assumption.
Qed.

(** the planet of constant velocity, in two layers, with a large enough limit *)
Example C71_ex : exists e, let m := two_sm e two_c in
  (forall w, joined (sm_layers m w) /\ sm_layers m w <> [] /\ (List.length (sm_layers m w) < 20)%nat /\ sloped (sm_layers m w)) /\
  solid m /\ distanceCheck 20 m = Ok m /\ (forall w y, In y (sm_layers m w) -> ~ zoned m w y) /\
  (forall w, settled m w) /\ within m true 1 (mkSL 8 3371 3000 0 6371).
Proof.
  destruct two_distance as [e D]. exists e. intros m. assert (D' := fun w => D e w (Rle_refl e)). fold m in D'.
  assert (H : forall w, joined (sm_layers m w) /\ sm_layers m w <> [] /\ (List.length (sm_layers m w) < 20)%nat /\ sloped (sm_layers m w)).
  { intros w. split; [|split; [destruct w; discriminate|split; [destruct w; cbn; lia|]]].
    - intros n a b Ha Hb. destruct n as [|[|n]]; [|destruct w; discriminate..].
      assert (X : forall i, nth_error (sm_layers m w) i = nth_error (two_l (if w then 6 else 7)) i) by (intros; destruct w; reflexivity).
      rewrite X in Ha, Hb. cbn in Ha, Hb. assert (Ea : a = mkSL (if w then 6 else 7)%Z 6371 0 3371 3000) by congruence.
      assert (Eb : b = mkSL ((if w then 6 else 7) + 2)%Z 3371 3000 0 6371) by congruence. rewrite Ea, Eb. reflexivity.
    - intros y Hy. destruct w; destruct Hy as [<-|[<-|[]]]; cbn; lra. }
  assert (S : solid m).
  { split; [reflexivity|]. intros x v Hv. change (sm_vMod m) with two_vm in Hv.
    assert (K : forall i l, nth_layer (vm_layers two_vm) i l -> forall tv bv, values l "S" tv bv -> tv = 1 /\ bv = 1).
    { intros i l Hl tv bv V. apply nth_layer_In in Hl. apply values_iff in V. destruct Hl as [<-|[<-|[]]]; cbn in V; inversion V; auto. }
    assert (C : contiguous (vm_layers two_vm)).
    { apply contiguous_cons. split; [apply Reqb_eq; reflexivity|].
      intros i a b Ha Hb. apply nth_layer_cons in Hb. destruct Hb as [[Hb _]|[_ Hb]].
      - destruct Ha as [Ha _]. lia.
      - destruct (nth_layer_nil _ _ Hb). }
    assert (T : thick (vm_layers two_vm)).
    { intros l Hl. destruct Hl as [<-|[<-|[]]]; apply Rltb_lt; cbn; lra. }
    destruct Hv as [Hv|Hv].
    - apply evaluateAbove_iff in Hv; [|exact C|exact T]. destruct Hv as [i [l [tv [bv [Hl [_ [V ->]]]]]]].
      destruct (K i l Hl _ _ V) as [-> ->]. unfold line. lra.
    - apply evaluateBelow_iff in Hv; [|exact C|exact T]. destruct Hv as [i [l [tv [bv [Hl [_ [V ->]]]]]]].
      destruct (K i l Hl _ _ V) as [-> ->]. unfold line. lra. }
  assert (Z : forall w y, In y (sm_layers m w) -> ~ zoned m w y).
  { intros w y _ [Q|Q]; destruct w; discriminate. }
  assert (Q : distanceCheck 20 m = Ok m).
  { unfold distanceCheck. rewrite D'. cbn [bind]. apply D'. }
  pose proof (proj1 (C71_fixed_iff 20 m H S) Q) as [A B].
  split; [exact H|]. split; [exact S|]. split; [exact Q|]. split; [exact Z|]. split; [intros w; destruct w; assumption|].
  destruct (A 1%nat (mkSL 8 3371 3000 0 6371) eq_refl) as [X|X]; [|exact X]. exfalso. apply (Z true _ (or_intror (or_introl eq_refl)) X).
Qed.
Print Assumptions C71_approx.
Print Assumptions C71_unchanged.
Print Assumptions C71_adds.
Print Assumptions C71_only_then.
Print Assumptions C71_fixed_iff.

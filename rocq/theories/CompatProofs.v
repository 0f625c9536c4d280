(** How samples of the two wave types spread (for property C65). *)
From Coq Require Import ZArith Bool List String Reals Lia Lra.
From Verif Require Import Base Num PyStr VelocityModel VelSpec VelProofs SlownessLayer SlownessModel
  SlowSpec SlowProofs SlowAddProofs SlowBuildProofs SlowRealProofs SampleProofs StackProofs SplitProofs SplitSpec BullenSpec InsideSplitProofs CompatSpec.
Import ListNotations.
Local Open Scope list_scope.
Local Open Scope R_scope.

Lemma spans_pass : forall (y : slayer R) s, spans y s <-> passes_through y s.
Proof. intros y s. rewrite spans_R. unfold strictly_between, passes_through. tauto. Qed.

(** one list before and after a sample [p] was added *)
Definition refined (p : R) (l l' : list (slayer R)) : Prop :=
  exists f, l' = splice f l /\ forall y a b, In y l -> f (sl_id y) = Some (a, b) -> passes_through y p /\ halves p y a b.
Lemma add_refined : forall (m : smodel R) p w m', addSlowness m p w = Ok m' -> ids_ok m -> forall v, refined p (sm_layers m v) (sm_layers m' v).
Proof.
  intros m p w m' H Hid v. apply addSlowness_spec0 in H; [|assumption].
  destruct H as [_ [_ [_ [f [E1 [E2 [Dom [Cut _]]]]]]]]. exists f.
  assert (Cw : forall y a b, In y (sm_layers m w) -> f (sl_id y) = Some (a, b) -> passes_through y p /\ halves p y a b).
  { intros y a b Hy E. destruct (Cut y a b Hy E) as [Sp [Ha _]]. split; [apply spans_pass; exact Sp|exact Ha]. }
  destruct (Bool.bool_dec v w) as [->|Ne]; [split; [exact E1|exact Cw]|].
  assert (Ev : v = negb w) by (destruct v, w; try reflexivity; exfalso; apply Ne; reflexivity). subst v. split; [exact E2|].
  intros y a b Hy E. assert (I : f (sl_id y) <> None) by congruence. apply Dom in I. apply in_map_iff in I. destruct I as [z [Ez Hz]].
  apply (ids_ok_ids2 m w) in Hid. destruct Hid as [_ [_ [_ D]]]. assert (z = y) by (apply D; assumption). subst z. exact (Cw y a b Hz E).
Qed.

(** what a layer afterwards is *)
Definition piece (p : R) (y y' : slayer R) : Prop :=
  y' = y \/ (passes_through y p /\ ((sl_topP y' = sl_topP y /\ sl_botP y' = p) \/ (sl_topP y' = p /\ sl_botP y' = sl_botP y))).
Lemma refined_nth : forall p l l' k y', refined p l l' -> nth_error l' k = Some y' ->
  exists k0 y, (k0 <= k)%nat /\ nth_error l k0 = Some y /\ piece p y y'.
Proof.
  intros p l l' k y' [f [-> Hf]] H. destruct (SampleProofs.splice_nth f l k y' H) as [i [z [A [B C]]]]. exists i, z. split; [exact A|]. split; [exact B|].
  destruct C as [[_ ->]|[a [b [E Hab]]]]; [left; reflexivity|right].
  destruct (Hf z a b (nth_error_In _ _ B) E) as [Sp [H1 [_ [H3 [H4 [_ [H6 _]]]]]]]. split; [exact Sp|].
  destruct Hab as [-> | ->]; [left|right]; split; assumption.
Qed.
Lemma refined_in : forall p l l' y', refined p l l' -> In y' l' -> exists y, In y l /\ piece p y y'.
Proof.
  intros p l l' y' Hr Hy. apply In_nth_error in Hy. destruct Hy as [k Hk]. destruct (refined_nth _ _ _ _ _ Hr Hk) as [i [y [_ [B C]]]].
  exists y. split; [eapply nth_error_In; exact B|exact C].
Qed.
Lemma refined_value : forall p l l' s, refined p l l' -> sampled_value l s -> sampled_value l' s.
Proof.
  intros p l l' s [f [-> Hf]] [y [Hy Hs]]. destruct (f (sl_id y)) as [[a b]|] eqn:E.
  - destruct (splice_In_new f l y a b Hy E) as [Ia Ib]. destruct (Hf y a b Hy E) as [_ [H1 [_ [_ [_ [_ [H6 _]]]]]]].
    destruct Hs as [Hs|Hs]; [exists a; split; [exact Ia|left; congruence]|exists b; split; [exact Ib|right; congruence]].
  - exists y. split; [apply splice_In_keep; assumption|exact Hs].
Qed.
Lemma refined_clear : forall p l l' s, refined p l l' -> clear_of l s -> clear_of l' s.
Proof.
  intros p l l' s Hr Hc y' Hy' Ps. destruct (refined_in _ _ _ _ Hr Hy') as [y [Hy [->|[Sp Hv]]]]; [exact (Hc y Hy Ps)|].
  apply (Hc y Hy). unfold passes_through in *. destruct Hv as [[E1 E2]|[E1 E2]]; rewrite E1, E2 in Ps; lra.
Qed.
Lemma refined_new : forall p l l' s, refined p l l' -> sampled_value l' s -> s = p \/ sampled_value l s.
Proof.
  intros p l l' s Hr [y' [Hy' Hs]]. destruct (refined_in _ _ _ _ Hr Hy') as [y [Hy [->|[Sp Hv]]]]; [right; exists y; auto|].
  destruct Hv as [[E1 E2]|[E1 E2]], Hs as [Hs|Hs]; [right; exists y; split; [exact Hy|left]|left|left|right; exists y; split; [exact Hy|right]]; congruence.
Qed.

(** values stay, and no layer takes up a value it did not pass through *)
Lemma samples_value : forall (m m' : smodel R), samples m m' -> ids_ok m -> ids_ok m' /\ forall v s, sampled_value (sm_layers m v) s -> sampled_value (sm_layers m' v) s.
Proof.
  intros m m' H. induction H as [m|m p w m1 m2 Ha Hs IH]; intros Hid; [auto|].
  pose proof (proj1 (addSlowness_spec0 _ _ _ _ Ha Hid)) as Hid1. destruct (IH Hid1) as [A B]. split; [exact A|].
  intros v s Hv. apply B. eapply refined_value; [eapply add_refined; eassumption|exact Hv].
Qed.
Lemma samples_clear : forall (m m' : smodel R), samples m m' -> ids_ok m -> forall v s, clear_of (sm_layers m v) s -> clear_of (sm_layers m' v) s.
Proof.
  intros m m' H. induction H as [m|m p w m1 m2 Ha Hs IH]; intros Hid v s Hc; [exact Hc|].
  apply IH; [exact (proj1 (addSlowness_spec0 _ _ _ _ Ha Hid))|]. eapply refined_clear; [eapply add_refined; eassumption|exact Hc].
Qed.

Lemma add_P_clear : forall (m : smodel R) p m', addSlowness m p true = Ok m' -> ids_ok m -> clear_of (sm_P m') p.
Proof. intros m p m' H Hid y Hy Ps. apply (addSlowness_done m p m' H Hid y Hy). apply spans_pass. exact Ps. Qed.

(** the P layers are clear of all S samples *)
Definition compat (m : smodel R) : Prop := forall s, sampled_value (sm_S m) s -> clear_of (sm_P m) s.

Lemma compat_both : forall (m : smodel R) p m', addBoth m p = Ok m' -> ids_ok m -> compat m -> ids_ok m' /\ compat m'.
Proof.
  intros m p m' H Hid Hc. unfold addBoth in H. inv_as H as m1 H1.
  pose proof (proj1 (addSlowness_spec0 _ _ _ _ H1 Hid)) as Hid1. pose proof (proj1 (addSlowness_spec0 _ _ _ _ H Hid1)) as Hid2.
  split; [exact Hid2|]. pose proof (add_P_clear _ _ _ H1 Hid) as Cp.
  assert (C1 : compat m1).
  { intros s Hs. destruct (refined_new p _ _ s (add_refined _ _ _ _ H1 Hid false) Hs) as [->|Hs0]; [exact Cp|].
    exact (refined_clear p _ _ s (add_refined _ _ _ _ H1 Hid true) (Hc s Hs0)). }
  intros s Hs. apply (refined_clear p _ _ s (add_refined _ _ _ _ H Hid1 true)).
  destruct (refined_new p _ _ s (add_refined _ _ _ _ H Hid1 false) Hs) as [->|Hs0]; [exact Cp|exact (C1 s Hs0)].
Qed.

(** ** loops *)
Lemma for_idx_inv : forall {S A} (Inv : nat -> S -> Prop) (get : S -> list A) body,
  (forall i s a s', Inv i s -> nth_error (get s) i = Some a -> body s a = Ok s' -> Inv (Datatypes.S i) s') ->
  forall fuel i s s', for_idx fuel get i body s = Ok s' -> Inv i s -> exists j, Inv j s' /\ nth_error (get s') j = None.
Proof.
  intros S A Inv get body Hb. induction fuel as [|fuel IH]; intros i s s' H Hi; [discriminate|].
  cbn [for_idx] in H. destruct (nth_error (get s) i) as [a|] eqn:E.
  - inv_as H as s1 H1. eapply IH; [exact H|]. eapply Hb; eassumption.
  - inversion H; subst. eauto.
Qed.
Lemma foldM_inv : forall {A B} (I : B -> Prop) (f : B -> A -> result B), (forall b a b', I b -> f b a = Ok b' -> I b') ->
  forall l b b', foldM f l b = Ok b' -> I b -> I b'.
Proof.
  intros A B I f Hf. induction l as [|a l IH]; intros b b' H Hb; cbn [foldM] in H; [inversion H; subst; exact Hb|].
  inv_as H as b1 H1. eapply IH; [exact H|]. eapply Hf; eassumption.
Qed.

(** everything the loop has passed is clear in the other list *)
Definition passed (w : bool) (i : nat) (st : smodel R * R) : Prop :=
  ids_ok (fst st) /\ clear_of (sm_layers (fst st) (negb w)) (snd st) /\
  forall k y, (k < i)%nat -> nth_error (sm_layers (fst st) w) k = Some y ->
    clear_of (sm_layers (fst st) (negb w)) (sl_topP y) /\ clear_of (sm_layers (fst st) (negb w)) (sl_botP y).

Lemma sync_false_compat : forall fuel (m m' : smodel R), sync_layers fuel false m = Ok m' -> ids_ok m -> clear_of (sm_P m) (-1) -> ids_ok m' /\ compat m'.
Proof.
  intros fuel m m' H Hid H1. unfold sync_layers in H. inv_as H as [m1 q] Hr. inversion H; subst m1. clear H. cbn [fst] in *.
  apply (for_idx_inv (passed false)) in Hr.
  - destruct Hr as [j [[A [B C]] D]]. cbn [fst snd negb sm_layers] in *. split; [exact A|]. intros s [y [Hy Hs]]. apply In_nth_error in Hy. destruct Hy as [k Hk].
    assert (Lk : (k < j)%nat). { apply nth_error_None in D. assert (k < List.length (sm_S m'))%nat by (apply nth_error_Some; congruence). lia. }
    destruct (C k y Lk Hk) as [C1 C2]. destruct Hs as [->| ->]; assumption.
  - clear. intros i [m bp] y [m' bp'] [Hid [Hbp Hold]] Hy Hb. cbn [fst snd negb sm_layers] in *.
    inv_as Hb as m1 H1. inv_as Hb as m2 H2. inversion Hb; subst m2 bp'. clear Hb.
    assert (S1 : ids_ok m1 /\ clear_of (sm_P m1) (sl_topP y) /\ forall k z, (k < S i)%nat -> nth_error (sm_S m1) k = Some z ->
      (clear_of (sm_P m1) (sl_topP z) /\ clear_of (sm_P m1) (sl_botP z)) \/ z = y \/
      (sl_topP z = sl_topP y \/ clear_of (sm_P m1) (sl_topP z)) /\ (sl_botP z = sl_botP y \/ clear_of (sm_P m1) (sl_botP z))).
    { assert (Old : forall k z, (k < S i)%nat -> nth_error (sm_S m) k = Some z -> (clear_of (sm_P m) (sl_topP z) /\ clear_of (sm_P m) (sl_botP z)) \/ z = y).
      { intros k z Lk Hz. destruct (Nat.eq_dec k i) as [->|Ne]; [right; congruence|left; apply (Hold k); [lia|exact Hz]]. }
      destruct (n_eqb (sl_topP y) bp) eqn:E; cbn [negb] in H1.
      - inversion H1; subst m1. apply Reqb_eq in E. split; [exact Hid|]. split; [rewrite E; exact Hbp|]. intros k z Lk Hz. destruct (Old k z Lk Hz); auto.
      - pose proof (proj1 (addSlowness_spec0 _ _ _ _ H1 Hid)) as Hid1. split; [exact Hid1|]. pose proof (add_P_clear _ _ _ H1 Hid) as Cp. split; [exact Cp|].
        assert (Keep : forall s, clear_of (sm_P m) s -> clear_of (sm_P m1) s) by (intros s; exact (refined_clear _ _ _ s (add_refined _ _ _ _ H1 Hid true))).
        intros k z Lk Hz. destruct (refined_nth _ _ _ _ _ (add_refined _ _ _ _ H1 Hid false) Hz) as [k0 [z0 [Lk0 [Hz0 Pc]]]].
        destruct (Old k0 z0 ltac:(lia) Hz0) as [[O1 O2]|O].
        + left. destruct Pc as [->|[_ [[E1 E2]|[E1 E2]]]]; [auto| |]; rewrite E1, E2; auto.
        + subst z0. destruct Pc as [->|[Sp _]]; [auto|]. exfalso. unfold passes_through in Sp. lra. }
    destruct S1 as [Hid1 [Ct S1]]. pose proof (proj1 (addSlowness_spec0 _ _ _ _ H2 Hid1)) as Hid2.
    assert (Keep : forall s, clear_of (sm_P m1) s -> clear_of (sm_P m') s) by (intros s; exact (refined_clear _ _ _ s (add_refined _ _ _ _ H2 Hid1 true))).
    pose proof (add_P_clear _ _ _ H2 Hid1) as Cb. split; [exact Hid2|]. cbn [fst snd]. split; [exact Cb|].
    intros k z Lk Hz. destruct (refined_nth _ _ _ _ _ (add_refined _ _ _ _ H2 Hid1 false) Hz) as [k0 [z0 [Lk0 [Hz0 Pc]]]].
    assert (O : clear_of (sm_P m') (sl_topP z0) /\ clear_of (sm_P m') (sl_botP z0)).
    { destruct (S1 k0 z0 ltac:(lia) Hz0) as [[O1 O2]|[->|[O1 O2]]]; [auto|auto|].
      split; [destruct O1 as [->|O1]; auto|destruct O2 as [->|O2]; auto]. }
    destruct O as [O1 O2]. destruct Pc as [->|[_ [[E1 E2]|[E1 E2]]]]; [auto| |]; rewrite E1, E2; auto.
  - split; [exact Hid|]. split; [cbn [fst snd negb sm_layers]; change (@n_opp R Num_R n_1) with (- @n_1 R Num_R); rewrite n_1_R; exact H1|]. intros k y Lk. lia.
Qed.

(** ** the refinements add every sample to both lists *)
Definition keeps (a b : smodel R) : Prop := ids_ok a /\ compat a -> ids_ok b /\ compat b.
Lemma keeps_refl : forall a, keeps a a. Proof. intros a H. exact H. Qed.
Lemma keeps_trans : forall a b c, keeps a b -> keeps b c -> keeps a c. Proof. intros a b c H1 H2 H. auto. Qed.
Lemma keeps_both : forall a p b, addBoth a p = Ok b -> keeps a b.
Proof. intros a p b H [Hid Hc]. eapply compat_both; eassumption. Qed.

Lemma rayInc_keeps : forall fuel (m m' : smodel R), rayParamIncCheck fuel m = Ok m' -> keeps m m'.
Proof.
  intros fuel m m' H.
  assert (B : forall s y s', rayInc_body s y = Ok s' -> keeps s s').
  { intros s y s' Hb. unfold rayInc_body in Hb. if_in Hb; [|inversion Hb; apply keeps_refl].
    inv_bind Hb. inv_bind Hb. apply (foldM_rel keeps) in Hb; [exact Hb|exact keeps_refl|exact keeps_trans|].
    intros b k b' Hk. eapply keeps_both. eassumption. }
  unfold rayParamIncCheck in H. inv_bind H.
  apply (for_idx_rel keeps) in Ha, H; eauto using keeps_refl, keeps_trans.
Qed.
Lemma depthInc_keeps : forall fuel (m m' : smodel R), depthIncCheck fuel m = Ok m' -> keeps m m'.
Proof.
  intros fuel m m' H.
  assert (B : forall fb s y s', depthInc_body fb s y = Ok s' -> keeps s s').
  { intros fb s y s' Hb. unfold depthInc_body in Hb. if_in Hb; [|inversion Hb; apply keeps_refl].
    inv_bind Hb. inv_bind Hb. apply (foldM_rel keeps) in Hb; [exact Hb|exact keeps_refl|exact keeps_trans|].
    intros b k b' Hk. inv_bind Hk. eapply keeps_both. eassumption. }
  unfold depthIncCheck in H. inv_bind H.
  apply (for_idx_rel keeps) in Ha, H; eauto using keeps_refl, keeps_trans.
Qed.
Lemma dc_keeps : forall {L : Libm R} fuel (m m' : smodel R), distanceCheck fuel m = Ok m' -> keeps m m'.
Proof.
  intros L fuel m m' H.
  assert (B : forall w (m m' : smodel R), distanceCheck1 fuel w m = Ok m' -> keeps m m').
  { clear. intros w m m' H. unfold distanceCheck1 in H. inv_bind H.
    apply (while_rel (fun a b => keeps (dc_m a) (dc_m b)) (fun s b => dc_m s = b)) in H.
    - destruct H as [s' [A B]]. cbn [dc_m] in A. rewrite <- B. exact A.
    - intros; apply keeps_refl.
    - intros a b c; apply keeps_trans.
    - clear. intros s s' H. unfold dc_body in H. if_in H; [discriminate|].
      inv_bind H. if_in H.
      + inv_as H as [pp pv] H1. inv_as H as cu H2. inv_as H as pvv H3. if_in H.
        * inv_as H as hf H4. inv_as H as m2 H5. inversion H; subst. cbn [dc_m].
          eapply keeps_both; eassumption.
        * inv_as H as srp H4. inv_as H as ab H5. inv_as H as dp H6. inv_as H as sp H7.
          inv_as H as ju H8. inv_as H as q H9. destruct q.
          -- inv_as H as hp H10. inv_as H as m2 H11. inv_as H as hf H12. inv_as H as m3 H13.
             assert (keeps (dc_m s) m3)
               by (eapply keeps_trans; eapply keeps_both; eassumption).
             destruct (_ >? 0)%Z; [inv_bind H|]; inversion H; subst; assumption.
          -- inversion H; subst. apply keeps_refl.
      + inversion H; subst. apply keeps_refl.
    - clear. intros s b H. unfold dc_body in H. if_in H; [inversion H; reflexivity|].
      exfalso. inv_bind H. if_in H.
      + inv_as H as [pp pv] H1. inv_as H as cu H2. inv_as H as pvv H3. if_in H.
        * inv_as H as hf H4. inv_as H as m2 H5. discriminate.
        * inv_as H as srp H4. inv_as H as ab H5. inv_as H as dp H6. inv_as H as sp H7.
          inv_as H as ju H8. inv_as H as q H9. destruct q.
          -- inv_as H as hp H10. inv_as H as m2 H11. inv_as H as hf H12. inv_as H as m3 H13.
             destruct (_ >? 0)%Z; [inv_bind H|]; discriminate.
          -- discriminate.
      + discriminate. }
  unfold distanceCheck in H. inv_bind H. eapply keeps_trans; eapply B; eassumption.
Qed.

(** the stages of the construction *)
Lemma createSample_stages : forall {L : Libm R} fuel (m m' : smodel R), createSample fuel m = Ok m' ->
  exists m1 m0 mz ms mc m5 crit,
    findCriticalPoints (sm_set_radius m (vm_radius (sm_vMod m))) = Ok m1 /\ coarse_start m1 m0 /\ samples m0 mz /\
    sync_layers fuel true mz = Ok ms /\ sync_layers fuel false ms = Ok mc /\ keeps mc m5 /\ samples mc m5 /\ m' = sm_set_crit m5 crit.
Proof.
  intros L fuel m m' H. unfold createSample in H.
  inv_as H as ok Hok. if_in H; [discriminate|]. if_in H; [discriminate|].
  inv_as H as f Hf. if_in H; [discriminate|].
  inv_as H as m1 H1. inv_as H as m2 H2. inv_as H as m3 H3. inv_as H as m4 H4. inv_as H as m5 H5.
  inv_as H as m6 H6. inv_as H as ok' Hv. if_in H; [|discriminate]. inversion H; subst m6. clear H.
  unfold coarseSample in H2. inv_as H2 as first Hfi. inv_as H2 as [[[Ps Ss] next] v] Hc.
  inv_as H2 as ma Ha. inv_as H2 as mb Hb. inv_as H2 as ms Hs.
  unfold fixCriticalPoints in H6. inv_as H6 as crit Hcr.
  exists m1, (sm_set_layers m1 Ps Ss next), mb, ms, m2, m5, crit.
  split; [exact H1|]. split; [exists first, Ps, Ss, next, v; auto|].
  split.
  { apply (foldM_rel samples) in Ha; [|intros; apply samples_refl|apply samples_trans|intros; eapply high_samples; eassumption].
    apply (foldM_rel samples) in Hb; [|intros; apply samples_refl|apply samples_trans|intros; eapply high_samples; eassumption].
    eapply samples_trans; eassumption. }
  split; [exact Hs|]. split; [exact H2|].
  split; [eapply keeps_trans; [eapply rayInc_keeps; exact H3|eapply keeps_trans; [eapply depthInc_keeps; exact H4|eapply dc_keeps; exact H5]]|].
  split; [apply rayInc_samples in H3; apply depthInc_samples in H4; apply dc_samples in H5; exact (samples_trans _ _ _ (samples_trans _ _ _ H3 H4) H5)|].
  congruence.
Qed.

Lemma values_pos : forall {L : Libm R} fuel (m m' : smodel R), createSample fuel m = Ok m' -> forall v s, sampled_value (sm_layers m' v) s -> 0 <= s.
Proof.
  intros L fuel m m' H v s [y [Hy Hs]]. destruct (createSample_built _ _ _ H (R_ok _)) as [_ [_ [_ [G _]]]].
  destruct (G v) as [_ [_ [_ Q]]]. destruct (Q y Hy) as [A [B _]]. apply Rleb_le in A, B. rewrite n_0_R in A, B. destruct Hs as [->| ->]; assumption.
Qed.
Lemma created_compat : forall {L : Libm R} fuel (m m' : smodel R), createSample fuel m = Ok m' -> compat m'.
Proof.
  intros L fuel m m' H. pose proof (values_pos _ _ _ H) as Vp. destruct (createSample_stages _ _ _ H) as [m1 [m0 [mz [ms [mc [m5 [crit [_ [Hc [Hz [Hs1 [Hs2 [Hk [Hs5 ->]]]]]]]]]]]]]].
  apply coarse_start_spec in Hc. destruct Hc as [I0 _].
  destruct (samples_value _ _ Hz I0) as [Iz _]. pose proof (sync_samples _ _ _ _ Hs1) as Ss1. destruct (samples_value _ _ Ss1 Iz) as [Is _].
  pose proof (sync_samples _ _ _ _ Hs2) as Ss2. destruct (samples_value _ _ (samples_trans _ _ _ Ss2 Hs5) Is) as [_ Vs].
  assert (C1 : clear_of (sm_P ms) (-1)).
  { intros y Hy Ps.
    assert (P1 : 0 <= sl_topP y) by (apply (Vp true); apply (Vs true); exists y; auto).
    assert (P2 : 0 <= sl_botP y) by (apply (Vp true); apply (Vs true); exists y; auto).
    unfold passes_through in Ps. lra. }
  destruct (Hk (sync_false_compat _ _ _ Hs2 Is C1)) as [_ Hc5]. exact Hc5.
Qed.

(** a joined list of layers clear of a slowness has it as a sample or lies on one side of it *)
Lemma clear_side : forall (ls : list (slayer R)) s, clear_of ls s -> s_join ls ->
  sampled_value ls s \/ (forall t, sampled_value ls t -> t < s) \/ (forall t, sampled_value ls t -> s < t).
Proof.
  induction ls as [|y ls IH]; intros s C J; [right; left; intros t [z [[] _]]|].
  assert (Ct : clear_of ls s) by (intros z Hz; apply C; right; exact Hz).
  assert (Jt : s_join ls) by (intros i p q Hp Hq; exact (J (S i) p q Hp Hq)).
  assert (Cy : ~ passes_through y s) by (apply C; left; reflexivity).
  destruct (Req_dec (sl_topP y) s) as [E1|N1]; [left; exists y; split; [left; reflexivity|left; symmetry; exact E1]|].
  destruct (Req_dec (sl_botP y) s) as [E2|N2]; [left; exists y; split; [left; reflexivity|right; symmetry; exact E2]|].
  destruct (IH s Ct Jt) as [[z [Hz E]]|Side]; [left; exists z; split; [right; exact Hz|exact E]|]. right.
  assert (Hd : forall z, nth_error ls 0 = Some z -> sl_topP z = sl_botP y).
  { intros z Hz. symmetry. apply Reqb_eq. exact (J 0%nat y z eq_refl Hz). }
  assert (Sy : sl_topP y < s /\ sl_botP y < s \/ s < sl_topP y /\ s < sl_botP y).
  { unfold passes_through in Cy. destruct (Rtotal_order (sl_topP y) s) as [?|[?|?]], (Rtotal_order (sl_botP y) s) as [?|[?|?]]; try contradiction; [left| | |right]; try lra; exfalso; apply Cy; lra. }
  destruct ls as [|z ls].
  - destruct Sy as [[A B]|[A B]]; [left|right]; intros t [u [[<-|[]] [->| ->]]]; assumption.
  - specialize (Hd z eq_refl). assert (Vz : sampled_value (z :: ls) (sl_topP z)) by (exists z; split; [left; reflexivity|auto]).
    destruct Side as [Sd|Sd]; [left|right]; specialize (Sd (sl_topP z) Vz) as Hz; rewrite Hd in Hz;
      intros t [u [[<-|Hu] Ht]]; try (apply Sd; exists u; split; assumption); destruct Ht as [->| ->]; lra.
Qed.

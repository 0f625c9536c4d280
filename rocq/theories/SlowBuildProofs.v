(** Proofs about the construction of a slowness model. *)
From Coq Require Import ZArith Bool List String Reals Lia Lra.
From Verif Require Import Base Num PyStr VelocityModel VelSpec VelProofs SlownessLayer SlownessModel
  SlowSpec SlowProofs SlowAddProofs CalcTimeProofs.
Import ListNotations.
Local Open Scope list_scope.
Local Open Scope num_scope.

Ltac if_in H := match type of H with (if ?b then _ else _) = _ => destruct b end.

Section Samples.
  Context {T : Type} {N : Num T}.

  (** obtained by adding samples one after the other *)
  Inductive samples : smodel T -> smodel T -> Prop :=
  | samples_refl : forall m, samples m m
  | samples_step : forall m p w m1 m2, addSlowness m p w = Ok m1 -> samples m1 m2 -> samples m m2.

  Lemma samples_trans : forall a b c, samples a b -> samples b c -> samples a c.
  Proof. intros a b c H. revert c. induction H; intros c Hc; [assumption|]. econstructor; eauto. Qed.
  Lemma samples_one : forall m p w m', addSlowness m p w = Ok m' -> samples m m'.
  Proof. intros. econstructor; [eassumption|constructor]. Qed.
  Lemma addBoth_samples : forall m p m', addBoth m p = Ok m' -> samples m m'.
  Proof.
    intros m p m' H. unfold addBoth in H. inv_bind H. eapply samples_trans; eapply samples_one; eassumption.
  Qed.

  Lemma foldM_rel : forall {A B} (R : B -> B -> Prop) (f : B -> A -> result B),
    (forall b, R b b) -> (forall a b c, R a b -> R b c -> R a c) ->
    (forall b a b', f b a = Ok b' -> R b b') ->
    forall l b b', foldM f l b = Ok b' -> R b b'.
  Proof.
    intros A B R f Hr Ht Hf. induction l as [|a l IH]; intros b b' H; cbn [foldM] in H.
    - inversion H; subst. apply Hr.
    - inv_bind H. eapply Ht; [eapply Hf; eassumption|]. apply IH. assumption.
  Qed.
  Lemma for_idx_rel : forall {S A} (R : S -> S -> Prop) (get : S -> list A) body,
    (forall b, R b b) -> (forall a b c, R a b -> R b c -> R a c) ->
    (forall s a s', body s a = Ok s' -> R s s') ->
    forall fuel i s s', for_idx fuel get i body s = Ok s' -> R s s'.
  Proof.
    intros S A R get body Hr Ht Hf. induction fuel as [|fuel IH]; intros i s s' H; [discriminate|].
    cbn [for_idx] in H. destruct (nth_error (get s) i) as [a|].
    - inv_bind H. eapply Ht; [eapply Hf; eassumption|]. eapply IH. eassumption.
    - inversion H; subst. apply Hr.
  Qed.

  Lemma high_samples : forall fuel w (m : smodel T) z m', sample_high_zone fuel w m z = Ok m' -> samples m m'.
  Proof.
    intros fuel w m z m' H. unfold sample_high_zone in H. inv_bind H. inv_bind H. inv_bind H.
    destruct (_ <>? _); [eapply samples_one; eassumption|inversion H; constructor].
  Qed.
  Lemma sync_samples : forall fuel w (m m' : smodel T), sync_layers fuel w m = Ok m' -> samples m m'.
  Proof.
    intros fuel w m m' H. unfold sync_layers in H. inv_as H as [m1 q] Hr. inversion H; subst. cbn [fst].
    apply (for_idx_rel (fun a b => samples (fst a) (fst b))) in Hr.
    - exact Hr.
    - intros; constructor.
    - intros a b c; apply samples_trans.
    - intros [s bp] y [s' bp'] Hb. cbn [fst]. inv_as Hb as m2 H2. inv_as Hb as m3 H3. inversion Hb; subst.
      eapply samples_trans; [|eapply samples_one; exact H3].
      destruct (_ <>? _); [eapply samples_one; eassumption|inversion H2; constructor].
  Qed.
  Lemma rayInc_samples : forall fuel (m m' : smodel T), rayParamIncCheck fuel m = Ok m' -> samples m m'.
  Proof.
    intros fuel m m' H.
    assert (B : forall s y s', rayInc_body s y = Ok s' -> samples s s').
    { intros s y s' Hb. unfold rayInc_body in Hb. destruct (_ >? _); [|inversion Hb; constructor].
      inv_bind Hb. inv_bind Hb. apply (foldM_rel samples) in Hb; auto using samples_refl.
      - apply samples_trans.
      - intros b k b' Hk. eapply addBoth_samples. eassumption. }
    unfold rayParamIncCheck in H. inv_bind H.
    apply (for_idx_rel samples) in Ha, H; eauto using samples_refl, samples_trans.
  Qed.
  Lemma depthInc_samples : forall fuel (m m' : smodel T), depthIncCheck fuel m = Ok m' -> samples m m'.
  Proof.
    intros fuel m m' H.
    assert (B : forall fb s y s', depthInc_body fb s y = Ok s' -> samples s s').
    { intros fb s y s' Hb. unfold depthInc_body in Hb. destruct (_ >? _); [|inversion Hb; constructor].
      inv_bind Hb. inv_bind Hb. apply (foldM_rel samples) in Hb; auto using samples_refl.
      - apply samples_trans.
      - intros b k b' Hk. inv_bind Hk. eapply addBoth_samples. eassumption. }
    unfold depthIncCheck in H. inv_bind H.
    apply (for_idx_rel samples) in Ha, H; eauto using samples_refl, samples_trans.
  Qed.

  Lemma while_rel : forall {S B} (R : S -> S -> Prop) (Q : S -> B -> Prop) (body : S -> result (S + B)),
    (forall b, R b b) -> (forall a b c, R a b -> R b c -> R a c) ->
    (forall s s', body s = Ok (inl s') -> R s s') -> (forall s b, body s = Ok (inr b) -> Q s b) ->
    forall fuel s b, while fuel body s = Ok b -> exists s', R s s' /\ Q s' b.
  Proof.
    intros S B R Q body Hr Ht H1 H2. induction fuel as [|fuel IH]; intros s b H; [discriminate|].
    cbn [while] in H. inv_bind H. destruct v as [s'|b'].
    - apply IH in H. destruct H as [t [A C]]. exists t. split; [eapply Ht; [eapply H1; eassumption|assumption]|assumption].
    - inversion H; subst. exists s. split; [apply Hr|apply H2; assumption].
  Qed.

  Lemma dc_samples : forall {L : Libm T} fuel (m m' : smodel T), distanceCheck fuel m = Ok m' -> samples m m'.
  Proof.
    intros L fuel m m' H.
    assert (B : forall w (m m' : smodel T), distanceCheck1 fuel w m = Ok m' -> samples m m').
    { clear. intros w m m' H. unfold distanceCheck1 in H. inv_bind H.
      apply (while_rel (fun a b => samples (dc_m a) (dc_m b)) (fun s b => dc_m s = b)) in H.
      - destruct H as [s' [A B]]. cbn [dc_m] in A. rewrite <- B. exact A.
      - intros; constructor.
      - intros a b c; apply samples_trans.
      - clear. intros s s' H. unfold dc_body in H. destruct (negb (_ <? _)%Z); [discriminate|].
        inv_bind H. destruct (negb _ && negb _).
        + inv_as H as [pp pv] H1. inv_as H as cu H2. inv_as H as pvv H3.
          destruct ((_ >? _) && (_ >? _)).
          * inv_as H as hf H4. inv_as H as m2 H5. inversion H; subst. cbn [dc_m].
            eapply addBoth_samples; eassumption.
          * inv_as H as srp H4. inv_as H as ab H5. inv_as H as dp H6. inv_as H as sp H7.
            inv_as H as ju H8. inv_as H as q H9. destruct q.
            -- inv_as H as hp H10. inv_as H as m2 H11. inv_as H as hf H12. inv_as H as m3 H13.
               assert (samples (dc_m s) m3)
                 by (eapply samples_trans; eapply addBoth_samples; eassumption).
               destruct (_ >? 0)%Z; [inv_bind H|]; inversion H; subst; assumption.
            -- inversion H; subst. constructor.
        + inversion H; subst. constructor.
      - clear. intros s b H. unfold dc_body in H. destruct (negb (_ <? _)%Z); [inversion H; reflexivity|].
        exfalso. inv_bind H. destruct (negb _ && negb _).
        + inv_as H as [pp pv] H1. inv_as H as cu H2. inv_as H as pvv H3.
          destruct ((_ >? _) && (_ >? _)).
          * inv_as H as hf H4. inv_as H as m2 H5. discriminate.
          * inv_as H as srp H4. inv_as H as ab H5. inv_as H as dp H6. inv_as H as sp H7.
            inv_as H as ju H8. inv_as H as q H9. destruct q.
            -- inv_as H as hp H10. inv_as H as m2 H11. inv_as H as hf H12. inv_as H as m3 H13.
               destruct (_ >? 0)%Z; [inv_bind H|]; discriminate.
            -- discriminate.
        + discriminate. }
    unfold distanceCheck in H. inv_bind H. eapply samples_trans; eapply B; eassumption.
  Qed.

  (** the whole construction *)
  Definition coarse_start (m m0 : smodel T) : Prop :=
    exists first Ps Ss next v, py_index (vm_layers (sm_vMod m)) 0 = Ok first /\
      foldM (coarse_step m) (vm_layers (sm_vMod m)) ([], [], sm_next m, vl_surface first) = Ok (Ps, Ss, next, v) /\
      m0 = sm_set_layers m Ps Ss next.
  Lemma coarse_samples : forall fuel (m m' : smodel T), coarseSample fuel m = Ok m' ->
    exists m0, coarse_start m m0 /\ samples m0 m'.
  Proof.
    intros fuel m m' H. unfold coarseSample in H. inv_as H as first Hf. inv_as H as [[[Ps Ss] next] v] Hc.
    exists (sm_set_layers m Ps Ss next). split; [exists first, Ps, Ss, next, v; auto|].
    inv_as H as m1 H1. inv_as H as m2 H2. inv_as H as m3 H3.
    apply (foldM_rel samples) in H1; [|auto using samples_refl|apply samples_trans|intros; eapply high_samples; eassumption].
    apply (foldM_rel samples) in H2; [|auto using samples_refl|apply samples_trans|intros; eapply high_samples; eassumption].
    apply sync_samples in H3, H. eauto using samples_trans.
  Qed.

  Lemma createSample_steps : forall {L : Libm T} fuel (m m' : smodel T), createSample fuel m = Ok m' ->
    exists m1 m0 m5 crit,
      v_validate (sm_vMod m) = Ok true /\
      findCriticalPoints (sm_set_radius m (vm_radius (sm_vMod m))) = Ok m1 /\
      coarse_start m1 m0 /\ samples m0 m5 /\
      mapM (fun cd => let! pn := fix_crit_num fuel m5 (cd_depth cd) true in
                      let! sn := fix_crit_num fuel m5 (cd_depth cd) false in
                      Ok (mkCD (cd_depth cd) (cd_vel cd) pn sn)) (sm_crit m5) = Ok crit /\
      m' = sm_set_crit m5 crit /\ sm_validate m' = Ok true.
  Proof.
    intros L fuel m m' H. pose proof (createSample_valid fuel m m' H) as Hval. unfold createSample in H.
    inv_as H as ok Hok. destruct ok; cbn [negb] in H; [|discriminate]. destruct (_ =? 0)%Z; [discriminate|].
    inv_as H as f Hf. destruct (_ =? _); [discriminate|].
    inv_as H as m1 H1. inv_as H as m2 H2. inv_as H as m3 H3. inv_as H as m4 H4. inv_as H as m5 H5.
    inv_as H as m6 H6. inv_as H as ok' Hv. destruct ok'; inversion H; subst. clear H.
    apply coarse_samples in H2. destruct H2 as [m0 [H2 S2]].
    apply rayInc_samples in H3. apply depthInc_samples in H4. apply dc_samples in H5.
    unfold fixCriticalPoints in H6. inv_as H6 as crit Hc. inversion H6; subst.
    exists m1, m0, m5, crit. split; [assumption|]. split; [assumption|]. split; [assumption|].
    split; [eauto using samples_trans|]. auto.
  Qed.
End Samples.

(** ** invariants of sampling *)
Section Inv.
  Context {T : Type} {N : Num T} {O : NumOrd T}.

  Lemma same_setup_refl : forall m : smodel T, same_setup m m.
  Proof. intros. unfold same_setup. repeat split; reflexivity. Qed.
  Lemma same_setup_trans : forall a b c : smodel T, same_setup a b -> same_setup b c -> same_setup a c.
  Proof. unfold same_setup. intros a b c A B. intuition congruence. Qed.

  Lemma samples_keep : forall (m m' : smodel T), samples m m' -> ids_ok m ->
    ids_ok m' /\ same_setup m m' /\
    forall v, (s_meet (sm_layers m v) -> s_meet (sm_layers m' v)) /\
    (forall x, boundary (sm_layers m v) x -> boundary (sm_layers m' v) x) /\
    (forall y l, sm_layers m v = y :: l -> exists z l', sm_layers m' v = z :: l' /\
       sl_topDepth z = sl_topDepth y /\ sl_topP z = sl_topP y /\
       sl_botDepth (last l' z) = sl_botDepth (last l y) /\ sl_botP (last l' z) = sl_botP (last l y)).
  Proof.
    intros m m' H. induction H as [m|m p w m1 m2 H S IH]; intros Hid.
    - split; [assumption|]. split; [apply same_setup_refl|]. intros v.
      split; [auto|]. split; [auto|]. intros y l E. exists y, l. auto.
    - pose proof (addSlowness_keeps m p w m1) as K.
      pose proof (addSlowness_spec m p w m1 H Hid) as [Hid1 [_ [Hs _]]].
      destruct (IH Hid1) as [Hid2 [Hs2 IH']]. split; [assumption|].
      split; [eapply same_setup_trans; eassumption|]. intros v.
      destruct (K v H Hid) as [K1 [_ [K2 K3]]]. destruct (IH' v) as [I1 [I2 I3]].
      split; [auto|]. split; [auto|]. intros y l E. apply K3 in E.
      destruct E as [z [l' [E [E1 [E2 [E3 E4]]]]]]. apply I3 in E.
      destruct E as [z' [l'' [E [E1' [E2' [E3' E4']]]]]]. exists z', l''. intuition congruence.
  Qed.

  (** the initial layers *)
  Lemma create_from_vlayer_depths : forall id (v : vlayer T) w y, create_from_vlayer id v w = Ok y ->
    sl_id y = id /\ sl_topDepth y = vl_topDepth v /\ sl_botDepth y = vl_botDepth v.
  Proof.
    intros id v w y H. unfold create_from_vlayer in H. inv_bind H. inv_bind H. inv_bind H. inv_bind H.
    unfold new_slayer in H. destruct (_ >=? _); [|discriminate]. destruct (_ >=? _); inversion H; subst. auto.
  Qed.

  Lemma ids2_snoc : forall (Ps Ss : list (slayer T)) next cP cS, ids2 Ps Ss next -> sl_id cP = next ->
    cS = cP \/ sl_id cS = (next + 1)%Z -> ids2 (Ps ++ [cP]) (Ss ++ [cS]) (next + 2).
  Proof.
    intros Ps Ss next cP cS [A [B [C D]]] E1 E2.
    assert (E2' : sl_id cS = next \/ sl_id cS = (next + 1)%Z) by (destruct E2; subst; auto).
    assert (ND : forall l x, NoDup (map sl_id l) -> (forall y : slayer T, In y l -> (sl_id y < next)%Z) ->
      (next <= sl_id x)%Z -> NoDup (map sl_id (l ++ [x]))).
    { intros l x H1 H2 H3. rewrite map_app. cbn [map].
      apply NoDup_Add with (a := sl_id x) (l := map sl_id l ++ []); [apply Add_app|].
      rewrite app_nil_r. split; [assumption|]. intros H. apply in_map_iff in H.
      destruct H as [y [Ey Hy]]. apply H2 in Hy. lia. }
    split; [|split; [|split]].
    - apply ND; [assumption|auto|lia].
    - apply ND; [assumption|auto|lia].
    - intros y [H|H]; rewrite in_app_iff in H; cbn [In] in H.
      + destruct H as [H|[<-|[]]]; [assert (sl_id y < next)%Z by auto|]; lia.
      + destruct H as [H|[<-|[]]]; [assert (sl_id y < next)%Z by auto|]; lia.
    - intros y z Hy Hz E. rewrite in_app_iff in Hy, Hz. cbn [In] in Hy, Hz.
      destruct Hy as [Hy|[<-|[]]], Hz as [Hz|[<-|[]]].
      + apply D; assumption.
      + assert (sl_id y < next)%Z by auto. lia.
      + assert (sl_id z < next)%Z by auto. lia.
      + destruct E2 as [E2|E2]; [auto|lia].
  Qed.

  Lemma coarse_step_spec : forall (m : smodel T) Ps Ss next prev v Ps' Ss' next' prev',
    coarse_step m (Ps, Ss, next, prev) v = Ok (Ps', Ss', next', prev') ->
    ids2 Ps Ss next ->
    ids2 Ps' Ss' next' /\ prev' = v /\
    exists Pm Sm cP cS, Ps' = Ps ++ Pm ++ [cP] /\ Ss' = Ss ++ Sm ++ [cS] /\
      sl_topDepth cP = vl_topDepth v /\ sl_botDepth cP = vl_botDepth v /\
      sl_topDepth cS = vl_topDepth v /\ sl_botDepth cS = vl_botDepth v.
  Proof.
    intros m Ps Ss next prev v Ps' Ss' next' prev' H Hid. unfold coarse_step in H.
    inv_as H as [[Pa Sa] na] Ha. inv_as H as cP HcP. inv_as H as cS HcS. inversion H; subst. clear H.
    pose proof (create_from_vlayer_depths _ _ _ _ HcP) as [I1 [I2 I3]].
    assert (ScS : (cS = cP \/ sl_id cS = (na + 1)%Z) /\ sl_topDepth cS = vl_topDepth prev' /\ sl_botDepth cS = vl_botDepth prev').
    { if_in HcS; [inversion HcS; subst; auto|].
      apply create_from_vlayer_depths in HcS. tauto. }
    destruct ScS as [S1 [S2 S3]].
    assert (Mid : ids2 Pa Sa na /\ exists Pm Sm, Pa = Ps ++ Pm /\ Sa = Ss ++ Sm).
    { if_in Ha.
      - inv_as Ha as dP HdP. inv_as Ha as dS HdS. inversion Ha; subst. clear Ha.
        pose proof (create_from_vlayer_depths _ _ _ _ HdP) as [J1 [J2 J3]]. split.
        + apply ids2_snoc; [assumption|assumption|]. if_in HdS; [inversion HdS; auto|].
          apply create_from_vlayer_depths in HdS. tauto.
        + exists [dP], [dS]. auto.
      - inversion Ha; subst. split; [assumption|]. exists [], []. rewrite !app_nil_r. auto. }
    destruct Mid as [M1 [Pm [Sm [-> ->]]]]. split; [apply ids2_snoc; assumption|]. split; [reflexivity|].
    exists Pm, Sm, cP, cS. rewrite !app_assoc. auto 10.
  Qed.

  Lemma boundary_app : forall (l l' : list (slayer T)) x, boundary (l ++ l') x <-> boundary l x \/ boundary l' x.
  Proof.
    intros. unfold boundary. split.
    - intros [y [Hy Hx]]. rewrite in_app_iff in Hy. destruct Hy; [left|right]; exists y; auto.
    - intros [[y [Hy Hx]]|[y [Hy Hx]]]; exists y; (split; [rewrite in_app_iff; auto|assumption]).
  Qed.

  Lemma coarse_fold_spec : forall (m : smodel T) ls Ps Ss next prev Ps' Ss' next' prev',
    foldM (coarse_step m) ls (Ps, Ss, next, prev) = Ok (Ps', Ss', next', prev') ->
    ids2 Ps Ss next ->
    ids2 Ps' Ss' next' /\
    (forall x, boundary Ps x -> boundary Ps' x) /\ (forall x, boundary Ss x -> boundary Ss' x) /\
    (forall v x, In v ls -> x = vl_topDepth v \/ x = vl_botDepth v -> boundary Ps' x /\ boundary Ss' x).
  Proof.
    intros m. induction ls as [|v ls IH]; intros Ps Ss next prev Ps' Ss' next' prev' H Hid; cbn [foldM] in H.
    - inversion H; subst. split; [assumption|]. split; [auto|]. split; [auto|]. intros v x [].
    - inv_as H as [[[Pa Sa] na] pa] Ha. apply coarse_step_spec in Ha; [|assumption].
      destruct Ha as [I [-> [Pm [Sm [cP [cS [-> [-> [E1 [E2 [E3 E4]]]]]]]]]]].
      apply IH in H; [|assumption]. destruct H as [I' [B1 [B2 B3]]].
      split; [assumption|]. split; [|split].
      + intros x Hx. apply B1. apply boundary_app. auto.
      + intros x Hx. apply B2. apply boundary_app. auto.
      + intros u x [<-|Hu] Hx; [|eapply B3; eassumption]. split.
        * apply B1. rewrite !boundary_app. right. right. exists cP. split; [left; reflexivity|].
          destruct Hx; [left|right]; congruence.
        * apply B2. rewrite !boundary_app. right. right. exists cS. split; [left; reflexivity|].
          destruct Hx; [left|right]; congruence.
  Qed.

  Lemma coarse_start_spec : forall (m m0 : smodel T), coarse_start m m0 ->
    ids_ok m0 /\ same_setup m m0 /\
    forall v x, In v (vm_layers (sm_vMod m)) -> x = vl_topDepth v \/ x = vl_botDepth v ->
      boundary (sm_P m0) x /\ boundary (sm_S m0) x.
  Proof.
    intros m m0 [first [Ps [Ss [next [v [Hf [Hc ->]]]]]]].
    apply coarse_fold_spec in Hc.
    - destruct Hc as [I [_ [_ B]]]. split; [exact I|]. split; [repeat split; reflexivity|exact B].
    - split; [constructor|]. split; [constructor|]. split; [intros y [[]|[]]|intros y z []].
  Qed.

  (** ** critical points *)
  Lemma fc_step_crit : forall (m : smodel T) s n v s', fc_step m s (n, v) = Ok s' ->
    fc_crit s' = fc_crit s \/ exists c, fc_crit s' = fc_crit s ++ [c] /\ cd_depth c = vl_topDepth v.
  Proof.
    intros m s n v s' H. unfold fc_step in H. cbv zeta in H.
    inv_as H as cP HcP. inv_as H as cS HcS.
    assert (ES : sl_topDepth cS = vl_topDepth v).
    { pose proof (create_from_vlayer_depths _ _ _ _ HcP) as [_ [E _]].
      if_in HcS; [inversion HcS; subst; assumption|].
      apply create_from_vlayer_depths in HcS. tauto. }
    match type of H with (match ?e with (_, _) => _ end) = _ =>
      destruct e as [[[[[[crit hiP] hiS] zP] zS] mP] mS] eqn:Ee end.
    inv_as H as [hP zP'] H1. inv_as H as [hS zS'] H2. inversion H; subst. cbn [fc_crit].
    if_in Ee; [|if_in Ee]; inversion Ee; subst; auto.
    - right. eexists. split; [reflexivity|]. exact ES.
    - right. eexists. split; [reflexivity|]. exact ES.
  Qed.

  Lemma fc_fold_crit : forall (m : smodel T) ls s s', foldM (fc_step m) ls s = Ok s' ->
    forall c, In c (fc_crit s') -> In c (fc_crit s) \/ exists n v, In (n, v) ls /\ cd_depth c = vl_topDepth v.
  Proof.
    intros m. induction ls as [|[n v] ls IH]; intros s s' H c Hc; cbn [foldM] in H.
    - inversion H; subst. auto.
    - inv_as H as s1 H1. apply (IH _ _ H) in Hc. destruct Hc as [Hc|[n' [v' [Hv Hc]]]].
      + apply fc_step_crit in H1. destruct H1 as [E|[d [E Ed]]]; rewrite E in Hc; [auto|].
        rewrite in_app_iff in Hc. destruct Hc as [Hc|[<-|[]]]; [auto|].
        right. exists n, v. split; [left; reflexivity|assumption].
      + right. exists n', v'. split; [right; assumption|assumption].
  Qed.

  Lemma enumerate_In : forall {A} (l : list A) n a, In (n, a) (enumerate l) -> In a l.
  Proof. intros A l n a H. unfold enumerate in H. eapply in_combine_r. eassumption. Qed.

  Lemma findCritical_spec : forall (m m' : smodel T), findCriticalPoints m = Ok m' ->
    sm_vMod m' = sm_vMod m /\ sm_radius m' = sm_radius m /\ 
    (forall c, In c (sm_crit m') -> cd_depth c = n_0 \/ cd_depth c = sm_radius m \/
       exists v, In v (vm_layers (sm_vMod m)) /\ cd_depth c = vl_topDepth v) /\
    exists l lst, sm_crit m' = mkCD n_0 0 0 0 :: l ++ [lst] /\ cd_depth lst = sm_radius m.
  Proof.
    intros m m' H. unfold findCriticalPoints in H. inv_as H as first Hf. inv_as H as cS HcS. inv_as H as cP HcP.
    cbv zeta in H. inv_as H as s Hs. inv_as H as ok Hok. destruct ok; inversion H; subst. cbn [sm_set_zones sm_vMod sm_radius sm_crit].
    split; [reflexivity|]. split; [reflexivity|].
    assert (Pre : exists l, fc_crit s = mkCD n_0 0 0 0 :: l).
    { clear - Hs. match type of Hs with foldM _ _ ?s0 = _ =>
        assert (P : exists l, fc_crit s0 = mkCD n_0 0 0 0 :: l) by (exists []; reflexivity);
        generalize dependent s0 end.
      generalize (enumerate (vm_layers (sm_vMod m))).
      induction l as [|[n v] l IH]; intros s0 Hs P; cbn [foldM] in Hs; [inversion Hs; subst; assumption|].
      inv_as Hs as s1 H1. apply (IH _ Hs). apply fc_step_crit in H1. destruct P as [l0 E].
      destruct H1 as [E1|[d [E1 _]]]; rewrite E1, E; [eauto|]. exists (l0 ++ [d]). reflexivity. }
    split.
    - intros c Hc. rewrite in_app_iff in Hc. destruct Hc as [Hc|[<-|[]]]; [|auto].
      apply (fc_fold_crit _ _ _ _ Hs) in Hc. destruct Hc as [Hc|[n [v [Hv Hc]]]].
      + cbn [fc_crit] in Hc. destruct Hc as [<-|[]]. auto.
      + right. right. exists v. split; [eapply enumerate_In; eassumption|assumption].
    - destruct Pre as [l E]. rewrite E. eexists l, _. split; [reflexivity|reflexivity].
  Qed.
End Inv.

Section Built.
  Context {T : Type} {N : Num T} {O : NumOrd T}.

  Lemma valid_stacks : forall (m : smodel T) w, n_ok (sm_radius m) -> sm_validate m = Ok true ->
    stack_good (sm_radius m) (sm_layers m w).
  Proof.
    intros m w Hr H. unfold sm_validate in H.
    if_in H; [discriminate|]. if_in H; [discriminate|]. if_in H; [discriminate|]. if_in H; [discriminate|].
    if_in H; [discriminate|]. inv_as H as u Hu. inv_as H as v Hv.
    destruct (slayers_check_iff (sm_radius m) (sm_P m) Hr) as [P1 _].
    destruct (slayers_check_iff (sm_radius m) (sm_S m) Hr) as [S1 _].
    destruct u, v. destruct w; [apply P1; assumption|apply S1; assumption].
  Qed.
  Lemma good_upright : forall r (ls : list (slayer T)), stack_good r ls -> s_upright ls.
  Proof. intros r ls [_ [_ [_ H]]] y Hy. apply H in Hy. tauto. Qed.

  (** the number stored for a critical depth that is a layer boundary *)
  Lemma crit_num_spec : forall fuel (m : smodel T) w x n, s_meet (sm_layers m w) -> s_upright (sm_layers m w) ->
    (exists y, In y (sm_layers m w) /\ (sl_topDepth y =? x = true \/ sl_botDepth y =? x = true)) ->
    fix_crit_num fuel m x w = Ok n ->
    (exists k y, n = Z.of_nat k /\ nth_error (sm_layers m w) k = Some y /\ sl_topDepth y =? x = true /\
       (sl_botDepth y =? x = false \/ (k < List.length (sm_layers m w) - 1)%nat)) \/
    (exists l y, sm_layers m w = l ++ [y] /\ n = Z.of_nat (List.length (sm_layers m w)) /\ sl_botDepth y =? x = true).
  Proof.
    intros fuel m w x n Hm Hu [y0 [Hy0 Hb]] H. unfold fix_crit_num in H. inv_as H as i Hi. inv_as H as y Hy.
    assert (Hx : n_ok x) by (destruct Hb as [Hb|Hb]; apply eqb_ok in Hb; tauto).
    apply below_sound in Hi; [|assumption..]. destruct Hi as [Hi0 Hd].
    apply layer_py_Z in Hy; [|assumption]. set (k := Z.to_nat i) in *.
    pose proof Hd as [[y' [Hy' [H1 H2]]] Hmax]. assert (y' = y) by congruence. subst y'.
    apply In_nth_error in Hy0. destruct Hy0 as [k0 Hk0].
    assert (Hh0 : holds y0 x).
    { pose proof (Hu y0 (nth_error_In _ _ Hk0)) as U.
      destruct Hb as [Hb|Hb].
      - split; [apply eqb_leb; assumption|]. eapply ord_trans; [apply eqb_geb; exact Hb|exact U].
      - split; [|apply eqb_geb; assumption]. eapply ord_trans; [exact U|apply eqb_leb; exact Hb]. }
    pose proof (Hmax _ _ Hk0 Hh0) as Hle.
    assert (D : sl_topDepth y =? x = true \/ sl_botDepth y =? x = true).
    { destruct (Nat.eq_dec k0 k) as [->|Hne].
      - assert (y0 = y) by congruence. subst. assumption.
      - left. rewrite ord_eqb, H1. cbn [andb].
        eapply ord_trans; [|eapply (s_sorted _ k k0 y0 y Hm Hu Hk0 Hy'); lia]. apply Hh0. }
    assert (Lk : (k < List.length (sm_layers m w))%nat) by (apply nth_error_Some; congruence).
    inversion H; subst n. clear H.
    destruct (i =? Z.of_nat (List.length (sm_layers m w)) - 1)%Z eqn:El.
    - apply Z.eqb_eq in El. cbn [andb]. destruct (sl_botDepth y =? x) eqn:Eb.
      + right. assert (Ek : S k = List.length (sm_layers m w)) by lia.
        apply nth_error_split in Hy. destruct Hy as [l1 [l2 [El1 El2]]].
        rewrite El1, app_length in Ek. cbn [List.length] in Ek.
        assert (l2 = []) by (destruct l2; [reflexivity|cbn [List.length] in Ek; lia]). subst l2.
        exists l1, y. split; [assumption|]. split; [|assumption]. rewrite El1, app_length in El |- *. cbn [List.length] in El |- *. lia.
      + left. destruct D as [D|D]; [|congruence]. exists k, y. split; [lia|]. auto.
    - cbn [andb]. apply Z.eqb_neq in El. left. exists k, y. split; [lia|]. split; [assumption|].
      assert (k < List.length (sm_layers m w) - 1)%nat by lia.
      split; [|right; assumption]. destruct D as [D|D]; [assumption|exfalso].
      destruct (nth_error (sm_layers m w) (S k)) as [z|] eqn:Ez.
      + assert (S k <= k)%nat; [|lia]. apply (Hmax _ z Ez).
        pose proof (Hm k y z Hy' Ez) as M. rewrite eqb_sym in M.
        pose proof (eqb_trans _ _ _ M D) as E. split; [apply eqb_leb; assumption|].
        eapply ord_trans; [apply eqb_geb; exact E|]. apply Hu. eapply nth_error_In; eassumption.
      + apply nth_error_None in Ez. lia.
  Qed.

  Lemma mapM_Forall2 : forall {A B} (f : A -> result B) l l', mapM f l = Ok l' -> Forall2 (fun a b => f a = Ok b) l l'.
  Proof.
    induction l as [|a l IH]; intros l' H; cbn [mapM] in H; [inversion H; constructor|].
    inv_bind H. inv_bind H. inversion H; subst. constructor; auto.
  Qed.

  Definition crit_at (m : smodel T) (w : bool) (n : Z) (x : T) : Prop :=
    (exists k y, n = Z.of_nat k /\ nth_error (sm_layers m w) k = Some y /\ sl_topDepth y =? x = true) \/
    (exists l y, sm_layers m w = l ++ [y] /\ n = Z.of_nat (List.length (sm_layers m w)) /\ sl_botDepth y =? x = true).

  Lemma createSample_built : forall {L : Libm T} fuel (m m' : smodel T), createSample fuel m = Ok m' ->
    n_ok (vm_radius (sm_vMod m)) ->
    ids_ok m' /\ sm_vMod m' = sm_vMod m /\ sm_radius m' = vm_radius (sm_vMod m) /\
    (forall w, stack_good (sm_radius m') (sm_layers m' w)) /\
    (forall w v x, In v (vm_layers (sm_vMod m)) -> x = vl_topDepth v \/ x = vl_botDepth v ->
       boundary (sm_layers m' w) x) /\
    (exists c0 l cn, sm_crit m' = c0 :: l ++ [cn] /\ cd_depth c0 = n_0 /\ cd_depth cn = sm_radius m' /\
       (forall c, In c l -> cd_depth c = n_0 \/ cd_depth c = sm_radius m' \/ exists v, In v (vm_layers (sm_vMod m)) /\ cd_depth c = vl_topDepth v)) /\
    (forall c w, In c (sm_crit m') -> crit_at m' w (if w then cd_pNum c else cd_sNum c) (cd_depth c)) /\
    (forall w, exists l y, sm_layers m' w = l ++ [y] /\ sl_botDepth y =? sm_radius m' = true).
  Proof.
    intros L fuel m m' H Hr. apply createSample_steps in H.
    destruct H as [m1 [m0 [m5 [crit [Hv [Hf [Hc [Hs [Hm [E Hval]]]]]]]]]].
    apply findCritical_spec in Hf. cbn [sm_set_radius sm_vMod sm_radius] in Hf.
    destruct Hf as [F1 [F2 [F3 [l [lst [F4 F5]]]]]].
    apply coarse_start_spec in Hc. destruct Hc as [I0 [SS0 B0]].
    destruct (samples_keep _ _ Hs I0) as [I5 [SS5 K]].
    pose proof (same_setup_trans _ _ _ SS0 SS5) as SS.
    destruct SS as [V [_ [_ [_ [_ [_ [_ [_ [R [C _]]]]]]]]]].
    assert (Em' : forall w, sm_layers m' w = sm_layers m5 w) by (intros []; subst m'; reflexivity).
    assert (Ev : sm_vMod m' = sm_vMod m) by (subst m'; cbn [sm_set_crit sm_vMod]; congruence).
    assert (Er : sm_radius m' = vm_radius (sm_vMod m)) by (subst m'; cbn [sm_set_crit sm_radius]; congruence).
    assert (Ec : sm_crit m' = crit) by (subst m'; reflexivity).
    assert (Hr' : n_ok (sm_radius m')) by (rewrite Er; assumption).
    split; [subst m'; exact I5|]. split; [assumption|]. split; [assumption|].
    assert (G : forall w, stack_good (sm_radius m') (sm_layers m' w)) by (intros w; apply valid_stacks; assumption).
    split; [exact G|].
    assert (B : forall w v x, In v (vm_layers (sm_vMod m)) -> x = vl_topDepth v \/ x = vl_botDepth v ->
       boundary (sm_layers m' w) x).
    { intros w v x Hv' Hx. rewrite Em'. apply (proj1 (proj2 (K w))). rewrite F1 in B0.
      destruct w; [apply (B0 v x)|apply (B0 v x)]; assumption. }
    split; [exact B|].
    apply mapM_Forall2 in Hm. rewrite C, F4 in Hm.
    assert (D : forall a b, (let! pn := fix_crit_num fuel m5 (cd_depth a) true in
                      let! sn := fix_crit_num fuel m5 (cd_depth a) false in
                      Ok (mkCD (cd_depth a) (cd_vel a) pn sn)) = Ok b ->
       cd_depth b = cd_depth a /\ forall w, fix_crit_num fuel m5 (cd_depth b) w = Ok (if w then cd_pNum b else cd_sNum b)).
    { intros a b Hab. inv_as Hab as pn Hp. inv_as Hab as sn Hsn. inversion Hab; subst.
      cbn [cd_depth cd_pNum cd_sNum]. split; [reflexivity|]. intros []; assumption. }
    inversion Hm as [|a b la lb Hab Htl Ea Eb]; subst a la. rewrite <- Eb in Ec.
    apply Forall2_app_inv_l in Htl. destruct Htl as [lb1 [lb2 [Hl1 [Hl2 ->]]]].
    inversion Hl2 as [|a' b' la' lb' Hab' Htl' Ea' Eb']; subst a' la' lb2. inversion Htl'; subst lb'.
    clear Hl2 Htl'.
    destruct (D _ _ Hab) as [D1 D2]. destruct (D _ _ Hab') as [D3 D4]. cbn [cd_depth] in D1.
    assert (Last : forall w, exists l y, sm_layers m' w = l ++ [y] /\ sl_botDepth y =? sm_radius m' = true).
    { intros w. specialize (D4 w). rewrite D3, F5, <- Er in D4.
      destruct (G w) as [G1 [G2 [G3 G4]]]. pose proof (good_upright _ _ (G w)) as U.
      unfold fix_crit_num in D4. inv_as D4 as i Hi.
      apply below_sound in Hi; [|rewrite <- Em'; assumption..|assumption]. rewrite <- Em' in Hi.
      destruct Hi as [Hi0 [[y [Hy [H1 H2]]] _]].
      destruct (sm_layers m' w) as [|f ls] eqn:El; [destruct (Z.to_nat i); discriminate|].
      destruct (exists_last (l := f :: ls)) as [l' [z Ez]]; [discriminate|]. rewrite Ez in *.
      exists l', z. split; [reflexivity|]. rewrite ord_eqb.
      destruct (G4 z) as [_ [_ [_ G5]]]; [rewrite in_app_iff; right; left; reflexivity|]. rewrite G5. cbn [andb].
      eapply ord_trans; [exact H2|].
      destruct (Nat.eq_dec (Z.to_nat i) (List.length l')) as [Ei|Ei].
      - rewrite Ei, nth_error_app2, Nat.sub_diag in Hy by lia. inversion Hy; subst.
        apply leb_refl. apply ord_leb_ok in G5. tauto.
      - assert (Z.to_nat i < List.length (l' ++ [z]))%nat by (apply nth_error_Some; congruence).
        rewrite app_length in H. cbn [List.length] in H.
        eapply ord_trans; [eapply (s_sorted (l' ++ [z]) (List.length l') (Z.to_nat i) y z G2 U Hy); [|lia]|].
        + rewrite nth_error_app2, Nat.sub_diag by lia. reflexivity.
        + apply U. rewrite in_app_iff. right. left. reflexivity. }
    assert (Crit : forall c, In c l -> cd_depth c = n_0 \/ cd_depth c = sm_radius m' \/
        exists v, In v (vm_layers (sm_vMod m)) /\ cd_depth c = vl_topDepth v).
    { intros c Hc. rewrite Er. apply F3. rewrite F4. right. rewrite in_app_iff. auto. }
    assert (Mid : forall c, In c lb1 -> (exists a, In a l /\ cd_depth c = cd_depth a) /\
        forall w, fix_crit_num fuel m5 (cd_depth c) w = Ok (if w then cd_pNum c else cd_sNum c)).
    { intros c Hc. clear - Hl1 Hc D. induction Hl1 as [|a' b' la' lb' H1 H2 IH]; [destruct Hc|].
      destruct Hc as [<-|Hc].
      - apply D in H1. destruct H1 as [H1 H3]. split; [exists a'; split; [left; reflexivity|assumption]|assumption].
      - destruct (IH Hc) as [[x [Hx Hx']] H3]. split; [exists x; split; [right; assumption|assumption]|assumption]. }
    split.
    { exists b, lb1, b'. rewrite Ec. split; [reflexivity|]. split; [assumption|]. split; [rewrite D3, F5, Er; reflexivity|].
      intros c Hc. destruct (Mid c Hc) as [[a [Ha Hca]] _]. rewrite Hca. apply Crit. assumption. }
    split; [|exact Last].
    intros c w Hc.
    assert (Q : (cd_depth c = n_0 \/ cd_depth c = sm_radius m' \/
         exists v, In v (vm_layers (sm_vMod m)) /\ cd_depth c = vl_topDepth v) /\
         fix_crit_num fuel m5 (cd_depth c) w = Ok (if w then cd_pNum c else cd_sNum c)).
    { rewrite Ec in Hc. destruct Hc as [<-|Hc]; [split; [left; assumption|apply D2]|].
      rewrite in_app_iff in Hc. destruct Hc as [Hc|[<-|[]]].
      - destruct (Mid c Hc) as [[a [Ha Hca]] Hn]. rewrite Hca in *. split; [apply Crit; assumption|apply Hn].
      - split; [right; left; rewrite D3, F5, Er; reflexivity|apply D4]. }
    destruct Q as [Q1 Q2].
    destruct (G w) as [G1 [G2 [G3 G4]]]. pose proof (good_upright _ _ (G w)) as U.
    assert (Bd : exists y, In y (sm_layers m' w) /\
               (sl_topDepth y =? cd_depth c = true \/ sl_botDepth y =? cd_depth c = true)).
    { destruct Q1 as [Q1|[Q1|[v [Hv' Q1]]]].
      - destruct (Last w) as [l' [y [Ey _]]]. destruct (sm_layers m' w) as [|f ls] eqn:El; [destruct l'; discriminate|].
        exists f. split; [left; reflexivity|]. left. rewrite Q1, eqb_sym. apply G1. reflexivity.
      - destruct (Last w) as [l' [y [Ey Hy]]]. exists y. split; [rewrite Ey, in_app_iff; right; left; reflexivity|].
        right. rewrite Q1. assumption.
      - destruct (B w v (vl_topDepth v) Hv' (or_introl eq_refl)) as [y [Hy Hy']]. exists y. split; [assumption|].
        rewrite Q1. destruct (G4 y Hy) as [_ [_ [G5 _]]]. apply ord_leb_ok in G5. destruct G5.
        destruct Hy' as [<-|<-]; [left|right]; assumption. }
    rewrite !Em' in *. apply (crit_num_spec fuel m5 w) in Q2; [|assumption..].
    unfold crit_at. rewrite !Em'. destruct Q2 as [[k [y Q2]]|[l' [y Q2]]].
    - left. exists k, y. tauto.
    - right. exists l', y. tauto.
  Qed.
End Built.

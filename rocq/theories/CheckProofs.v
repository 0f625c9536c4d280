(** Proofs for property C71: which models the distance check leaves alone. *)
From Coq Require Import ZArith Bool List String Reals Lia Lra.
From Verif Require Import Base Num PyStr VelocityModel VelSpec VelProofs SlownessLayer SlownessModel
  SlowSpec SlowProofs SlowAddProofs SlowBuildProofs CritSpec CritProofs SlowRealProofs SampleProofs FallProofs CheckSpec.
Import ListNotations.
Local Open Scope list_scope.
Local Open Scope R_scope.

Lemma zrange_last : forall n, zrange 0 (Z.of_nat (S n)) = zrange 0 (Z.of_nat n) ++ [Z.of_nat n].
Proof.
  intros n. unfold zrange. replace (Z.to_nat (Z.of_nat (S n) - 0)) with (S n) by lia.
  replace (Z.to_nat (Z.of_nat n - 0)) with n by lia. rewrite seq_S, map_app. reflexivity.
Qed.
Lemma total_ext : forall f g n, (forall i, (i < n)%nat -> f i = g i) -> total f n = total g n.
Proof. intros f g. induction n as [|n IH]; intros H; [reflexivity|]. cbn [total]. rewrite IH, H by (intros; try apply H; lia). reflexivity. Qed.

Section Check.
  Context {L : Libm R}.

  (** ** rays *)
  Lemma sum_ray : forall (m : smodel R) w p n td, foldM (fun td k => let! x := layerTimeDist m p k w in Ok (td_add td x)) (zrange 0 (Z.of_nat n)) (td_new p) = Ok td ->
    exists f, (forall i, (i < n)%nat -> layerTimeDist m p (Z.of_nat i) w = Ok (f i)) /\
      td_time td = total (fun i => td_time (f i)) n /\ td_dist td = total (fun i => td_dist (f i)) n.
  Proof.
    intros m w p. induction n as [|n IH]; intros td H.
    - cbn in H. inversion H. exists (fun _ => td_new p). split; [intros; lia|]. unfold td_new. cbn [td_time td_dist total]. rewrite n_0_R. auto.
    - rewrite zrange_last, foldM_app in H. inv_as H as t Ht. cbn [foldM] in H. inv_as H as t2 H2. inv_as H2 as x Hx.
      assert (E : td = td_add t x) by congruence. subst td.
      destruct (IH _ Ht) as [f [A [B C]]]. exists (fun i => if Nat.eqb i n then x else f i). split.
      + intros i Hi. destruct (Nat.eqb_spec i n) as [->|Hn]; [exact Hx|]. apply A. lia.
      + cbn [total]. rewrite Nat.eqb_refl. unfold td_add. cbn [td_time td_dist n_add Num_R]. rewrite B, C.
        split; f_equal; apply total_ext; intros i Hi; destruct (Nat.eqb_spec i n); (lia || reflexivity).
  Qed.
  Lemma ray_sum : forall (m : smodel R) w p n f, (forall i, (i < n)%nat -> layerTimeDist m p (Z.of_nat i) w = Ok (f i)) ->
    exists td, foldM (fun td k => let! x := layerTimeDist m p k w in Ok (td_add td x)) (zrange 0 (Z.of_nat n)) (td_new p) = Ok td /\
      td_time td = total (fun i => td_time (f i)) n /\ td_dist td = total (fun i => td_dist (f i)) n.
  Proof.
    intros m w p. induction n as [|n IH]; intros f H.
    - exists (td_new p). split; [reflexivity|]. unfold td_new. cbn [td_time td_dist total]. rewrite n_0_R. auto.
    - destruct (IH f ltac:(intros; apply H; lia)) as [t [A [B C]]]. exists (td_add t (f n)).
      rewrite zrange_last, foldM_app, A. cbn [bind foldM]. rewrite H by lia. cbn [bind]. split; [reflexivity|].
      unfold td_add. cbn [td_time td_dist n_add Num_R total]. rewrite B, C. auto.
  Qed.
  Lemma approx_ray : forall (m : smodel R) w p n td, approxDistance m (Z.of_nat n - 1) p w = Ok td -> ray m w p n (td_time td) (td_dist td).
  Proof.
    intros m w p n td H. unfold approxDistance in H. destruct (Z.geb_spec (Z.of_nat n - 1) (sm_numLayers m w)) as [E|E]; [discriminate|].
    destruct (n_ltb p n_0) eqn:Ep; [discriminate|]. apply Rltb_ge in Ep. rewrite n_0_R in Ep. inv_as H as t Ht.
    assert (Et : td = mkTD (td_p t) (n_mul (td_time t) n_2) (n_mul (td_dist t) n_2) (td_depth t)) by congruence. subst td.
    replace (Z.of_nat n - 1 + 1)%Z with (Z.of_nat n) in Ht by lia. destruct (sum_ray _ _ _ _ _ Ht) as [f [A [B C]]].
    unfold sm_numLayers in E. split; [lia|]. split; [lra|]. exists f. split; [exact A|]. cbn [td_time td_dist]. rewrite <- B, <- C, n_2_R. cbn [n_mul Num_R]. lra.
  Qed.
  Lemma ray_approx : forall (m : smodel R) w p n t x, ray m w p n t x -> exists td, approxDistance m (Z.of_nat n - 1) p w = Ok td /\ td_time td = t /\ td_dist td = x.
  Proof.
    intros m w p n t x [Hn [Hp [f [A [-> ->]]]]]. unfold approxDistance.
    destruct (Z.geb_spec (Z.of_nat n - 1) (sm_numLayers m w)) as [E|E]; [unfold sm_numLayers in E; lia|].
    assert (Ep : n_ltb p n_0 = false) by (rewrite n_0_R; apply Rltb_ge; lra). rewrite Ep.
    replace (Z.of_nat n - 1 + 1)%Z with (Z.of_nat n) by lia. destruct (ray_sum _ _ _ _ _ A) as [td [B [C D]]]. rewrite B. cbn [bind].
    eexists. split; [reflexivity|]. cbn [td_time td_dist n_mul Num_R]. rewrite n_2_R, C, D. lra.
  Qed.

  (** ** the interpolation *)
  Lemma far_iff : forall tb tc ta xa xb xc lim : R, exists b,
    interp_far tb tc ta (xb - xa) (xc - xa) lim = Ok b /\
    (b = false <-> (xc <> xa -> Rabs (tb - (ta + (tc - ta) * ((xb - xa) / (xc - xa)))) <= lim) /\ (xc = xa -> xb = xa \/ tc = ta)).
  Proof.
    intros tb tc ta xa xb xc lim. unfold interp_far. cbn [np_div Num_R].
    destruct (Reqb (xc - xa) 0) eqn:E.
    - apply Reqb_eq in E. assert (xc = xa) by lra. eexists. split; [reflexivity|].
      assert (Z : forall a : R, negb (n_eqb a n_0) = false <-> a = 0).
      { intros a. rewrite n_0_R, negb_false_iff. apply Reqb_eq. }
      rewrite andb_false_iff. rewrite !Z. cbn [n_sub Num_R]. split.
      + intros H0. split; [intros; contradiction|intros _]. destruct H0; [left|right]; lra.
      + intros [_ H0]. destruct (H0 H); [left|right]; lra.
    - apply Reqb_ne in E. eexists. split; [reflexivity|]. cbn [n_abs n_sub n_mul n_add Num_R].
      replace ((tc - ta) * ((xb - xa) / (xc - xa)) + ta) with (ta + (tc - ta) * ((xb - xa) / (xc - xa))) by lra.
      split.
      + intros H. apply Rltb_ge in H. split; [intros _; lra|intros; exfalso; lra].
      + intros [H _]. apply Rltb_ge. assert (N : xc <> xa) by lra. specialize (H N). lra.
  Qed.

  (** ** adding samples *)
  Definition tot (m : smodel R) : nat := (List.length (sm_P m) + List.length (sm_S m))%nat.
  Lemma replace_len : forall id a b (l : list (slayer R)), (List.length l <= List.length (replace_shared id a b l))%nat.
  Proof. induction l as [|y l IH]; cbn; [lia|]. destruct (_ =? _)%Z; cbn; lia. Qed.
  Lemma addS_same : forall fuel vm radius innerS p w (done todo other : list (slayer R)) next l o n,
    addS_go fuel vm radius innerS p w done todo other next = Ok (l, o, n) ->
    (List.length other <= List.length o)%nat /\
    ((l = rev done ++ todo /\ o = other /\ n = next) \/ (List.length done + List.length todo < List.length l)%nat).
  Proof.
    induction fuel as [|fuel IH]; intros vm radius innerS p w done todo other next l o n H; [discriminate|].
    cbn [addS_go] in H. destruct todo as [|s rest].
    - inversion H; subst. rewrite app_nil_r. split; [lia|]. left. auto.
    - inv_as H as [tv bv] Hv. if_in H.
      { inversion H; subst. split; [lia|]. left. rewrite rev_append_rev. auto. }
      if_in H.
      { apply IH in H. cbn [rev List.length] in H. rewrite <- app_assoc in H. cbn [app] in H. destruct H as [A [B|B]]; (split; [exact A|]); [left; exact B|right; cbn; lia]. }
      if_in H.
      + inv_as H as [a b] Hab. apply IH in H. destruct H as [A B]. pose proof (replace_len (sl_id s) a b other) as RL. split; [lia|].
        right. cbn [rev List.length] in *. destruct B as [[-> _]|B]; [|lia]. rewrite !app_length, rev_length. cbn. lia.
      + apply IH in H. cbn [rev List.length] in H. rewrite <- app_assoc in H. cbn [app] in H. destruct H as [A [B|B]]; (split; [exact A|]); [left; exact B|right; cbn; lia].
  Qed.
  Lemma addS_splits : forall fuel vm radius innerS p w y (done todo other : list (slayer R)) next l o n,
    addS_go fuel vm radius innerS p w done todo other next = Ok (l, o, n) -> In y todo -> strictly_contains y p = true ->
    (w = true \/ (innerS = true /\ forall x v, evaluateAbove vm x "S" = Ok v \/ evaluateBelow vm x "S" = Ok v -> v <> 0)) ->
    (List.length done + List.length todo < List.length l)%nat.
  Proof.
    induction fuel as [|fuel IH]; intros vm radius innerS p w y done todo other next l o n H Hy Hp Hw; [discriminate|].
    cbn [addS_go] in H. destruct todo as [|s rest]; [destruct Hy|]. inv_as H as [tv bv] Hv.
    assert (E1 : negb w && (negb innerS && n_ltb (vm_iocb vm) (sl_botDepth s)) = false).
    { destruct Hw as [-> |[-> _]]; [reflexivity|]. cbn. apply andb_false_r. }
    rewrite E1 in H.
    assert (E2 : negb w && n_eqb tv n_0 = false).
    { destruct Hw as [-> |[_ Hs]]; [reflexivity|]. destruct w; [reflexivity|]. cbn [negb andb]. rewrite n_0_R. apply Reqb_ne.
      unfold layer_velocities in Hv. if_in Hv; inv_as Hv as tv' Ht; inv_as Hv as bv' Hb; assert (tv = tv') by congruence; subst tv'; eapply Hs; eauto. }
    rewrite E2 in H. destruct (strictly_contains s p) eqn:Es.
    - inv_as H as [a b] Hab. apply addS_same in H. destruct H as [_ [[-> _]|B]]; [rewrite app_length, rev_length|]; cbn [List.length] in *; lia.
    - destruct Hy as [->|Hy]; [congruence|]. eapply IH in H; [|exact Hy|exact Hp|exact Hw]. cbn [List.length] in *. lia.
  Qed.
  Lemma add_same : forall (m m' : smodel R) p w, addSlowness m p w = Ok m' -> m' = m \/ (tot m < tot m')%nat.
  Proof.
    intros m m' p w H. unfold addSlowness in H. inv_as H as [[l o] n] Ha. apply addS_same in Ha. destruct Ha as [A B].
    cbn [rev List.length app plus] in B. destruct w; cbn [sm_layers negb] in *.
    - destruct B as [[-> [-> ->]]|B]; inversion H; subst m'; [left; destruct m; reflexivity|right; unfold tot; cbn; lia].
    - destruct B as [[-> [-> ->]]|B]; inversion H; subst m'; [left; destruct m; reflexivity|right; unfold tot; cbn; lia].
  Qed.
  Lemma add_splits : forall (m m' : smodel R) p w y, addSlowness m p w = Ok m' -> In y (sm_layers m w) -> strictly_contains y p = true ->
    (w = true \/ solid m) -> (tot m < tot m')%nat.
  Proof.
    intros m m' p w y H Hy Hp Hw. unfold addSlowness in H. inv_as H as [[l o] n] Ha. pose proof (addS_same _ _ _ _ _ _ _ _ _ _ _ _ _ Ha) as [A _].
    eapply addS_splits in Ha; [|exact Hy|exact Hp|exact Hw]. cbn [List.length plus] in Ha.
    destruct w; cbn [sm_layers negb] in *; inversion H; subst m'; unfold tot; cbn; lia.
  Qed.
  Lemma both_same : forall (m m' : smodel R) p, addBoth m p = Ok m' -> m' = m \/ (tot m < tot m')%nat.
  Proof.
    intros m m' p H. unfold addBoth in H. inv_as H as m1 H1. apply add_same in H1, H.
    destruct H1 as [->|H1], H as [->|H]; auto; right; lia.
  Qed.
  Lemma both_splits : forall (m m' : smodel R) p w y, addBoth m p = Ok m' -> In y (sm_layers m w) -> strictly_contains y p = true ->
    (w = true \/ solid m) -> (tot m < tot m')%nat.
  Proof.
    intros m m' p w y H Hy Hp Hw. unfold addBoth in H. inv_as H as m1 H1. destruct (add_same _ _ _ _ H1) as [->|X].
    - destruct w; [|eapply add_splits; eassumption]. pose proof (add_splits _ _ _ _ _ H1 Hy Hp Hw). lia.
    - apply add_same in H. destruct H as [->|H]; lia.
  Qed.
  Lemma half_inside : forall y : slayer R, sl_topP y <> sl_botP y -> strictly_contains y ((sl_topP y + sl_botP y) / 2) = true.
  Proof.
    intros y H. unfold strictly_contains. rewrite n_0_R. apply Rltb_lt. cbn [n_mul n_sub Num_R].
    replace ((sl_topP y - (sl_topP y + sl_botP y) / 2) * ((sl_topP y + sl_botP y) / 2 - sl_botP y)) with (Rsqr ((sl_topP y - sl_botP y) / 2)) by (unfold Rsqr; field).
    apply Rsqr_pos_lt. lra.
  Qed.

  (** ** one step *)
  Section Step.
    Variable m : smodel R.
    Variable w : bool.
    Hypothesis J : joined (sm_layers m w).

    (** state of the loop when nothing was added and layer [n] is next *)
    Definition at_layer (n : nat) (s : dcstate) : Prop :=
      dc_m s = m /\ dc_j s = Z.of_nat n /\
      (dc_currOK s = true -> exists k y td, n = S k /\ nth_error (sm_layers m w) k = Some y /\ dc_curr s = Some td /\
         approxDistance m (Z.of_nat k) (sl_botP y) w = Ok td).

    Lemma prev_at : forall n s y, at_layer n s -> nth_error (sm_layers m w) n = Some y -> forall r : option (timedist R) -> option (timedist R) -> result (dcstate (T := R) + smodel R),
      (let! '(prevPrev, prev) :=
         if dc_currOK s then Ok (if dc_prevOK s then dc_prev s else None, dc_curr s)
         else let! p := approxDistance m (Z.of_nat n - 1) (sl_topP y) w in Ok (dc_prevPrev s, Some p) in r prevPrev prev) =
      (let! p := approxDistance m (Z.of_nat n - 1) (sl_topP y) w in
       r (if dc_currOK s then if dc_prevOK s then dc_prev s else None else dc_prevPrev s) (Some p)).
    Proof.
      intros n s y [_ [_ Hc]] Hy r. destruct (dc_currOK s).
      - destruct (Hc eq_refl) as [k [y0 [td [-> [H0 [Ec Ea]]]]]]. cbn [bind]. rewrite Ec.
        replace (Z.of_nat (S k) - 1)%Z with (Z.of_nat k) by lia. rewrite <- (J _ _ _ H0 Hy), Ea. reflexivity.
      - destruct (approxDistance _ _ _ _); reflexivity.
    Qed.
    Lemma getn : forall n y, nth_error (sm_layers m w) n = Some y -> getSlownessLayer m (Z.of_nat n) w = Ok y /\ (Z.of_nat n <? sm_numLayers m w)%Z = true.
    Proof.
      intros n y H. split; [unfold getSlownessLayer; apply py_index_nonneg; [lia|rewrite Nat2Z.id; exact H]|].
      apply Z.ltb_lt. unfold sm_numLayers. assert (n < List.length (sm_layers m w))%nat by (apply nth_error_Some; congruence). lia.
    Qed.
    Lemma zoned_dec : forall y, negb (depthInHighSlowness m (sl_botDepth y) (sl_botP y) w) && negb (depthInHighSlowness m (sl_topDepth y) (sl_topP y) w) = false <-> zoned m w y.
    Proof. intros y. unfold zoned. rewrite andb_false_iff, !negb_false_iff. reflexivity. Qed.

    Lemma slayer_ok : forall id p a q b y, new_slayer id p a q b = Ok y <-> 0 <= a /\ 0 <= b /\ y = mkSL id p a q b :> slayer R.
    Proof.
      intros id p a q b y. unfold new_slayer. rewrite n_0_R. destruct (@n_leb R _ 0 a) eqn:E1; [apply Rleb_le in E1|].
      - destruct (@n_leb R _ 0 b) eqn:E2; [apply Rleb_le in E2|].
        + split; [intros H; inversion H; auto|intros [_ [_ ->]]; reflexivity].
        + split; [discriminate|]. intros [_ [H _]]. assert (X : @n_leb R Num_R 0 b = true) by (apply Rleb_le; exact H). congruence.
      - split; [discriminate|]. intros [H _]. assert (X : @n_leb R Num_R 0 a = true) by (apply Rleb_le; exact H). congruence.
    Qed.

    Lemma forward : forall n s y, at_layer n s -> nth_error (sm_layers m w) n = Some y -> zoned m w y \/ within m w n y ->
      exists s', dc_body w s = Ok (inl s') /\ at_layer (S n) s'.
    Proof.
      intros n s y Hs Hy Hz. pose proof Hs as [E1 [E2 _]]. destruct (getn _ _ Hy) as [G1 G2].
      unfold dc_body. rewrite E1, E2, G2. cbn [negb]. rewrite G1. cbn [bind].
      destruct (negb (depthInHighSlowness m (sl_botDepth y) (sl_botP y) w) && negb (depthInHighSlowness m (sl_topDepth y) (sl_topP y) w)) eqn:Ez.
      2:{ eexists. split; [reflexivity|]. split; [reflexivity|]. split; [cbn; lia|]. cbn. discriminate. }
      destruct Hz as [Hz|Hz]; [apply zoned_dec in Hz; congruence|].
      destruct Hz as [ta [xa [tb [xb [tc [xc [A [B [C [D [F1 F2]]]]]]]]]]].
      destruct C as [t0 [x0 [z [td [C1 [C2 [C3 [C4 [C5 [C6 C7]]]]]]]]]]. subst tc xc.
      rewrite (prev_at n s y Hs Hy (fun prevPrev prev => _)).
      destruct (ray_approx _ _ _ _ _ _ A) as [pa [PA [<- <-]]]. rewrite PA. cbn [bind].
      destruct (ray_approx _ _ _ _ _ _ B) as [pb [PB [<- <-]]]. replace (Z.of_nat (S n) - 1)%Z with (Z.of_nat n) in PB by lia. rewrite PB. cbn [bind not_none].
      assert (Ed : n_ltb (sm_maxRangeInterval m) (n_abs (n_sub (td_dist pa) (td_dist pb))) && n_ltb (n_mul n_2 (sm_minDeltaP m)) (n_abs (n_sub (sl_topP y) (sl_botP y))) = false).
      { apply andb_false_iff. rewrite n_2_R. destruct D as [D|D]; [left|right]; apply Rltb_ge; cbn [n_abs n_sub n_mul Num_R]; lra. }
      rewrite Ed. rewrite n_2_R, py_div_R by lra. cbn [bind n_add Num_R].
      destruct (ray_approx _ _ _ _ _ _ C1) as [pc [PC [<- <-]]]. rewrite PC. cbn [bind]. rewrite C2. cbn [bind].
      rewrite (proj2 (slayer_ok _ _ _ _ _ _) (conj C3 (conj C4 eq_refl))). cbn [bind]. rewrite C5. cbn [bind].
      cbn [n_add n_mul n_sub Num_R].
      destruct (far_iff (td_time pb) (td_time pc + 2 * td_time td) (td_time pa) (td_dist pa) (td_dist pb) (td_dist pc + 2 * td_dist td) (sm_maxInterpError m)) as [b [Eb Ib]].
      rewrite Eb. cbn [bind]. rewrite (proj2 Ib (conj F1 F2)).
      eexists. split; [reflexivity|]. split; [reflexivity|]. split; [cbn; lia|]. cbn. intros _. exists n, y, pb. auto.
    Qed.

    Lemma backward : forall n s s' y, at_layer n s -> nth_error (sm_layers m w) n = Some y -> (~ zoned m w y -> sl_topP y <> sl_botP y) -> (w = true \/ solid m) ->
      dc_body w s = Ok (inl s') -> ((zoned m w y \/ within m w n y) /\ at_layer (S n) s') \/ (tot m < tot (dc_m s'))%nat.
    Proof.
      intros n s s' y Hs Hy Hf Hw H. pose proof Hs as [E1 [E2 _]]. destruct (getn _ _ Hy) as [G1 G2].
      unfold dc_body in H. rewrite E1, E2, G2 in H. cbn [negb] in H. rewrite G1 in H. cbn [bind] in H.
      destruct (negb (depthInHighSlowness m (sl_botDepth y) (sl_botP y) w) && negb (depthInHighSlowness m (sl_topDepth y) (sl_topP y) w)) eqn:Ez.
      2:{ inversion H; subst s'. left. split; [left; apply zoned_dec; exact Ez|]. split; [reflexivity|]. split; [cbn; lia|]. cbn. discriminate. }
      assert (Hn : ~ zoned m w y) by (intros X; apply zoned_dec in X; congruence). specialize (Hf Hn).
      rewrite (prev_at n s y Hs Hy (fun prevPrev prev => _)) in H.
      inv_as H as pa PA. inv_as H as pb PB. inv_as H as pv Hpv. cbn in Hpv. assert (pv = pa) by congruence. subst pv. clear Hpv.
      pose proof (half_inside y Hf) as HI. rewrite n_2_R in H. rewrite py_div_R in H by lra. cbn [bind n_add Num_R] in H.
      destruct (n_ltb (sm_maxRangeInterval m) _ && n_ltb _ _) eqn:Ed.
      { inv_as H as m2 H5. inversion H; subst s'. right. cbn [dc_m]. eapply both_splits; [exact H5|eapply nth_error_In; exact Hy|exact HI|exact Hw]. }
      inv_as H as pc PC. inv_as H as z Hz. inv_as H as sp Hsp. inv_as H as td Htd. inv_as H as far Hfar.
      apply slayer_ok in Hsp. destruct Hsp as [C3 [C4 ->]]. cbn [n_add n_mul n_sub Num_R] in Hfar.
      destruct (far_iff (td_time pb) (td_time pc + 2 * td_time td) (td_time pa) (td_dist pa) (td_dist pb) (td_dist pc + 2 * td_dist td) (sm_maxInterpError m)) as [b [Eb Ib]].
      rewrite Eb in Hfar. assert (b = far) by congruence. subst b. destruct far.
      - right. inv_as H as hp H10. inv_as H as m2 H11. inv_as H as m3 H13.
        assert (X : (tot m < tot m3)%nat).
        { destruct (both_same _ _ _ H11) as [-> |X].
          - eapply both_splits; [exact H13|eapply nth_error_In; exact Hy|exact HI|exact Hw].
          - destruct (both_same _ _ _ H13) as [-> |Y]; lia. }
        destruct (_ >? 0)%Z; [inv_as H as z' H14|]; inversion H; subst s'; exact X.
      - left. inversion H; subst s'. split.
        + right. pose proof (proj1 Ib eq_refl) as [F1 F2].
          exists (td_time pa), (td_dist pa), (td_time pb), (td_dist pb), (td_time pc + 2 * td_time td), (td_dist pc + 2 * td_dist td).
          split; [apply approx_ray; exact PA|]. split; [apply approx_ray; replace (Z.of_nat (S n) - 1)%Z with (Z.of_nat n) by lia; exact PB|].
          split.
          { exists (td_time pc), (td_dist pc), z, td. split; [apply approx_ray; exact PC|]. auto 7. }
          split; [|split; assumption]. apply andb_false_iff in Ed. destruct Ed as [Ed|Ed]; [left|right]; apply Rltb_ge in Ed; cbn [n_abs n_sub n_mul Num_R] in Ed; lra.
        + split; [reflexivity|]. split; [cbn; lia|]. cbn. intros _. exists n, y, pb. auto.
    Qed.
  End Step.

  (** ** the whole loop *)
  Lemma check_forward : forall (m : smodel R) w fuel, joined (sm_layers m w) -> sm_layers m w <> [] -> settled m w ->
    (List.length (sm_layers m w) < fuel)%nat -> distanceCheck1 fuel w m = Ok m.
  Proof.
    intros m w fuel J Hne Hs Hf. unfold distanceCheck1. destruct (sm_layers m w) as [|y0 l0] eqn:E0; [contradiction|].
    assert (H0 : nth_error (sm_layers m w) 0 = Some y0) by (rewrite E0; reflexivity).
    rewrite <- E0 in *. clear Hne. destruct (getn m w 0%nat y0 H0) as [G _]. change (Z.of_nat 0) with 0%Z in G. rewrite G. cbn [bind].
    assert (X : forall k n s, (List.length (sm_layers m w) - n < k)%nat -> at_layer m w n s -> (n <= List.length (sm_layers m w))%nat ->
              while k (dc_body w) s = Ok m).
    { induction k as [|k IH]; intros n s Hk Ha Hn; [lia|]. cbn [while]. destruct (nth_error (sm_layers m w) n) as [y|] eqn:Ey.
      - destruct (forward m w J n s y Ha Ey (Hs n y Ey)) as [s' [B Ha']]. rewrite B. cbn [bind].
        assert (n < List.length (sm_layers m w))%nat by (apply nth_error_Some; congruence). apply (IH (S n)); [lia|exact Ha'|lia].
      - apply nth_error_None in Ey. destruct Ha as [A1 [A2 _]]. unfold dc_body. rewrite A1, A2.
        assert (E : (Z.of_nat n <? sm_numLayers m w)%Z = false) by (apply Z.ltb_ge; unfold sm_numLayers; lia). rewrite E. reflexivity. }
    apply (X fuel 0%nat); [lia| |lia]. split; [reflexivity|]. split; [reflexivity|]. cbn. discriminate.
  Qed.

  Lemma body_same : forall w (s s' : dcstate (T := R)), dc_body w s = Ok (inl s') -> dc_m s' = dc_m s \/ (tot (dc_m s) < tot (dc_m s'))%nat.
  Proof.
    intros w s s' H. unfold dc_body in H. if_in H; [discriminate|]. inv_as H as y Hy. if_in H.
    - inv_as H as [pp pv] H1. inv_as H as cu H2. inv_as H as pvv H3. if_in H.
      + inv_as H as hf H4. inv_as H as m2 H5. inversion H; subst. eapply both_same; eassumption.
      + inv_as H as srp H4. inv_as H as ab H5. inv_as H as dp H6. inv_as H as sp H7. inv_as H as ju H8. inv_as H as q H9. destruct q.
        * inv_as H as hp H10. inv_as H as m2 H11. inv_as H as hf H12. inv_as H as m3 H13.
          assert (X : m3 = dc_m s \/ (tot (dc_m s) < tot m3)%nat).
          { destruct (both_same _ _ _ H11) as [-> |X], (both_same _ _ _ H13) as [-> |Y]; auto; right; lia. }
          destruct (_ >? 0)%Z; [inv_as H as z H14|]; inversion H; subst; exact X.
        * inversion H; subst. auto.
    - inversion H; subst. auto.
  Qed.
  Lemma check_same : forall fuel w (m m' : smodel R), distanceCheck1 fuel w m = Ok m' -> m' = m \/ (tot m < tot m')%nat.
  Proof.
    intros fuel w m m' H. unfold distanceCheck1 in H. inv_as H as y0 Hy0.
    eapply (while_inv (fun s => dc_m s = m \/ (tot m < tot (dc_m s))%nat) (fun b => b = m \/ (tot m < tot b)%nat)) in H; [exact H|..|left; reflexivity].
    - intros s s' Hs Hb. apply body_same in Hb. destruct Hb as [-> |Hb]; [exact Hs|]. right. destruct Hs as [<-|Hs]; lia.
    - intros s b Hs Hb. destruct (dc_stop _ _ _ Hb) as [<- _]. exact Hs.
  Qed.
  Lemma check_backward : forall fuel (m : smodel R) w, joined (sm_layers m w) ->
    (forall y, In y (sm_layers m w) -> ~ zoned m w y -> sl_topP y <> sl_botP y) -> (w = true \/ solid m) ->
    distanceCheck1 fuel w m = Ok m -> settled m w.
  Proof.
    intros fuel m w J F Hw H. unfold distanceCheck1 in H. inv_as H as y0 Hy0.
    pose (I := fun s : dcstate (T := R) => (exists n, at_layer m w n s /\ (n <= List.length (sm_layers m w))%nat /\
             forall k y, (k < n)%nat -> nth_error (sm_layers m w) k = Some y -> zoned m w y \/ within m w k y) \/ (tot m < tot (dc_m s))%nat).
    assert (X : settled m w \/ (tot m < tot m)%nat).
    { eapply (while_inv I (fun b => settled m w \/ (tot m < tot b)%nat)) in H; [exact H|..].
      - intros s s' [[n [Ha [Hn Hp]]]|Hs] Hb.
        + destruct (nth_error (sm_layers m w) n) as [y|] eqn:Ey.
          * destruct (backward m w J n s s' y Ha Ey (F y (nth_error_In _ _ Ey)) Hw Hb) as [[A B]|A]; [left|right; exact A].
            exists (S n). split; [exact B|]. assert (n < List.length (sm_layers m w))%nat by (apply nth_error_Some; congruence). split; [lia|].
            intros k y' Hk Hy'. destruct (Nat.eq_dec k n) as [->|Hne]; [|apply Hp; [lia|exact Hy']]. assert (y' = y) by congruence. subst y'. exact A.
          * exfalso. apply nth_error_None in Ey. destruct Ha as [A1 [A2 _]]. unfold dc_body in Hb. rewrite A1, A2 in Hb.
            assert (E : (Z.of_nat n <? sm_numLayers m w)%Z = false) by (apply Z.ltb_ge; unfold sm_numLayers; lia). rewrite E in Hb. discriminate.
        + right. apply body_same in Hb. destruct Hb as [-> |Hb]; lia.
      - intros s b [[n [Ha [Hn Hp]]]|Hs] Hb; destruct (dc_stop _ _ _ Hb) as [<- Hj]; [left|right; exact Hs].
        destruct Ha as [A1 [A2 _]]. rewrite A1, A2 in Hj. intros k y Hy. apply (Hp k y); [|exact Hy].
        assert (k < List.length (sm_layers m w))%nat by (apply nth_error_Some; congruence). lia.
      - left. exists 0%nat. split; [split; [reflexivity|split; [reflexivity|cbn; discriminate]]|]. split; [lia|]. intros; lia. }
    destruct X as [X|X]; [exact X|lia].
  Qed.
End Check.

(** What the distance check implies for the slownesses (for property C67). *)
From Coq Require Import ZArith Bool List String Reals Lia Lra.
From Verif Require Import Base Num PyStr VelocityModel VelSpec VelProofs SlownessLayer SlownessModel
  SlowSpec SlowProofs SlowAddProofs SlowBuildProofs CritSpec CritProofs SlowRealProofs SampleProofs StackSpec StackProofs MonoSpec MonoProofs CompatSpec CompatProofs FallSpec.
Import ListNotations.
Local Open Scope list_scope.
Local Open Scope R_scope.

(** ** distances are only computed for rays that pass *)
Lemma foldM_each : forall {A B} (f : B -> A -> result B) l b b' a, foldM f l b = Ok b' -> In a l -> exists b1 b2, f b1 a = Ok b2.
Proof.
  intros A B f. induction l as [|x l IH]; intros b b' a H Ha; [destruct Ha|]. cbn [foldM] in H. inv_as H as c Hc.
  destruct Ha as [->|Ha]; [eauto|eapply IH; eassumption].
Qed.
Lemma approx_below : forall {L : Libm R} (m : smodel R) j p w td y, approxDistance m j p w = Ok td -> (0 <= j)%Z ->
  getSlownessLayer m j w = Ok y -> p <= sl_topP y /\ p <= sl_botP y.
Proof.
  intros L m j p w td y H Hj Hy. unfold approxDistance in H. if_in H; [discriminate|]. if_in H; [discriminate|].
  inv_as H as t Ht. apply foldM_each with (a := j) in Ht; [|apply zrange_In; lia]. destruct Ht as [b1 [b2 Hb]].
  inv_as Hb as x Hx. unfold layerTimeDist in Hx. rewrite Hy in Hx. cbn [bind] in Hx. if_in Hx; [discriminate|].
  if_in Hx; [discriminate|]. destruct (n_ltb (py_min (sl_topP y) (sl_botP y)) p) eqn:E; [discriminate|].
  apply Rltb_ge in E. unfold py_min in E.
  destruct (n_ltb (sl_botP y) (sl_topP y)) eqn:E2; [apply Rltb_lt in E2|apply Rltb_ge in E2]; lra.
Qed.

Section Model.
  Variable vm : vmodel R.
  Hypothesis Hc : contiguous (vm_layers vm).
  Hypothesis Ht : thick (vm_layers vm).
  Hypothesis Hl : forall v, In v (vm_layers vm) -> layer_ok v.

  (** [y'] is [y] or one of two parts of it *)
  Definition part (y y' : slayer R) : Prop :=
    sl_topDepth y <= sl_topDepth y' /\ sl_botDepth y' <= sl_botDepth y /\
    (sl_topDepth y' = sl_botDepth y' <-> sl_topDepth y = sl_botDepth y) /\
    (sl_topP y' < sl_botP y' <-> sl_topP y < sl_botP y).
  Lemma part_refl : forall y, part y y.
  Proof. intros y. unfold part. intuition lra. Qed.
  Lemma part_trans : forall a b c, part a b -> part b c -> part a c.
  Proof. intros a b c. unfold part. intuition lra. Qed.
  Lemma halves_parts : forall p y a b, spans y p -> halves p y a b -> sl_topDepth a <= sl_botDepth a -> sl_topDepth b <= sl_botDepth b ->
    (sl_topDepth y < sl_botDepth y -> sl_topDepth a < sl_botDepth a /\ sl_topDepth b < sl_botDepth b) -> part y a /\ part y b.
  Proof.
    intros p y a b Sp [H1 [H2 [H3 [H4 [H5 [H6 H7]]]]]] Ua Ub Hf. apply spans_pass in Sp. unfold passes_through in Sp.
    unfold part. rewrite H1, H2, H3, H4, H6, H7.
    assert (Up : sl_topDepth y <= sl_botDepth y) by lra.
    destruct (Rlt_le_dec (sl_topDepth y) (sl_botDepth y)) as [F|F]; [destruct (Hf F)|]; intuition lra.
  Qed.
  Lemma step_part : forall m p w m' v, addSlowness m p w = Ok m' -> okm vm m ->
    (forall k y', nth_error (sm_layers m' v) k = Some y' -> exists k0 y, (k0 <= k)%nat /\ nth_error (sm_layers m v) k0 = Some y /\ part y y') /\
    (forall y, In y (sm_layers m v) -> exists y', In y' (sm_layers m' v) /\ part y y').
  Proof.
    intros m p w m' v H Hm. pose proof (okm_step vm Hc Ht Hl _ _ _ _ H Hm) as Hm'. destruct Hm as [W [Id [Up Me]]].
    destruct (s_inv_cuts vm Hc Ht Hl _ _ _ _ W Id Up H) as [_ [f [E Cut]]].
    assert (P2 : forall y a b, In y (sm_layers m v) -> f (sl_id y) = Some (a, b) -> In a (sm_layers m' v) /\ In b (sm_layers m' v) /\ part y a /\ part y b).
    { intros y a b Hy Ef. destruct (Cut v y a b Hy Ef) as [Sp [Ha Hf]].
      destruct (splice_In_new f (sm_layers m v) y a b Hy Ef) as [Ia Ib]. rewrite <- E in Ia, Ib. do 2 (split; [assumption|]).
      apply (halves_parts p); [exact Sp|exact Ha|eapply okm_upright; eassumption..|exact Hf]. }
    split.
    - intros k y' Hk. rewrite E in Hk. destruct (SampleProofs.splice_nth f _ k y' Hk) as [i [z [A [B C]]]]. exists i, z. split; [exact A|]. split; [exact B|].
      destruct C as [[_ ->]|[a [b [Ef Hab]]]]; [apply part_refl|]. destruct (P2 z a b (nth_error_In _ _ B) Ef) as [_ [_ [Pa Pb]]].
      destruct Hab as [-> | ->]; assumption.
    - intros y Hy. destruct (f (sl_id y)) as [[a b]|] eqn:Ef.
      + exists a. destruct (P2 y a b Hy Ef) as [Ia [_ [Pa _]]]. auto.
      + exists y. split; [|apply part_refl]. rewrite E. apply splice_In_keep; assumption.
  Qed.
  Lemma samples_part : forall m m' v, samples m m' -> okm vm m ->
    (forall k y', nth_error (sm_layers m' v) k = Some y' -> exists k0 y, (k0 <= k)%nat /\ nth_error (sm_layers m v) k0 = Some y /\ part y y') /\
    (forall y, In y (sm_layers m v) -> exists y', In y' (sm_layers m' v) /\ part y y').
  Proof.
    intros m m' v H. induction H as [m|m p w m1 m2 H Hs IH]; intros Hm.
    - split; [intros k y' Hk; exists k, y'|intros y Hy; exists y]; auto using part_refl.
    - destruct (step_part _ _ _ _ v H Hm) as [A B]. destruct (IH (okm_step vm Hc Ht Hl _ _ _ _ H Hm)) as [C D]. split.
      + intros k y' Hk. destruct (C k y' Hk) as [k1 [y1 [L1 [H1 P1]]]]. destruct (A k1 y1 H1) as [k0 [y [L0 [H0 P0]]]].
        exists k0, y. split; [lia|]. split; [exact H0|]. eapply part_trans; eassumption.
      + intros y Hy. destruct (B y Hy) as [y1 [H1 P1]]. destruct (D y1 H1) as [y' [H2 P2]]. exists y'. split; [exact H2|]. eapply part_trans; eassumption.
  Qed.

  (** ** layers the check has passed *)
  Definition fine (zs : list (drange R)) (y : slayer R) : Prop := sl_botP y <= sl_topP y \/ by_zone vm zs y.
  Lemma fine_part : forall zs y y', part y y' -> fine zs y -> fine zs y'.
  Proof.
    intros zs y y' [P1 [P2 [P3 P4]]] [F|[z [lo [hi [Hz [A [B [C [D E]]]]]]]]]; [left; lra|right].
    exists z, lo, hi. split; [exact Hz|]. split; [lra|]. split; [lra|]. split; [exact C|]. split; [intros X; apply D, P3; exact X|exact E].
  Qed.
  Lemma own_zone : forall m w y, okm vm m -> In y (sm_layers m w) ->
    depthInHighSlowness m (sl_botDepth y) (sl_botP y) w = true \/ depthInHighSlowness m (sl_topDepth y) (sl_topP y) w = true ->
    by_zone vm (hi_zones m w) y.
  Proof.
    intros m w y Hm Hy H.
    assert (Z : forall x q, depthInHighSlowness m x q w = true -> exists z, In z (hi_zones m w) /\ in_zone z x).
    { intros x q X. unfold depthInHighSlowness in X. apply existsb_exists in X. destruct X as [z [Hz X]]. exists z. split; [exact Hz|].
      rewrite !andb_true_iff in X. destruct X as [[X1 X2] _]. apply Rleb_le in X1, X2. split; assumption. }
    assert (V : sl_topDepth y < sl_botDepth y -> exists v, In v (vm_layers vm) /\ vl_topDepth v <= sl_topDepth y /\ sl_botDepth y <= vl_botDepth v).
    { intros F. destruct Hm as [[_ [_ [GP GS]]] _]. destruct w; cbn [sm_layers] in Hy.
      - destruct (GP y Hy F) as [v [Hv [A [B _]]]]. eauto.
      - destruct (GS y Hy F) as [[v [Hv [[A [B _]] _]]]|[v [Hv [[A [B _]] _]]]]; eauto. }
    destruct H as [H|H]; apply Z in H; destruct H as [z [Hz I]]; exists z, (sl_topDepth y), (sl_botDepth y);
      (split; [exact Hz|]; split; [lra|]; split; [lra|]; split; [auto|]; split; [auto|exact V]).
  Qed.

  Definition dinv (w : bool) (zs : list (drange R)) (s : dcstate) : Prop :=
    okm vm (dc_m s) /\ hi_zones (dc_m s) w = zs /\ (0 <= dc_j s)%Z /\
    forall k y, (Z.of_nat k < dc_j s)%Z -> nth_error (sm_layers (dc_m s) w) k = Some y -> fine zs y.
  Lemma zones_kept : forall (m m' : smodel R) w, samples m m' -> ids_ok m -> hi_zones m' w = hi_zones m w.
  Proof.
    intros m m' w H Hid. destruct (samples_keep _ _ H Hid) as [_ [SS _]]. unfold same_setup in SS. decompose [and] SS.
    unfold hi_zones. destruct w; congruence.
  Qed.
  Lemma dinv_samples : forall w zs m m' j, samples m m' -> okm vm m -> hi_zones m w = zs ->
    (forall k y, (Z.of_nat k < j)%Z -> nth_error (sm_layers m w) k = Some y -> fine zs y) ->
    okm vm m' /\ hi_zones m' w = zs /\ forall k y, (Z.of_nat k < j)%Z -> nth_error (sm_layers m' w) k = Some y -> fine zs y.
  Proof.
    intros w zs m m' j H Hm Hz Hq. split; [eapply (okm_samples vm Hc Ht Hl); eassumption|].
    split; [rewrite (zones_kept _ _ w H); [exact Hz|apply Hm]|].
    intros k y Lk Hk. destruct (samples_part _ _ w H Hm) as [A _]. destruct (A k y Hk) as [k0 [y0 [L0 [H0 P0]]]].
    eapply fine_part; [exact P0|]. eapply Hq; [|exact H0]. lia.
  Qed.
  Lemma dc_step : forall {L : Libm R} w zs s s', dinv w zs s -> dc_body w s = Ok (inl s') -> dinv w zs s'.
  Proof.
    intros L w zs s s' [Hm [Hz [Hj Hq]]] H. unfold dc_body in H. if_in H; [discriminate|].
    inv_as H as y Hy. pose proof Hy as Gy. unfold getSlownessLayer in Hy. apply (py_index_nonneg _ _ _) in Hy; [|exact Hj].
    assert (Next : fine zs y -> forall k y', (Z.of_nat k < dc_j s + 1)%Z -> nth_error (sm_layers (dc_m s) w) k = Some y' -> fine zs y').
    { intros F k y' Lk Hk. destruct (Z.eq_dec (Z.of_nat k) (dc_j s)) as [E|E]; [|apply (Hq k); [lia|exact Hk]].
      assert (k = Z.to_nat (dc_j s)) by lia. subst k. assert (y' = y) by congruence. subst y'. exact F. }
    destruct (negb (depthInHighSlowness _ _ _ _) && negb (depthInHighSlowness _ _ _ _)) eqn:Ez.
    - inv_as H as [pp pv] H1. inv_as H as cu H2. inv_as H as pvv H3.
      assert (F : fine zs y) by (left; exact (proj1 (approx_below _ _ _ _ _ _ H2 Hj Gy))). if_in H.
      + inv_as H as hf H4. inv_as H as m2 H5. inversion H; subst s'. clear H. unfold dinv. cbn [dc_m dc_j].
        apply addBoth_samples in H5. destruct (dinv_samples w zs _ _ _ H5 Hm Hz Hq) as [A [B C]]. auto.
      + inv_as H as srp H4. inv_as H as ab H5. inv_as H as dp H6. inv_as H as sp H7.
        inv_as H as ju H8. inv_as H as q H9. destruct q.
        * inv_as H as hp H10. inv_as H as m2 H11. inv_as H as hf H12. inv_as H as m3 H13.
          apply addBoth_samples in H11, H13. destruct (dinv_samples w zs _ _ _ (samples_trans _ _ _ H11 H13) Hm Hz Hq) as [A [B C]].
          destruct (Z.gtb_spec (dc_j s) 0) as [Lj|Lj]; [inv_as H as z H14|]; inversion H; subst s'; clear H; unfold dinv; cbn [dc_m dc_j].
          -- split; [exact A|]. split; [exact B|]. split; [lia|]. intros k z' Lk. apply C. lia.
          -- auto.
        * inversion H; subst s'. clear H. unfold dinv. cbn [dc_m dc_j]. split; [exact Hm|]. split; [exact Hz|]. split; [lia|]. exact (Next F).
    - inversion H; subst s'. clear H. unfold dinv. cbn [dc_m dc_j]. split; [exact Hm|]. split; [exact Hz|]. split; [lia|]. apply Next. right.
      rewrite <- Hz. apply own_zone; [exact Hm|eapply nth_error_In; exact Hy|].
      apply andb_false_iff in Ez. rewrite !negb_false_iff in Ez. exact Ez.
  Qed.
  Lemma dc_stop : forall {L : Libm R} w s b, dc_body w s = Ok (inr b) -> dc_m s = b /\ (Z.of_nat (List.length (sm_layers b w)) <= dc_j s)%Z.
  Proof.
    intros L w s b H. unfold dc_body in H. destruct (Z.ltb_spec (dc_j s) (sm_numLayers (dc_m s) w)) as [X|X]; cbn [negb] in H.
    - exfalso. inv_as H as y Hy. if_in H.
      + inv_as H as [pp pv] H1. inv_as H as cu H2. inv_as H as pvv H3. if_in H.
        * inv_as H as hf H4. inv_as H as m2 H5. discriminate.
        * inv_as H as srp H4. inv_as H as ab H5. inv_as H as dp H6. inv_as H as sp H7.
          inv_as H as ju H8. inv_as H as q H9. destruct q.
          -- inv_as H as hp H10. inv_as H as m2 H11. inv_as H as hf H12. inv_as H as m3 H13.
             destruct (_ >? 0)%Z; [inv_as H as z H14|]; discriminate.
          -- discriminate.
      + discriminate.
    - inversion H; subst b. auto.
  Qed.
  Lemma while_inv : forall {S B} (I : S -> Prop) (Q : B -> Prop) (body : S -> result (S + B)),
    (forall s s', I s -> body s = Ok (inl s') -> I s') -> (forall s b, I s -> body s = Ok (inr b) -> Q b) ->
    forall fuel s b, while fuel body s = Ok b -> I s -> Q b.
  Proof.
    intros S B I Q body H1 H2. induction fuel as [|fuel IH]; intros s b H Hi; [discriminate|].
    cbn [while] in H. inv_as H as x Hx. destruct x as [s'|b']; [eapply IH; [exact H|eapply H1; eassumption]|].
    inversion H; subst. eapply H2; eassumption.
  Qed.
  Lemma dc1_fine : forall {L : Libm R} fuel w m m', distanceCheck1 fuel w m = Ok m' -> okm vm m ->
    okm vm m' /\ hi_zones m' w = hi_zones m w /\ forall y, In y (sm_layers m' w) -> fine (hi_zones m w) y.
  Proof.
    intros L fuel w m m' H Hm. unfold distanceCheck1 in H. inv_as H as y0 Hy0.
    eapply (while_inv (dinv w (hi_zones m w)) (fun m' => okm vm m' /\ hi_zones m' w = hi_zones m w /\ forall y, In y (sm_layers m' w) -> fine (hi_zones m w) y)) in H; [exact H|..].
    - intros s s' Hi Hb. eapply dc_step; eassumption.
    - intros s b [A [B [C D]]] Hb. destruct (dc_stop _ _ _ Hb) as [<- Lj]. split; [exact A|]. split; [exact B|].
      intros y Hy. apply In_nth_error in Hy. destruct Hy as [k Hk]. apply (D k); [|exact Hk].
      assert (k < List.length (sm_layers (dc_m s) w))%nat by (apply nth_error_Some; congruence). lia.
    - split; [exact Hm|]. split; [reflexivity|]. split; [cbn; lia|]. cbn [dc_j]. intros k y Lk. lia.
  Qed.
  Lemma dc1_samples : forall {L : Libm R} fuel w (m m' : smodel R), distanceCheck1 fuel w m = Ok m' -> samples m m'.
  Proof.
    intros L fuel w m m' H. unfold distanceCheck1 in H. inv_as H as y0 Hy0.
    eapply (while_inv (fun s => samples m (dc_m s)) (fun b => samples m b)) in H; [exact H|..|apply samples_refl].
    - clear H. intros s s' Hs H. eapply samples_trans; [exact Hs|]. clear Hs. unfold dc_body in H. if_in H; [discriminate|]. inv_as H as y Hy. if_in H.
      + inv_as H as [pp pv] H1. inv_as H as cu H2. inv_as H as pvv H3. if_in H.
        * inv_as H as hf H4. inv_as H as m2 H5. inversion H; subst. eapply addBoth_samples; eassumption.
        * inv_as H as srp H4. inv_as H as ab H5. inv_as H as dp H6. inv_as H as sp H7. inv_as H as ju H8. inv_as H as q H9. destruct q.
          -- inv_as H as hp H10. inv_as H as m2 H11. inv_as H as hf H12. inv_as H as m3 H13.
             assert (samples (dc_m s) m3) by (eapply samples_trans; eapply addBoth_samples; eassumption).
             destruct (_ >? 0)%Z; [inv_as H as z H14|]; inversion H; subst; assumption.
          -- inversion H; subst. apply samples_refl.
      + inversion H; subst. apply samples_refl.
    - intros s b Hs Hb. destruct (dc_stop _ _ _ Hb) as [<- _]. exact Hs.
  Qed.
  Lemma dc_fine : forall {L : Libm R} fuel m m', distanceCheck fuel m = Ok m' -> okm vm m ->
    forall w y, In y (sm_layers m' w) -> fine (hi_zones m w) y.
  Proof.
    intros L fuel m m' H Hm. unfold distanceCheck in H. inv_as H as m1 H1.
    destruct (dc1_fine _ _ _ _ H1 Hm) as [Hm1 [Z1 F1]]. destruct (dc1_fine _ _ _ _ H Hm1) as [Hm2 [Z2 F2]].
    apply dc1_samples in H1, H. intros w. destruct w.
    - rewrite <- (zones_kept _ _ true H1 (proj1 (proj2 Hm))). exact F2.
    - intros y Hy. apply In_nth_error in Hy. destruct Hy as [k Hk]. destruct (samples_part _ _ false H Hm1) as [A _].
      destruct (A k y Hk) as [k0 [y0 [_ [H0 P0]]]]. eapply fine_part; [exact P0|]. apply F1. eapply nth_error_In; exact H0.
  Qed.
End Model.

(** ** the first sampling has every velocity layer *)
Section Start.
  Variable m : smodel R.
  Let vm := sm_vMod m.
  Let innerS := sm_allowInnerCoreS m.
  Hypothesis Hc : contiguous (vm_layers vm).
  Hypothesis Ht : thick (vm_layers vm).
  Hypothesis Hl : forall l, In l (vm_layers vm) -> layer_ok l.
  Hypothesis Hf : fluid_runs (vm_layers vm) (sm_fluid m).
  Definition shows (w : bool) (ls : list (slayer R)) (v : vlayer R) : Prop :=
    exists y, In y ls /\ sl_topDepth y = vl_topDepth v /\ sl_botDepth y = vl_botDepth v /\ profile vm innerS w v (sl_topP y) (sl_botP y).
  Lemma shown_step : forall Ps Ss next u v st', In v (vm_layers vm) -> coarse_step m (Ps, Ss, next, u) v = Ok st' ->
    exists Pn Sn next', st' = (Ps ++ Pn, Ss ++ Sn, next', v) /\ shows true Pn v /\ shows false Sn v.
  Proof.
    intros Ps Ss next u v st' Hv H. apply coarse_step_out in H; [|assumption..].
    destruct H as [Pz [Sz [nx [cP [cS [E [A1 [A2 [A3 [A4 [A5 [A6 [A7 Z]]]]]]]]]]]]].
    exists (Pz ++ [cP]), (Sz ++ [cS]), nx. split; [exact E|].
    assert (K : forall w y, sl_topDepth y = vl_topDepth v -> sl_botDepth y = vl_botDepth v ->
      (exists pv : bool, (pv = true <-> follows_P vm innerS w v) /\ sl_topP y = top_of pv v /\ sl_botP y = bot_of pv v) -> profile vm innerS w v (sl_topP y) (sl_botP y)).
    { intros w y E1 E2 [pv [P [E3 E4]]]. destruct (profile_ends m Ht Hl (map vl_topDepth (vm_layers vm)) (fun i u _ E => in_map vl_topDepth _ _ (nth_error_In _ _ E)) w v Hv) as [qv [Q HQ]]. assert (qv = pv).
      { destruct qv, pv; try reflexivity; exfalso; [assert (X : false = true) by (apply P, Q; reflexivity)|
          assert (X : false = true) by (apply Q, P; reflexivity)]; discriminate. }
      subst qv. rewrite E3, E4. exact HQ. }
    split; [exists cP|exists cS]; (split; [apply in_or_app; right; left; reflexivity|]; split; [assumption|]; split; [assumption|]; apply K; [assumption..|]).
    - exists true. split; [|auto]. split; [intros _; left; reflexivity|reflexivity].
    - destruct A7 as [[X [Y Y']]|[X [_ [_ [Y Y']]]]].
      + exists true. split; [|auto]. split; [intros _; right; exact X|reflexivity].
      + exists false. split; [|auto]. split; [discriminate|]. intros [W|W]; [discriminate|contradiction].
  Qed.
  Lemma shown_fold : forall ls Ps Ss next u st', (forall v, In v ls -> In v (vm_layers vm)) -> foldM (coarse_step m) ls (Ps, Ss, next, u) = Ok st' ->
    exists Pn Sn next' v', st' = (Ps ++ Pn, Ss ++ Sn, next', v') /\ forall v, In v ls -> shows true Pn v /\ shows false Sn v.
  Proof.
    induction ls as [|v ls IH]; intros Ps Ss next u st' Hi H; cbn [foldM] in H.
    - inversion H; subst. exists [], [], next, u. rewrite !app_nil_r. split; [reflexivity|]. intros v [].
    - inv_as H as st Ha. apply shown_step in Ha; [|apply Hi; left; reflexivity]. destruct Ha as [Pa [Sa [na [-> [A B]]]]].
      apply IH in H; [|intros x Hx; apply Hi; right; exact Hx]. destruct H as [Pn [Sn [n' [v' [-> C]]]]].
      exists (Pa ++ Pn), (Sa ++ Sn), n', v'. rewrite !app_assoc. split; [reflexivity|].
      assert (M : forall w l1 l2 x, shows w l1 x \/ shows w l2 x -> shows w (l1 ++ l2) x).
      { intros w l1 l2 x [[y [Hy X]]|[y [Hy X]]]; exists y; (split; [apply in_or_app; auto|exact X]). }
      intros x [<-|Hx]; [split; apply M; auto|]. destruct (C x Hx). split; apply M; auto.
  Qed.
  Lemma shown_start : forall m0, coarse_start m m0 -> forall w v, In v (vm_layers vm) -> shows w (sm_layers m0 w) v.
  Proof.
    intros m0 [first [Ps [Ss [next [v [Hi [Hfold ->]]]]]]] w u Hu. fold vm in Hfold. apply shown_fold in Hfold; [|auto].
    destruct Hfold as [Pn [Sn [n' [v' [E A]]]]]. inversion E; subst. destruct (A u Hu). destruct w; assumption.
  Qed.
End Start.

(** ** constructed models *)
Lemma constructed_fine : forall {L : Libm R} fuel vm dp Dp dz dx err innerS tol (m : smodel R),
  newSlownessModel fuel vm dp Dp dz dx err innerS tol = Ok m -> thick (vm_layers vm) -> vm_radius vm = 6371 ->
  contiguous (vm_layers vm) /\ forall w,
  (forall y, In y (sm_layers m w) -> fine vm (hi_zones m w) y) /\ s_join (sm_layers m w) /\ s_meet (sm_layers m w) /\ s_upright (sm_layers m w) /\
  (exists m1, findCriticalPoints (sm_set_radius (sm_init vm dp Dp dz dx err innerS tol) (vm_radius vm)) = Ok m1 /\ hi_zones m w = hi_zones m1 w) /\
  exists ls, s_join ls /\ s_meet ls /\ s_upright ls /\ (forall v, In v (vm_layers vm) -> exists y, In y ls /\ sl_topDepth y = vl_topDepth v /\ sl_botDepth y = vl_botDepth v /\
      profile vm innerS w v (sl_topP y) (sl_botP y)) /\
    forall y, In y ls -> exists y', In y' (sm_layers m w) /\ part y y'.
Proof.
  intros L fuel vm dp Dp dz dx err innerS tol m H Ht Hr.
  pose proof H as H'. unfold newSlownessModel in H'. destruct (createSample_built _ _ _ H' (R_ok _)) as [_ [_ [_ [Built _]]]]. clear H'.
  unfold newSlownessModel, createSample in H. cbn [sm_init sm_vMod] in H.
  inv_as H as ok Hok. destruct ok; cbn [negb] in H; [|discriminate].
  if_in H; [discriminate|]. inv_as H as f Hfi. if_in H; [discriminate|].
  inv_as H as m1 H1. inv_as H as m2 H2. inv_as H as m3 H3. inv_as H as m4 H4. inv_as H as m5 H5.
  inv_as H as m6 H6. inv_as H as ok' Hv. if_in H; [|discriminate]. inversion H; subst m6. clear H.
  apply coarse_samples in H2. destruct H2 as [m0 [H0 S2]].
  unfold fixCriticalPoints in H6. inv_as H6 as crit Hcr. assert (Em : m = sm_set_crit m5 crit) by congruence. clear H6.
  assert (El : forall w, sm_layers m w = sm_layers m5 w) by (intros []; rewrite Em; reflexivity).
  assert (Ez : forall w, hi_zones m w = hi_zones m5 w) by (intros []; rewrite Em; reflexivity).
  assert (Hne : vm_layers vm <> []) by (intros En; rewrite En in Hfi; discriminate).
  apply (validate_iff _ (model_numbers_R _) Hne) in Hok. destruct Hok as [_ [Hco Hl]].
  pose proof (findCritical_exact _ _ H1) as [out [_ [_ Fl]]].
  pose proof (findCritical_spec _ _ H1) as [F1 [F2 [F3 _]]].
  cbn [sm_set_radius sm_vMod sm_radius sm_init sm_allowInnerCoreS] in *.
  assert (I0 : well_sampled vm m0 /\ ids_ok m0 /\
    (forall y, In y (sm_P m0) \/ In y (sm_S m0) -> sl_topDepth y <= sl_botDepth y)).
  { rewrite <- F1. apply (coarse_start_inv m1); try rewrite F1; auto. }
  destruct I0 as [I0 [Id0 U0]].
  apply rayInc_samples in H3. apply depthInc_samples in H4. pose proof (dc_samples _ _ _ H5) as S5.
  assert (S4 : samples m0 m4) by (eapply samples_trans; [exact S2|eapply samples_trans; eassumption]).
  pose proof (samples_trans _ _ _ S4 S5) as S05.
  assert (M5 : forall u, s_meet (sm_layers m5 u)) by (intros u; rewrite <- El; apply Built).
  pose proof (samples_meet_back _ _ S05 Id0 M5) as M0.
  assert (Hm0 : okm vm m0) by (unfold okm; auto).
  pose proof (okm_samples vm Hco Ht Hl _ _ S4 Hm0) as Hm4.
  split; [exact Hco|]. intros w. split.
  { intros y Hy. rewrite El in Hy. rewrite Ez, (zones_kept _ _ w S5 (proj1 (proj2 Hm4))). exact (dc_fine vm Hco Ht Hl fuel m4 m5 H5 Hm4 w y Hy). }
  split; [apply Built|]. split; [apply Built|]. split; [rewrite El; apply (okm_s_upright vm); exact (okm_samples vm Hco Ht Hl _ _ S5 Hm4)|].
  split.
  { exists m1. split; [exact H1|]. rewrite Ez, (zones_kept _ _ w S05 Id0). apply coarse_start_spec in H0. destruct H0 as [_ [SS _]].
    unfold same_setup in SS. decompose [and] SS. unfold hi_zones. destruct w; congruence. }
  exists (sm_layers m0 w). split; [apply (samples_join _ _ w S05 Id0); rewrite <- El; apply Built|]. split; [apply M0|].
  split; [apply (okm_s_upright vm); exact Hm0|]. split.
  - intros v Hv0. assert (X : shows m1 w (sm_layers m0 w) v).
    { apply (shown_start m1); rewrite ?F1; auto. }
    unfold shows in X. rewrite F1, (findCritical_inner _ _ H1) in X. exact X.
  - intros y Hy. rewrite El. destruct (samples_part vm Hco Ht Hl _ _ w S05 Hm0) as [_ B]. exact (B y Hy).
Qed.

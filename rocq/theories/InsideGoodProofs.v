(** Proofs for C57: the branches of the corrected model. *)
From Coq Require Import ZArith Bool List String Reals Lia Lra Sorting.Sorted.
From Verif Require Import Base Num PyStr VelocityModel VelSpec VelProofs SlownessLayer SlownessModel
  SlowSpec SlowProofs SlowAddProofs SlowBuildProofs SlowProps CritSpec CritProofs CritProps SlowRealProofs SampleProofs StackSpec StackProofs
  SplitSpec SplitProofs TauModel TauSpec TauProofs TauBuildProofs TauSplitProofs TauProps PathSpec PathWholeProofs PathLegProofs MonoSpec MonoProofs MonoProps LimitSpec LimitProofs LimitProps
  BullenSpec ErrSpec SourceSpec SourceProofs SourceProps InsideSpec InsideProofs InsideRayProofs InsideWalkProofs InsideSplitProofs.
Import ListNotations.
Local Open Scope list_scope.

Section Unfold.
  Context {T : Type} {N : Num T} {O : NumOrd T} {L : Libm T}.
  Local Open Scope num_scope.

  Lemma correct_inside : forall fuel w (t : tmodel T) x w' t' r, decreasing (tm_rayParams t) -> ~ at_edge (tm_P t) x ->
    tm_depthCorrect fuel w t x = Ok (w', t', r) ->
    tm_rayParams r = tm_rayParams t /\
    exists mS iS mP iP, splitLayer fuel (tm_sMod t) x false = Ok (mS, iS) /\ splitLayer fuel (si_sMod iS) x true = Ok (mP, iP) /\
      tm_sMod r = si_sMod iP /\
      exists n b, nth_error (tm_P t) n = Some b /\ in_branch b x /\
        forall v, two_parts fuel (si_sMod iP) x (tm_rayParams t) v n (branches t v) (branches r v).
  Proof.
    intros fuel w t x w' t' r Hd Ne H. 
    unfold tm_depthCorrect in H. if_eq H Q1; [discriminate|]. if_eq H Q2; [discriminate|].
    inv_as H as [[w1 self] dm] Hs. inv_as H as sb Hsb. inversion H; subst w' t' r. clear H.
    cbn [tm_sMod tm_rayParams tm_P tm_S branches] in *.
    unfold splitBranch in Hs. if_eq Hs Q3; [exfalso; apply Ne, at_edge_b; exact Q3|].
    inv_as Hs as [mS iS] HS. rewrite insert_rp_none in Hs by assumption.
    inv_as Hs as [m2 iP] HP. rewrite insert_rp_none in Hs by assumption.
    inv_as Hs as nb Hnb. inv_as Hs as P' HP'. inv_as Hs as S' HS'. inversion Hs; subst w1 self dm. clear Hs.
    cbn [tm_sMod tm_rayParams tm_P tm_S] in *. split; [reflexivity|]. exists mS, iS, m2, iP. split; [exact HS|]. split; [exact HP|]. split; [reflexivity|].
    destruct (findBranch_spec t x) as [[n' [b [En [Hn' [Hin _]]]]]|[_ [[_ F]|[b [[l Hl] F]]]]]; rewrite Hnb in *.
    2: discriminate.
    2:{ destruct (tb_bot b =? x) eqn:Ebx; [|discriminate]. exfalso. apply Ne. exists b. split; [|right; assumption].
        rewrite Hl. apply in_or_app. right. left. reflexivity. }
    inversion En; subst nb. rewrite Nat2Z.id in HP', HS'.
    exists n', b. split; [exact Hn'|]. split; [exact Hin|]. intros []; cbn [branches]; eapply split_two; eassumption.
  Qed.
End Unfold.

Local Open Scope R_scope.

(** the least slowness down past a boundary *)
Lemma min_past : forall fu (m : smodel R) w x mr, sampled_stack (sm_layers m w) -> sampled_at (sm_layers m w) x -> zone_or_lowest m w x ->
  (forall f, nth_error (sm_layers m w) 0 = Some f -> sl_botP f <= sl_topP f <= n_lit 1 300) ->
  getMinRayParam fu m x w = Ok mr -> floor_of (down_past (sm_layers m w) x) mr.
Proof.
  intros fu m w x mr St Sa Zl F0 M. pose proof St as [Gm [Gu [Gj [Gq [f0 [Hf0 E0]]]]]].
  assert (G0 : forall y, nth_error (sm_layers m w) 0 = Some y -> sl_topDepth y = 0) by (intros y Hy; congruence).
  pose proof Sa as [k [y [z [Hy [Hz [Fy [Fz [Ey Ez]]]]]]]].
  assert (En : ends_at_depth (sm_layers m w) x).
  { exists y. split; [eapply nth_error_In; exact Hy|]. apply Reqb_eq. exact Ey. }
  assert (Ks := k_shallow m w x k y Gm Gu Hy Fy Ey). assert (Kd := k_deep m w x k z Gm Gu Hz Fz Ez).
  assert (Ej : sl_botP y = sl_topP z) by (apply Reqb_eq; eapply Gj; eassumption).
  destruct (C52_ray_limit fu m x w mr Gm Gu (R_ok _) (fun u _ => conj (R_ok _) (R_ok _)) En M) as [q [Hq [L1 L2]]].
  assert (Z : in_hi_zone m w x \/ ~ in_hi_zone m w x).
  { destruct (depthInHighSlowness m x (n_lit 1 300) w) eqn:E.
    - left. apply in_hi_zone_iff. exact E.
    - right. rewrite <- in_hi_zone_iff, E. discriminate. }
  destruct Z as [Z|Z].
  - assert (Hx : 0 < x).
    { unfold fat in *. pose proof (top_pos _ Gm Gu Gj Gq G0 y (nth_error_In _ _ Hy)). lra. }
    apply (zone_floor fu m w x q mr); assumption.
  - destruct (C52_turn_limit fu m x w q Gm Gu (R_ok _) (fun u _ => R_ok _) En Hq) as [_ T2]. specialize (T2 Z).
    assert (Up : forall s, upper_side (sm_layers m w) x s -> s = sl_topP z).
    { intros s [i [u [Si [Hu ->]]]]. assert (i = k) by (eapply (shallow_u m w); eassumption). subst i. assert (u = y) by congruence. subst u. exact Ej. }
    assert (Lo : forall s, lower_side (sm_layers m w) x s -> s = sl_topP z).
    { intros s [i [u [Si [Hu ->]]]]. assert (i = S k) by (eapply (deep_u m w); eassumption). subst i. assert (u = z) by congruence. subst u. reflexivity. }
    assert (Em : mr = sl_topP z) by (destruct L1 as [->|[L1|L1]]; auto). rewrite Em.
    destruct Zl as [Zl'|Zl']; [tauto|]. split.
    + exists z. split; [eapply nth_error_In; exact Hz|]. left. split; [lra|reflexivity].
    + intros s Hs. apply (Zl' z s); [eapply nth_error_In; exact Hz|exact Ez|exact Hs].
Qed.

Section Constructed.
  Variables (fuel fuel' : nat) (vm : vmodel R) (dp Dp dz dx err : R) (innerS : bool) (tol : R) (m : smodel R) (t : tmodel R).
  Hypothesis H : newSlownessModel fuel vm dp Dp dz dx err innerS tol = Ok m.
  Hypothesis HT : newTauModel fuel' m = Ok t.
  Hypothesis Ht : VelSpec.thick (vm_layers vm).
  Hypothesis Hr : vm_radius vm = 6371.
  Hypothesis Hnf : no_flat vm innerS.
  Hypothesis Hfi : fluid_above_inner_core vm innerS.
  Hypothesis F0 : forall w f, nth_error (sm_layers m w) 0 = Some f -> sl_botP f <= sl_topP f <= n_lit 1 300.
  Hypothesis Rg : regular m.
  Variables (x : R) (m2 : smodel R).
  Hypothesis Fn : fine m m2.
  Hypothesis Rg2 : regular m2.
  Hypothesis Sa : forall w, sampled_at (sm_layers m2 w) x.
  Hypothesis Zl : forall w, zone_or_lowest m2 w x.
  Let rad := sm_radius m.

  Let G : forall w, sampled_stack (sm_layers m w).
  Proof.
    intros w. destruct (g_good _ _ _ _ _ _ _ _ _ _ H Ht Hr w) as [Gm [Gu [Gj [Gq [G0 [lq [yq [Eq _]]]]]]]].
    split; [exact Gm|]. split; [exact Gu|]. split; [exact Gj|]. split; [exact Gq|].
    destruct (sm_layers m w) as [|f l]; [destruct lq; discriminate|]. exists f. split; [reflexivity|]. apply G0. reflexivity.
  Qed.
  Let Lo : forall w y, In y (sm_layers m w) -> lay_ok rad y.
  Proof. intros w. apply rg_ok. exact (Rg w). Qed.
  Let Rf : forall w, refines rad (sm_layers m w) (sm_layers m2 w).
  Proof. apply Fn. Qed.

  Lemma stack2 : forall w, sampled_stack (sm_layers m2 w).
  Proof.
    intros w. destruct (G w) as [Gm [Gu [Gj [Gq [f [Hf Ef]]]]]].
    split; [eapply rf_meet; [apply Rf|exact Gm]|]. split; [eapply rf_upright; [apply Rf|exact Gu]|].
    split; [eapply rf_join; [apply Rf|exact Gj]|]. split; [eapply rf_squeezed; [apply Rf|exact Gq]|].
    destruct (Sa w) as [k [y [z [Hy _]]]]. destruct (nth_error (sm_layers m2 w) 0) as [g|] eqn:E.
    - exists g. split; [reflexivity|]. destruct (rf_first _ _ _ (Rf w) g E) as [g' [ys [Hg' [_ [_ [_ Eg]]]]]]. assert (g' = f) by congruence. subst g'. congruence.
    - exfalso. apply nth_error_None in E. assert (k < List.length (sm_layers m2 w))%nat by (apply nth_error_Some; congruence). lia.
  Qed.
  Lemma first2 : forall w f, nth_error (sm_layers m2 w) 0 = Some f -> sl_botP f <= sl_topP f <= n_lit 1 300.
  Proof.
    intros w f Hf. destruct (rf_first _ _ _ (Rf w) f Hf) as [g [ys [Hg [Hp [If [E1 E2]]]]]]. pose proof (F0 w g Hg) as [F1 F2].
    split; [|rewrite E1; exact F2]. assert (Ig : In g (sm_layers m w)) by (eapply nth_error_In; exact Hg).
    destruct (G w) as [Gm [Gu _]].
    destruct (ok_pieces _ _ _ (Lo w g Ig) (upr _ Gu g Ig) Hp) as [[z Ez]|Hk].
    - pose proof (one_same _ _ _ Hp z Ez) as [A [_ [B _]]]. rewrite Ez in If. destruct If as [<-|[]]. lra.
    - destruct (ok_thick _ _ (Lo w g Ig) Hk) as [_ Ne].
      destruct (rf_between rad (sm_layers m w) Gu (Lo w) g ys f Ig Hp If) as [_ [_ [_ Q]]]. assert (sl_botP g < sl_topP g) by lra. specialize (Q ltac:(assumption)). lra.
  Qed.

  Definition good2 (w : bool) (b : tbranch R) : Prop :=
    tb_isP b = w /\ tb_top b < tb_bot b /\ steady m2 b /\ all_rays m2 w (tm_rayParams t) b /\
    floor_of (down_past (sm_layers m2 w) (tb_top b)) (tb_maxRP b).
  Lemma ends_bnd : forall w n b, nth_error (branches t w) n = Some b -> bnd (sm_layers m w) (tb_top b) /\ bnd (sm_layers m w) (tb_bot b).
  Proof.
    intros w n b Hn. destruct (C25_branches_tile_exact _ _ _ _ _ _ _ _ _ _ _ _ H HT Ht w) as [[TL Ti] _].
    assert (Ln : (n < List.length (branches t w))%nat) by (apply nth_error_Some; congruence).
    destruct (nth_error (sm_crit m) n) as [c0|] eqn:C0; [|apply nth_error_None in C0; lia].
    destruct (nth_error (sm_crit m) (S n)) as [c1|] eqn:C1; [|apply nth_error_None in C1; lia].
    destruct (Ti n b c0 c1 Hn C0 C1) as [T1 T2]. rewrite T1, T2.
    split; apply (g_bnd _ _ _ _ _ _ _ _ _ _ H w); eapply nth_error_In; eassumption.
  Qed.
  Lemma kept_good : forall w b, In b (branches t w) -> good2 w b.
  Proof.
    intros w b Hb. destruct (built_good _ _ _ _ _ _ _ _ _ _ _ _ H HT Ht Hr Hnf Hfi w b Hb) as [Iw [Up [St [Ra Fl]]]].
    apply In_nth_error in Hb. destruct Hb as [n Hn]. destruct (ends_bnd w n b Hn) as [Bt Bb]. destruct (G w) as [Gm [Gu _]].
    destruct Fn as [Er [Et _]].
    split; [exact Iw|]. split; [exact Up|].
    split; [exact (kept_steady m m2 w (Rf w) Gm Gu (Rg w) b Up Bt Bb Iw St)|].
    split; [exact (kept_rays m m2 w Er Et (Rf w) Gm Gu (Rg w) (Rg2 w) b Up Bt Bb _ Ra)|].
    exact (rf_floor _ _ _ _ _ (Rf w) Gm Gu (Lo w) Bt Fl).
  Qed.

  Lemma parts_good : forall fuel'' n bP (l' : bool -> list (tbranch R)), nth_error (tm_P t) n = Some bP -> in_branch bP x -> ~ at_edge (tm_P t) x ->
    (forall v, two_parts fuel'' m2 x (tm_rayParams t) v n (branches t v) (l' v)) -> forall w b, In b (l' w) -> good2 w b.
  Proof.
    intros fuel'' n bP l' Hn Hin Ne Tp w b Hb. destruct (Tp w) as [b0 [a [c [Hb0 [Er [Ha Hc]]]]]].
    pose proof (kept_good w b0 (nth_error_In _ _ Hb0)) as [Iw [Up [St [Ra Fl]]]].
    destruct (ends_bnd w n b0 Hb0) as [Bt0 Bb0]. pose proof (rf_bnd _ _ _ (Rf w) _ Bt0) as Bt. pose proof (rf_bnd _ _ _ (Rf w) _ Bb0) as Bb. clear Bt0 Bb0.
    destruct (C25_branches_tile_exact _ _ _ _ _ _ _ _ _ _ _ _ H HT Ht w) as [[TL Ti] _].
    destruct (C25_branches_tile_exact _ _ _ _ _ _ _ _ _ _ _ _ H HT Ht true) as [[TL' Ti'] _].
    assert (Ln : (n < List.length (branches t w))%nat) by (apply nth_error_Some; congruence).
    destruct (nth_error (sm_crit m) n) as [c0|] eqn:C0; [|apply nth_error_None in C0; lia].
    destruct (nth_error (sm_crit m) (S n)) as [c1|] eqn:C1; [|apply nth_error_None in C1; lia].
    destruct (Ti n b0 c0 c1 Hb0 C0 C1) as [T1 T2]. destruct (Ti' n bP c0 c1 Hn C0 C1) as [T1' T2'].
    assert (Lt : tb_top b0 < x < tb_bot b0).
    { destruct Hin as [I1 I2]. apply Rleb_le in I1. apply Rltb_lt in I2. split; [|lra].
      destruct (Req_dec (tb_top bP) x) as [X|X]; [exfalso|lra]. apply Ne. exists bP. split; [eapply nth_error_In; exact Hn|]. left. apply Reqb_eq. exact X. }
    destruct (stack2 w) as [Gm [Gu _]]. destruct (Sa w) as [k [y [z [Hy [Hz [Fy [Fz [Ey Ez]]]]]]]].
    assert (Fa : tb_top a = tb_top b0 /\ tb_bot a = x /\ tb_isP a = w /\ tb_maxRP a = tb_maxRP b0 /\ all_rays m2 w (tm_rayParams t) a /\
      getMinTurnRayParam fuel'' m2 x w = Ok (tb_minTurnRP a) /\ getMinRayParam fuel'' m2 x w = Ok (tb_minRP a))
      by exact (cut_facts fuel'' m2 w (tm_rayParams t) x a b0 k y Gm Gu Hy Ey Lt Bt Ha).
    assert (Mn : floor_of (down_past (sm_layers m2 w) x) (tb_minRP a)) by (apply (min_past fuel''); [apply stack2|apply Sa|apply Zl|apply first2|apply Fa]).
    assert (Fc : tb_top c = x /\ tb_bot c = tb_bot b0 /\ tb_isP c = w /\ tb_maxRP c = tb_minRP a /\
      tb_dist c = list_sub (tb_dist b0) (tb_dist a) /\ tb_time c = list_sub (tb_time b0) (tb_time a) /\ tb_tau c = list_sub (tb_tau b0) (tb_tau a))
      by exact (cut_c fuel'' m2 w (tm_rayParams t) x a b0 c k y Gm Gu Hy Ey Iw Lt Bt Ha Hc).
    assert (Ss : steady m2 a /\ steady m2 c) by exact (cut_steady fuel'' m2 w (tm_rayParams t) x a b0 c k y z Gm Gu Hy Hz Fy Fz Ey Ez Iw Lt Bt Bb St Ha Hc).
    assert (Rc : all_rays m2 w (tm_rayParams t) c) by exact (cut_rays fuel'' m2 w (tm_rayParams t) x a b0 c k y z Gm Gu Hy Hz Fy Fz Ey Ez Iw Lt Bt Bb Ra Fl Ha Hc Mn).
    destruct Fa as [A1 [A2 [A3 [A4 [A5 _]]]]]. destruct Fc as [B1 [B2 [B3 [B4 _]]]].
    rewrite Er in Hb. apply in_app_or in Hb. destruct Hb as [Hb|[<-|[<-|Hb]]].
    + apply kept_good. rewrite <- (firstn_skipn n). apply in_or_app. left. exact Hb.
    + unfold good2. rewrite A1, A2, A4. repeat (split; [first [assumption|lra|apply Ss]|]). exact Fl.
    + unfold good2. rewrite B1, B2, B4. repeat (split; [first [assumption|lra|apply Ss]|]). exact Mn.
    + apply kept_good. rewrite <- (firstn_skipn (S n)). apply in_or_app. right. exact Hb.
  Qed.
End Constructed.

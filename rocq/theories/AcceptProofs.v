(** Proofs for C64: the correction for the source depth succeeds. *)
From Coq Require Import ZArith Bool List String Reals Lia Lra.
From Verif Require Import Base Num PyStr VelocityModel VelSpec VelProofs SlownessLayer SlownessModel
  SlowSpec SlowProofs SlowAddProofs SlowBuildProofs SlowProps CritSpec CritProofs CritProps SlowRealProofs SampleProofs StackSpec StackProofs
  SplitSpec SplitProofs SplitMoreProofs TauModel TauSpec TauProofs TauBuildProofs TauSplitProofs TauProps PathSpec PathLegProofs MonoSpec LimitSpec LimitProofs
  BullenSpec BullenProofs BullenProps ErrSpec ErrProofs SourceSpec SourceProofs InsideSpec InsideProofs InsideRayProofs InsideWalkProofs InsideSplitProofs InsideGoodProofs.
Import ListNotations.
Local Open Scope list_scope.
Local Open Scope R_scope.

(** ** cutting layers *)
Lemma fix_total : forall rad p w (es : list (Z * slayer R)) st, (forall n y, In (n, y) es -> spans y p -> solid rad y) ->
  exists st', foldM (fixOther_step rad p w) es st = Ok st'.
Proof.
  intros rad p w es. induction es as [|[n y] es IH]; intros [[out crit] next] Hs; cbn [foldM].
  - eauto.
  - assert (Q : exists st', fixOther_step rad p w (out, crit, next) (n, y) = Ok st').
    { unfold fixOther_step. change (strictly_contains y p) with (n_ltb n_0 ((sl_topP y - p) * (p - sl_botP y)))%num.
      destruct (n_ltb n_0 ((sl_topP y - p) * (p - sl_botP y)))%num eqn:E; [|eauto].
      assert (Sy : spans y p) by exact E. destruct (Hs n y (or_introl eq_refl) Sy) as [K [Ps [Ne T0]]].
      destruct (BullenProps.C18_inverse y rad K Ps T0) as [I1 _]. apply spans_R in Sy. destruct (I1 p Sy) as [d [D1 [D2 _]]].
      rewrite D1. cbn [bind]. unfold new_slayer. rewrite n_0_R.
      rewrite (proj2 (Rleb_le 0 (sl_topDepth y))) by lra. rewrite (proj2 (Rleb_le 0 d)) by lra. cbn [bind sl_botDepth].
      rewrite (proj2 (Rleb_le 0 d)) by lra. rewrite (proj2 (Rleb_le 0 (sl_botDepth y))) by lra. cbn [bind]. eauto. }
    destruct Q as [st' Q]. rewrite Q. cbn [bind]. apply IH. intros k z Hk. apply (Hs k z). right. exact Hk.
Qed.
Lemma split_total : forall fuel (m : smodel R) w x,
  (forall v, s_meet (sm_layers m v) /\ s_upright (sm_layers m v)) ->
  (forall y, In y (sm_layers m w) -> well_inside y x -> solid (sm_radius m) y) ->
  source_place m w x -> one_cut m w x -> (List.length (sm_layers m w) <= fuel)%nat ->
  exists m' info, splitLayer fuel m x w = Ok (m', info).
Proof.
  intros fuel m w x G Go Sp Sc Hf. destruct (G w) as [Gm Gu]. destruct Sp as [Sa|[y [Iy [Wy By]]]].
  - destruct Sa as [k [y [z [Hy [_ [Fy [_ [Ey _]]]]]]]].
    pose proof (k_shallow m w x k y Gm Gu Hy Fy Ey) as Ks.
    pose proof (proj2 (above_iff_s fuel m w x k Gm Gu (R_ok _) Hf) Ks) as Na.
    unfold splitLayer. rewrite Na. cbn [bind]. rewrite (layer_at w m k y Hy). cbn [bind].
    change (n_eqb (sl_botDepth y) x) with (Reqb (sl_botDepth y) x).
    destruct (Reqb_spec (sl_botDepth y) x); [|contradiction]. rewrite orb_true_r. eauto.
  - pose proof (well_strict x y Wy) as Xy. apply In_nth_error in Iy as Hi. destruct Hi as [i Hi].
    assert (Ks : shallowest (sm_layers m w) x i).
    { split; [exists y; split; [exact Hi|]; split; apply Rleb_le; lra|].
      intros q z Hz [A B]. apply Rleb_le in A, B. assert (i = q) by (eapply inside_u; [exact Gm|exact Gu|exact Hi|exact Hz|exact Xy|lra]). lia. }
    pose proof (proj2 (above_iff_s fuel m w x i Gm Gu (R_ok _) Hf) Ks) as Na.
    pose proof (Go y Iy Wy) as Sy. pose proof Sy as [K [Ps [Ne T0]]].
    destruct (BullenProps.C18_inverse y _ K Ps T0) as [_ [I2 _]]. destruct (I2 x Ne Xy) as [p [P1 [P2 _]]].
    unfold splitLayer. rewrite Na. cbn [bind]. rewrite (layer_at w m i y Hi). cbn [bind].
    cbn [n_eqb n_ltb n_abs n_sub Num_R]. rewrite lit_mm.
    destruct (Reqb_spec (sl_topDepth y) x); [lra|]. destruct (Reqb_spec (sl_botDepth y) x); [lra|]. cbn [orb].
    destruct Wy as [W1 W2].
    rewrite (proj2 (Rltb_false (Rabs (sl_topDepth y - x)) (/ 1000000))) by (rewrite Rabs_left; lra).
    rewrite (proj2 (Rltb_false (Rabs (x - sl_botDepth y)) (/ 1000000))) by (rewrite Rabs_left; lra).
    rewrite P1. cbn [bind]. unfold new_slayer. rewrite n_0_R.
    rewrite (proj2 (Rleb_le 0 (sl_topDepth y))) by lra. rewrite (proj2 (Rleb_le 0 x)) by lra. rewrite (proj2 (Rleb_le 0 (sl_botDepth y))) by lra. cbn [bind].
    set (nx := (sm_next m + Z.of_nat (List.length (sm_layers m w)))%Z).
    set (top := mkSL nx (sl_topP y) (sl_topDepth y) p x). set (bot := mkSL (nx + 1) p x (sl_botP y) (sl_botDepth y)).
    unfold fixOtherLayers.
    match goal with |- context [foldM (fixOther_step ?r ?q ?v) (enumerate ?o) ?st] =>
      assert (Q : exists st', foldM (fixOther_step r q v) (enumerate o) st = Ok st') end.
    { apply fix_total. intros k z Hz Sz. apply In_enumerate in Hz. apply spans_R in Sz as Bz.
      assert (Fr : In z (fresh_copy (nx + 2) (sm_layers m (negb w))) -> solid (sm_radius m) z).
      { intros F. apply In_nth_error in F. destruct F as [q Hq]. destruct (fresh_nth _ _ _ _ Hq) as [u [Hu Su]].
        eapply same_solid; [exact Su|]. destruct (Sc p) as [_ Cn]; [exists y; auto|]. apply (Cn u (nth_error_In _ _ Hu)). eapply same_spans; eassumption. }
      destruct (index_of_id (sl_id y) (sm_layers m (negb w))) as [q|]; [|apply Fr; exact Hz].
      apply In_split_at in Hz. unfold strictly_between in *. destruct Hz as [->|[->|[j [_ Hj]]]].
      - exfalso. unfold top in Bz. cbn [sl_topP sl_botP] in Bz. lra.
      - exfalso. unfold bot in Bz. cbn [sl_topP sl_botP] in Bz. lra.
      - apply Fr. eapply nth_error_In. exact Hj. }
    destruct Q as [[[other crit'] next'] Q]. rewrite Q. cbn [bind]. eauto.
Qed.

(** ** the limits at a boundary *)
Lemma minTurn_go_total : forall radius x (ls : list (slayer R)) mp, s_meet ls -> s_upright ls -> ends_at_depth ls x ->
  exists r, minTurn_go radius x ls mp = Ok r.
Proof.
  intros radius x. induction ls as [|y ls IH]; intros mp Hm Hu [z [Hz Ez]]; [destruct Hz|]. cbn [minTurn_go].
  destruct (n_eqb (sl_botDepth y) x) eqn:E; [eauto|]. destruct Hz as [<-|Hz]; [congruence|].
  destruct (later y z ls Hm Hu Hz) as [_ F]. apply Rleb_le in F. apply Reqb_eq in Ez.
  destruct (n_ltb x (sl_botDepth y)) eqn:G; [exfalso; apply Rltb_lt in G; lra|].
  apply IH; [eapply meet_tail; exact Hm|eapply upright_tail; exact Hu|]. exists z. split; [exact Hz|]. apply Reqb_eq. exact Ez.
Qed.
Lemma limits_total : forall fuel (m : smodel R) w x k y i, s_meet (sm_layers m w) -> s_upright (sm_layers m w) ->
  shallowest (sm_layers m w) x k -> nth_error (sm_layers m w) k = Some y -> sl_botDepth y = x -> deepest (sm_layers m w) x i ->
  (List.length (sm_layers m w) <= fuel)%nat ->
  (exists q, getMinTurnRayParam fuel m x w = Ok q) /\ exists q, getMinRayParam fuel m x w = Ok q.
Proof.
  intros fuel m w x k y i Hm Hu Sk Hy Ey Di Hf.
  pose proof (proj2 (above_iff_s fuel m w x k Hm Hu (R_ok _) Hf) Sk) as Na.
  pose proof (proj2 (below_iff_s fuel m w x i Hm Hu (R_ok _) Hf) Di) as Nb.
  assert (A : exists q, getMinTurnRayParam fuel m x w = Ok q).
  { unfold getMinTurnRayParam. destruct (depthInHighSlowness m x (n_lit 1 300) w).
    - apply minTurn_go_total; [exact Hm|exact Hu|]. exists y. split; [eapply nth_error_In; exact Hy|]. apply Reqb_eq. exact Ey.
    - rewrite Na. cbn [bind]. rewrite (layer_at w m k y Hy). cbn [bind].
      assert (E : n_eqb x (sl_botDepth y) = true) by (apply Reqb_eq; congruence). rewrite E. eauto. }
  split; [exact A|]. destruct A as [q A]. unfold getMinRayParam. rewrite A. cbn [bind]. rewrite Na. cbn [bind]. rewrite (layer_at w m k y Hy). cbn [bind].
  rewrite Nb. cbn [bind]. destruct Di as [[z [Hz _]] _]. rewrite (layer_at w m i z Hz). cbn [bind].
  assert (E : n_eqb (sl_botDepth y) x = true) by (apply Reqb_eq; exact Ey). rewrite E. eauto.
Qed.

(** ** rays *)
Lemma walk_short : forall (m : smodel R) w p e i d t, walk m w p e i d t -> forall e', (i <= e' <= e)%nat -> exists d' t', walk m w p e' i d' t'.
Proof.
  intros m w p e i d t W. induction W as [|k y Hk Hy H1 H2|k y td d t Hk Hy H1 H2 W IH]; intros e' He.
  - assert (e' = e) by lia. subst e'. exists 0, 0. constructor.
  - destruct (Nat.eq_dec k e') as [->|N]; [exists 0, 0; constructor|]. exists 0, 0. eapply wk_stop; try eassumption. lia.
  - destruct (Nat.eq_dec k e') as [->|N]; [exists 0, 0; constructor|]. destruct (IH e' ltac:(lia)) as [d' [t' W']].
    exists (td_dist td + d'), (td_time td + t'). eapply wk_go; try eassumption. lia.
Qed.
Lemma walk_go : forall (m : smodel R) w p e k d t, walk m w p e k d t -> (k < e)%nat -> forall y, nth_error (sm_layers m w) k = Some y -> (e <= List.length (sm_layers m w))%nat ->
  forall td, exists td' y', ctd_go m w p (e - k) (Z.of_nat k) y td = Ok (td', y') /\ strictly_contains y' p = false.
Proof.
  intros m w p e k d t W. induction W as [|k y0 Hk Hy0 H1 H2|k y0 td0 d t Hk Hy0 H1 H2 W IH]; intros Lt y Hy Le td; [lia| |].
  - assert (y0 = y) by congruence. subst y0. destruct (e - k)%nat as [|n] eqn:En; [lia|]. cbn [ctd_go].
    destruct (n_leb p (sl_topP y) && n_leb p (sl_botP y)) eqn:E.
    + exfalso. apply H1. apply andb_true_iff in E. exact E.
    + exists td, y. split; [reflexivity|]. apply not_true_is_false. exact H2.
  - assert (y0 = y) by congruence. subst y0. destruct (e - k)%nat as [|n] eqn:En; [lia|]. cbn [ctd_go].
    pose proof H1 as [C1 C2]. rewrite C1, C2. cbn [andb]. rewrite H2. cbn [bind].
    destruct n as [|n].
    + eexists _, y. split; [reflexivity|]. apply Rleb_le in C1, C2. apply not_true_is_false. intros F.
      assert (Sy : spans y p) by exact F. apply spans_R in Sy. unfold strictly_between in Sy. lra.
    + destruct (nth_error (sm_layers m w) (S k)) as [z|] eqn:Ez; [|apply nth_error_None in Ez; lia].
      replace (Z.of_nat k + 1)%Z with (Z.of_nat (S k)) by lia. rewrite (layer_at w m (S k) z Ez). cbn [bind].
      replace (S n) with (e - S k)%nat by lia. apply IH; [lia|reflexivity|exact Le].
Qed.

(** ** a new branch down to a boundary *)
Section Branch.
  Variables (fuel : nat) (m : smodel R) (w : bool) (rp : list R) (b : tbranch R) (x : R).
  Let ls := sm_layers m w.
  Hypothesis Hm : s_meet ls.
  Hypothesis Hu : s_upright ls.
  Hypothesis Bt : bnd ls (tb_top b).
  Hypothesis Bb : bnd ls (tb_bot b).
  Hypothesis Sx : sampled_at ls x.
  Hypothesis Lt : tb_top b < x < tb_bot b.
  Hypothesis Ra : all_rays m w rp b.
  Hypothesis Hf : (List.length ls <= fuel)%nat.

  Lemma bnd_deep : forall c, bnd ls c -> exists i, deepest ls c i.
  Proof.
    intros c [u [Iu Eu]]. apply In_nth_error in Iu as Hk. destruct Hk as [k Hk]. pose proof (upr ls Hu u Iu) as Uu.
    assert (Hh : holds u c) by (destruct Eu as [E|E]; apply Reqb_eq in E; split; apply Rleb_le; lra).
    destruct (below_total fuel m w c k u Hm Hu Hk Hh Hf) as [i Hi]. apply below_sound in Hi; [|assumption|assumption|apply R_ok].
    exists (Z.to_nat i). apply Hi.
  Qed.
  Lemma bnd_shallow : forall c, bnd ls c -> exists i, shallowest ls c i.
  Proof.
    intros c [u [Iu Eu]]. apply In_nth_error in Iu as Hk. destruct Hk as [k Hk]. pose proof (upr ls Hu u Iu) as Uu.
    assert (Hh : holds u c) by (destruct Eu as [E|E]; apply Reqb_eq in E; split; apply Rleb_le; lra).
    destruct (above_total fuel m w c k u Hm Hu Hk Hh Hf) as [i Hi]. apply above_sound in Hi; [|assumption|assumption|apply R_ok].
    exists (Z.to_nat i). apply Hi.
  Qed.

  Lemma create_total : exists a, createBranch fuel m (tb_top b) x w (tb_maxRP b) rp = Ok a.
  Proof.
    destruct Sx as [k [y [z [Hy [Hz [Fy [Fz [Ey Ez]]]]]]]].
    pose proof (k_shallow m w x k y Hm Hu Hy Fy Ey) as Ks. pose proof (k_deep m w x k z Hm Hu Hz Fz Ez) as Kd.
    destruct (bnd_deep _ Bt) as [i Di]. destruct (bnd_shallow _ Bb) as [j Sj].
    assert (Bx : bnd ls x) by (exists y; split; [eapply nth_error_In; exact Hy|right; apply Reqb_eq; exact Ey]).
    destruct (deep_fat ls (tb_top b) x i k Hm Hu Bt Bx ltac:(lra) Di Ks) as [yi [yk [Hyi [Hyk [Fi [Fk [Ti [Tk Lik]]]]]]]].
    destruct (deep_fat ls x (tb_bot b) (S k) j Hm Hu Bx Bb ltac:(lra) Kd Sj) as [_ [yj [_ [Hyj [_ [_ [_ [_ Lkj]]]]]]]].
    unfold createBranch. rewrite (proj2 (below_iff_s fuel m w _ i Hm Hu (R_ok _) Hf) Di). cbn [bind].
    rewrite (proj2 (above_iff_s fuel m w _ k Hm Hu (R_ok _) Hf) Ks). cbn [bind].
    rewrite (layer_at w m i yi Hyi). cbn [bind]. rewrite (layer_at w m k yk Hyk). cbn [bind].
    assert (Be : branch_ends (tb_top b) x yi yk = Ok (tb_top b, x)).
    { unfold branch_ends. rewrite (proj2 (Reqb_eq (sl_topDepth yi) (tb_top b)) Ti), (proj2 (Reqb_eq (sl_botDepth yk) x) Tk). reflexivity. }
    rewrite Be. cbn [bind]. destruct (limits_total fuel m w x k yk (S k) Hm Hu Ks Hyk Tk Kd Hf) as [[q1 Q1] [q2 Q2]].
    rewrite Q1. cbn [bind]. rewrite Q2. cbn [bind].
    assert (M : exists tds, mapM (calcTimeDist m w (tb_maxRP b) (Z.of_nat i) (Z.of_nat k)) rp = Ok tds).
    { assert (Each : forall p, In p rp -> exists td, calcTimeDist m w (tb_maxRP b) (Z.of_nat i) (Z.of_nat k) p = Ok td).
      { intros p Hp. unfold calcTimeDist. destruct (n_leb p (tb_maxRP b)) eqn:Ep; [|eauto].
        rewrite (layer_at w m i yi Hyi). cbn [bind].
        assert (W : exists d t, walk m w p (S j) i d t).
        { apply In_nth_error in Hp. destruct Hp as [n Hn]. destruct Ra as [L1 [L2 [L3 R3]]].
          assert (Ln : (n < List.length rp)%nat) by (apply nth_error_Some; congruence).
          assert (Get : forall l : list R, List.length l = List.length rp -> exists v, nth_error l n = Some v).
          { intros l El. destruct (nth_error l n) as [v|] eqn:Ev; [eauto|]. apply nth_error_None in Ev. lia. }
          destruct (Get _ L1) as [d1 D1], (Get _ L2) as [t1 T1], (Get _ L3) as [u1 U1].
          destruct (R3 n p d1 t1 u1 Hn D1 T1 U1) as [_ [[F _]|[_ [i' [j' [incs [Di' [Sj' [De _]]]]]]]]]; [congruence|].
          assert (i' = i) by exact (deepest_unique _ _ _ _ Di' Di). assert (j' = j) by exact (shallowest_unique _ _ _ _ Sj' Sj). subst i' j'.
          destruct De as [De|[De _]]; [|lia]. do 2 eexists. apply descends_walk; [|exact De]. apply nth_error_Some. fold ls. congruence. }
        destruct W as [d0 [t0 W]]. destruct (walk_short _ _ _ _ _ _ _ W (S k) ltac:(lia)) as [d' [t' W']].
        assert (Lk : (k < List.length ls)%nat) by (apply nth_error_Some; congruence).
        destruct (walk_go m w p (S k) i d' t' W' ltac:(lia) yi Hyi ltac:(unfold ls in Lk; lia) (td_new p)) as [td' [y' [C1 C2]]].
        replace (Z.to_nat (Z.of_nat k + 1 - Z.of_nat i)) with (S k - i)%nat by lia. rewrite C1. cbn [bind]. rewrite C2. eauto. }
      clear - Each. induction rp as [|p l IH]; [cbn; eauto|]. cbn [mapM]. destruct (Each p (or_introl eq_refl)) as [td E]. rewrite E. cbn [bind].
      destruct IH as [tds E']; [intros q Hq; apply Each; right; exact Hq|]. rewrite E'. cbn [bind]. eauto. }
    destruct M as [tds M]. rewrite M. cbn [bind]. eauto.
  Qed.

  Hypothesis Iw : tb_isP b = w.
  Hypothesis Go : s_meet (sm_layers m (negb w)).
  Hypothesis Gu : s_upright (sm_layers m (negb w)).
  Hypothesis Gs : sampled_at (sm_layers m (negb w)) x.
  Hypothesis Gf : (List.length (sm_layers m (negb w)) <= fuel)%nat.

  Lemma below_at : forall v, exists k z, layerNumberBelow fuel m x v = Ok (Z.of_nat k) /\ getSlownessLayer m (Z.of_nat k) v = Ok z /\ sl_topDepth z = x.
  Proof.
    assert (Q : forall v, s_meet (sm_layers m v) -> s_upright (sm_layers m v) -> sampled_at (sm_layers m v) x -> (List.length (sm_layers m v) <= fuel)%nat ->
      exists k z, layerNumberBelow fuel m x v = Ok (Z.of_nat k) /\ getSlownessLayer m (Z.of_nat k) v = Ok z /\ sl_topDepth z = x).
    { intros v Vm Vu [k [y [z [Hy [Hz [Fy [Fz [Ey Ez]]]]]]]] Vf. exists (S k), z. split; [|split; [apply layer_at; exact Hz|exact Ez]].
      apply below_iff_s; [assumption..|apply R_ok|assumption|]. exact (k_deep m v x k z Vm Vu Hz Fz Ez). }
    intros v. destruct (Bool.bool_dec v w) as [->|Ne]; [apply Q; assumption|]. rewrite (negb_of v w Ne). apply Q; assumption.
  Qed.

  Lemma difference_total : forall a, tb_top a = tb_top b -> tb_bot a = x -> tb_isP a = w -> exists c, tb_difference fuel b a (-1) (-1) m rp = Ok c.
  Proof.
    intros a A1 A2 A3. unfold tb_difference.
    assert (D : exists q, diff_checks fuel b a (-1) (-1) m rp = Ok q).
    { unfold diff_checks. rewrite A1, A2, A3, Iw. cbv zeta.
      assert (E1 : n_eqb (tb_top b) (tb_top b) = true) by (apply Reqb_eq; reflexivity). rewrite E1. cbn [negb orb].
      assert (E2 : n_ltb (tb_bot b) x = false) by (apply Rltb_false; lra). rewrite E2. cbn [bind].
      rewrite Bool.eqb_reflx. cbn [negb].
      destruct (below_at w) as [k [z [K1 [K2 K3]]]]. rewrite K1. cbn [bind].
      destruct (bnd_deep _ Bb) as [j Dj]. rewrite (proj2 (below_iff_s fuel m w _ j Hm Hu (R_ok _) Hf) Dj). cbn [bind]. rewrite K2. cbn [bind].
      pose proof Dj as [[yj [Hj [J1 J2]]] _]. apply Rleb_le in J1, J2. rewrite (layer_at w m j yj Hj). cbn [bind].
      assert (Q : exists n yn, (if n_eqb (sl_topDepth yj) (tb_bot b) && n_ltb (tb_bot b) (sl_botDepth yj)
          then let! y := getSlownessLayer m (Z.of_nat j - 1) w in Ok ((Z.of_nat j - 1)%Z, y) else Ok (Z.of_nat j, yj)) = Ok (n, yn) /\ sl_botDepth yn = tb_bot b).
      { destruct (Req_dec (sl_botDepth yj) (tb_bot b)) as [E|E].
        - exists (Z.of_nat j), yj. split; [|exact E]. assert (Ef : n_ltb (tb_bot b) (sl_botDepth yj) = false) by (apply Rltb_false; lra). rewrite Ef. rewrite andb_false_r. reflexivity.
        - assert (Tj : sl_topDepth yj = tb_bot b).
          { apply Reqb_eq. apply (deepest_top ls (tb_bot b) j yj yj Hm Hu Bb Dj Hj (nth_error_In _ _ Hj)). apply Rltb_lt. lra. }
          rewrite (proj2 (Reqb_eq (sl_topDepth yj) (tb_bot b)) Tj), (proj2 (Rltb_lt (tb_bot b) (sl_botDepth yj)) ltac:(lra)). cbn [andb].
          destruct j as [|j].
          + exfalso. destruct Sx as [k0 [y0 [z0 [Hy0 [_ [Fy0 [_ [Ey0 _]]]]]]]]. unfold fat in Fy0. destruct k0 as [|k0].
            * assert (y0 = yj) by congruence. subst y0. lra.
            * pose proof (srt ls Hm Hu 0%nat (S k0) yj y0 ltac:(lia) Hj Hy0). lra.
          + replace (Z.of_nat (S j) - 1)%Z with (Z.of_nat j) by lia.
            destruct (nth_error ls j) as [u|] eqn:Eu; [|apply nth_error_None in Eu; assert (S j < List.length ls)%nat by (apply nth_error_Some; congruence); lia].
            rewrite (layer_at w m j u Eu). cbn [bind]. exists (Z.of_nat j), u. split; [reflexivity|]. pose proof (Hm j u yj Eu Hj) as M. apply Reqb_eq in M. lra. }
      destruct Q as [n [yn [Q1 Q2]]]. rewrite Q1. cbn [bind].
      rewrite (proj2 (Reqb_eq (sl_topDepth z) x) K3), (proj2 (Reqb_eq (sl_botDepth yn) (tb_bot b)) Q2). cbn [negb orb].
      destruct (below_at true) as [kP [zP [P1 [P2 _]]]]. rewrite P1. cbn [bind]. rewrite P2. cbn [bind Z.geb Z.compare].
      destruct (below_at false) as [kS [zS [S1 [S2 _]]]]. rewrite S1. cbn [bind]. rewrite S2. cbn [bind Z.geb Z.compare]. eauto. }
    destruct D as [[n1 n2] D]. rewrite D. cbn. eexists. reflexivity.
  Qed.
  Lemma parts_total : forall n rpS rpP l, nth_error l n = Some b -> exists l' c, split_branches fuel m w n x rp None None rpS rpP l = Ok l' /\
    In c l' /\ tb_top c = x /\ tb_bot c = tb_bot b.
  Proof.
    intros n rpS rpP l Hn. unfold split_branches. rewrite insert_new_none. cbn [bind]. rewrite py_index_nat, Hn. cbn [bind].
    destruct create_total as [a A]. rewrite A. cbn [bind].
    assert (Bx : bnd ls x).
    { destruct Sx as [k [y [z [Hy [_ [_ [_ [Ey _]]]]]]]]. exists y. split; [eapply nth_error_In; exact Hy|right; apply Reqb_eq; exact Ey]. }
    destruct (createBranch_exact fuel m (tb_top b) x w (tb_maxRP b) rp a Hm Hu Bt Bx ltac:(apply Rltb_lt; lra) A) as [A1 [A2 [A3 _]]].
    destruct (difference_total a A1 A2 A3) as [c C]. cbn [idx_or]. rewrite C. cbn [bind]. rewrite insert_new_none. cbn [bind].
    apply difference_none in C. destruct C as [-> _]. eexists _, _. split; [reflexivity|].
    split; [apply in_or_app; right; right; left; reflexivity|]. cbn [tb_top tb_bot]. auto.
  Qed.
End Branch.

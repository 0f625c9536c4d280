(** A slowness model and a tau model constructed over the reals, used only to exhibit a concrete case in the
    property files: the planet of constant velocity 1, given as two layers. *)
From Coq Require Import ZArith Bool List String Ascii Reals Lia Lra.
From Verif Require Import Base Num PyStr VelocityModel SlownessLayer SlownessModel TauModel RealRun SlowRun SlowSpec SlowProofs SlowRealProofs StackProofs CritProps
  ShellProps BuildRun BullenSpec BullenProofs.
Import ListNotations.
Local Open Scope string_scope.
Local Open Scope list_scope.
Local Open Scope R_scope.

Definition two_vm : vmodel R := mkVModel "two" 6371 0 1 1 0 6371 true
  [mkVLayer 0 0 3000 1 1 1 1 1 1; mkVLayer 1 3000 6371 1 1 1 1 1 1].
Definition two_l (n : Z) : list (slayer R) := [mkSL n 6371 0 3371 3000; mkSL (n + 2) 3371 3000 0 6371].
Definition two_sm (e : R) (cr : list (critdepth R)) : smodel R :=
  mkSM two_vm 1 7000 7000 10 e true 1 6371 cr [] [] [] (two_l 6) (two_l 7) 10.
Definition two_c : list (critdepth R) := [mkCD 0 0 0 0; mkCD 6371 2 (-1) (-1)].
Definition two_c' : list (critdepth R) := [mkCD 0 0 0 0; mkCD 6371 2 2 2].

Lemma two_found : forall e, (let! m := findCriticalPoints (sm_set_radius (sm_init two_vm 1 7000 7000 10 e true 1) 6371) in
  coarseSample 20 m) = Ok (two_sm e two_c).
Proof. intros e. eapply eq_step; [eapply bind_ok; [srun|srun]|]. reflexivity. Qed.
Lemma two_idx : forall get body n (a b : slayer R) (m : smodel R), get m = [a; b] -> body m a = Ok m -> body m b = Ok m ->
  for_idx (S (S (S n))) get 0 body m = Ok m.
Proof.
  intros get body n a b m E Ha Hb. rewrite for_idx_S, E. cbn [nth_error]. rewrite Ha. cbn [bind]. rewrite for_idx_S, E. cbn [nth_error].
  rewrite Hb. cbn [bind]. rewrite for_idx_S, E. reflexivity.
Qed.
Lemma two_checked : forall e, rayParamIncCheck 20 (two_sm e two_c) = Ok (two_sm e two_c) /\ depthIncCheck 20 (two_sm e two_c) = Ok (two_sm e two_c).
Proof.
  intros e. split.
  - unfold rayParamIncCheck. rewrite (two_idx sm_S _ _ (mkSL 7 6371 0 3371 3000) (mkSL 9 3371 3000 0 6371)); [cbn [bind]| |apply ray_small|apply ray_small]; [|reflexivity|..].
    + apply (two_idx sm_P _ _ (mkSL 6 6371 0 3371 3000) (mkSL 8 3371 3000 0 6371)); [reflexivity|apply ray_small|apply ray_small];
        cbn; rewrite Rabs_pos_eq; lra.
    + cbn. rewrite Rabs_pos_eq; lra.
    + cbn. rewrite Rabs_pos_eq; lra.
  - unfold depthIncCheck. rewrite (two_idx sm_S _ _ (mkSL 7 6371 0 3371 3000) (mkSL 9 3371 3000 0 6371)); [cbn [bind]| |apply depth_small|apply depth_small]; [|reflexivity|..].
    + apply (two_idx sm_P _ _ (mkSL 6 6371 0 3371 3000) (mkSL 8 3371 3000 0 6371)); [reflexivity|apply depth_small|apply depth_small]; cbn; lra.
    + cbn. lra.
    + cbn. lra.
Qed.
Lemma two_layer : forall e cr w, getSlownessLayer (two_sm e cr) 0 w = Ok (mkSL (if w then 6 else 7)%Z 6371 0 3371 3000) /\
  getSlownessLayer (two_sm e cr) 1 w = Ok (mkSL (if w then 8 else 9)%Z 3371 3000 0 6371).
Proof. intros e cr w. destruct w; split; reflexivity. Qed.
Definition tops (o : option (slayer R)) : R := match o with Some y => sl_topDepth y | None => 0 end.
Definition bots (o : option (slayer R)) : R := match o with Some y => sl_botDepth y | None => 0 end.
Lemma two_stack : forall e cr w, s_meet (sm_layers (two_sm e cr) w) /\ s_upright (sm_layers (two_sm e cr) w).
Proof.
  intros e cr w. split.
  - intros i a b Ha Hb. destruct i as [|[|i]]; [|destruct w; discriminate..].
    apply (f_equal bots) in Ha. apply (f_equal tops) in Hb. cbn [bots tops] in Ha, Hb. apply Reqb_eq. rewrite <- Ha, <- Hb. destruct w; reflexivity.
  - intros y Hy; destruct w; destruct Hy as [<-|[<-|[]]]; apply Rleb_le; cbn; lra.
Qed.
Lemma two_number : forall e cr w,
  layerNumberBelow 20 (two_sm e cr) 0 w = Ok 0%Z /\ layerNumberBelow 20 (two_sm e cr) 3000 w = Ok 1%Z /\
  layerNumberBelow 20 (two_sm e cr) 6371 w = Ok 1%Z /\ layerNumberAbove 20 (two_sm e cr) 3000 w = Ok 0%Z /\
  layerNumberAbove 20 (two_sm e cr) 6371 w = Ok 1%Z.
Proof.
  intros e cr w. destruct (two_stack e cr w) as [Hm Hu].
  assert (LN : (List.length (sm_layers (two_sm e cr) w) <= 20)%nat) by (destruct w; cbn; lia).
  assert (K : forall j z x, nth_error (sm_layers (two_sm e cr) w) j = Some z -> holds z x -> j = 0%nat /\ 0 <= x <= 3000 \/ j = 1%nat /\ 3000 <= x <= 6371).
  { intros j z x Hz [H1 H2]. apply Rleb_le in H1, H2. destruct j as [|[|j]]; [..|destruct w, j; discriminate].
    - left. assert (sl_topDepth z = 0 /\ sl_botDepth z = 3000) as [E1 E2]
        by (split; [apply (f_equal tops) in Hz; cbn [tops] in Hz|apply (f_equal bots) in Hz; cbn [bots] in Hz]; rewrite <- Hz; destruct w; reflexivity).
      rewrite E1 in H1. rewrite E2 in H2. auto.
    - right. assert (sl_topDepth z = 3000 /\ sl_botDepth z = 6371) as [E1 E2]
        by (split; [apply (f_equal tops) in Hz; cbn [tops] in Hz|apply (f_equal bots) in Hz; cbn [bots] in Hz]; rewrite <- Hz; destruct w; reflexivity).
      rewrite E1 in H1. rewrite E2 in H2. auto. }
  assert (H0 : forall x, 0 <= x <= 3000 -> exists y, nth_error (sm_layers (two_sm e cr) w) 0 = Some y /\ holds y x).
  { intros x Hx. destruct w; (eexists; split; [reflexivity|]); split; apply Rleb_le; cbn; lra. }
  assert (H1 : forall x, 3000 <= x <= 6371 -> exists y, nth_error (sm_layers (two_sm e cr) w) 1 = Some y /\ holds y x).
  { intros x Hx. destruct w; (eexists; split; [reflexivity|]); split; apply Rleb_le; cbn; lra. }
  split; [|split; [|split; [|split]]].
  - apply (below_iff_s 20 _ w 0 0); [exact Hm|exact Hu|apply R_ok|exact LN|]. split; [apply H0; lra|].
    intros j z Hz Hh. destruct (K _ _ _ Hz Hh) as [[-> _]|[-> X]]; [lia|lra].
  - apply (below_iff_s 20 _ w 3000 1); [exact Hm|exact Hu|apply R_ok|exact LN|]. split; [apply H1; lra|].
    intros j z Hz Hh. destruct (K _ _ _ Hz Hh) as [[-> _]|[-> X]]; lia.
  - apply (below_iff_s 20 _ w 6371 1); [exact Hm|exact Hu|apply R_ok|exact LN|]. split; [apply H1; lra|].
    intros j z Hz Hh. destruct (K _ _ _ Hz Hh) as [[-> _]|[-> X]]; lia.
  - apply (above_iff_s 20 _ w 3000 0); [exact Hm|exact Hu|apply R_ok|exact LN|]. split; [apply H0; lra|]. intros; lia.
  - apply (above_iff_s 20 _ w 6371 1); [exact Hm|exact Hu|apply R_ok|exact LN|]. split; [apply H1; lra|].
    intros j z Hz Hh. destruct (K _ _ _ Hz Hh) as [[-> X]|[-> X]]; [lra|lia].
Qed.
Lemma two_fixed : forall e, fixCriticalPoints 20 (two_sm e two_c) = Ok (two_sm e two_c') /\ sm_validate (two_sm e two_c') = Ok true.
Proof.
  intros e.
  assert (E : forall w, fix_crit_num 20 (two_sm e two_c) 0 w = Ok 0%Z /\ fix_crit_num 20 (two_sm e two_c) 6371 w = Ok 2%Z).
  { intros w. unfold fix_crit_num. destruct (two_number e two_c w) as [N1 [_ [N2 _]]]. rewrite N1, N2. cbn [bind].
    destruct (two_layer e two_c w) as [G1 G2]. rewrite G1, G2. cbn [bind].
    assert (LN : List.length (sm_layers (two_sm e two_c) w) = 2%nat) by (destruct w; reflexivity). rewrite LN.
    cbn [sl_botDepth]. assert (E2 : @n_eqb R _ 6371 6371 = true) by (apply Reqb_eq; lra). rewrite E2. split; reflexivity. }
  split; [|srun].
  unfold fixCriticalPoints. cbn [two_sm sm_crit two_c mapM]. fold two_c. fold (two_sm e two_c). cbn [cd_depth cd_vel].
  destruct (E true) as [E1 E2]. destruct (E false) as [E3 E4]. rewrite E1, E3. cbn [bind]. rewrite E2, E4. reflexivity.
Qed.
(** ** times and distances through the layers *)
Lemma two_through : forall e cr w, layerTimeDist (two_sm e cr) 0 1 w = Ok (mkTD 0 3371 (PI / 2) 0).
Proof.
  intros e cr w. unfold layerTimeDist. rewrite (proj2 (two_layer e cr w)). cbn [bind sl_topP sl_botP sl_topDepth sl_botDepth].
  assert (P := PI_RGT_0). rewrite !n_0_R.
  assert (E1 : @n_ltb R _ (py_max 3371 0) 0 = false).
  { apply Rltb_ge. unfold py_max. destruct (n_ltb _ _) eqn:E; [apply Rltb_lt in E|]; lra. }
  assert (E2 : @n_ltb R _ 0 0 = false) by (apply Rltb_ge; lra).
  assert (E3 : @n_ltb R _ (py_min 3371 0) 0 = false).
  { apply Rltb_ge. unfold py_min. destruct (@n_ltb R _ 0 3371) eqn:E; lra. }
  assert (E4 : @n_eqb R _ 3000 6371 = false) by (apply Reqb_ne; lra).
  assert (E5 : @n_eqb R _ 0 0 = true) by (apply Reqb_eq; lra).
  assert (E6 : @n_eqb R _ 6371 (sm_radius (two_sm e cr)) = true) by (apply Reqb_eq; reflexivity).
  rewrite E1, E2, E3, E4, E5, E6. cbn [andb].
  assert (E7 : (1 =? sm_numLayers (two_sm e cr) w - 1)%Z = true) by (destruct w; reflexivity). rewrite E7. cbn [negb].
  rewrite n_2_R, py_div_R by lra. cbn [bind m_pi Libm_R].
  assert (E8 : @n_ltb R _ (PI / 2) 0 = false) by (apply Rltb_ge; lra).
  assert (E9 : @n_ltb R _ 3371 0 = false) by (apply Rltb_ge; lra). rewrite E8, E9. reflexivity.
Qed.
Lemma two_first : forall p, 0 <= p <= 3371 -> exists t it ib, (forall e cr w, layerTimeDist (two_sm e cr) p 0 w = Ok (mkTD p t (ib - it) 0)) /\
  0 <= t /\ 0 <= it /\ it <= ib /\ ib <= PI / 2 /\ 6371 * sin it = p /\ 3371 * sin ib = p.
Proof.
  intros p Hp.
  assert (A := C19_straight_ray (two_sm 0 []) 0 true (mkSL 6 6371 0 3371 3000) p (proj1 (two_layer 0 [] true))).
  cbn in A. destruct A as [A _]; [split; cbn; lra|lra| |lra|].
  { replace ((6371 - 0) / 6371 - (6371 - 3000) / 3371) with 0 by field. rewrite Rabs_R0. lra. }
  destruct A as [td [B1 [B2 [B3 [B4 [_ [[it [ib [C1 [C2 [C3 [C4 [C5 C6]]]]]]] _]]]]]]]; [lra|].
  exists (td_time td), it, ib. split.
  - intros e cr w. transitivity (layerTimeDist (two_sm 0 []) p 0 true); [destruct w; reflexivity|]. transitivity (Ok td); [exact B1|]. rewrite <- C6.
    destruct td as [a b c q]. cbn in B2, B3 |- *. rewrite B2, B3. reflexivity.
  - replace ((6371 - 3000) / 3371) with 1 in C4, C5 by field. repeat split; lra.
Qed.
(** ** the distance check *)
Lemma two_none : forall e p w, 0 <= p -> approxDistance (two_sm e two_c) (-1) p w = Ok (mkTD p 0 0 0).
Proof.
  intros e p w Hp. unfold approxDistance. assert (E : n_ltb p n_0 = false) by (apply Rltb_ge; rewrite n_0_R; lra).
  rewrite E. assert (E2 : (-1 >=? sm_numLayers (two_sm e two_c) w)%Z = false) by (destruct w; reflexivity). rewrite E2.
  change (zrange 0 (-1 + 1)) with (@nil Z). cbn [foldM bind]. unfold td_new. cbn [td_p td_time td_dist td_depth].
  rewrite n_0_R, n_2_R. cbn [n_mul Num_R]. rewrite Rmult_0_l. reflexivity.
Qed.
Lemma two_upper : forall e p w t x, 0 <= p -> layerTimeDist (two_sm e two_c) p 0 w = Ok (mkTD p t x 0) ->
  approxDistance (two_sm e two_c) 0 p w = Ok (mkTD p (2 * t) (2 * x) 0).
Proof.
  intros e p w t x Hp H. unfold approxDistance. assert (E : n_ltb p n_0 = false) by (apply Rltb_ge; rewrite n_0_R; lra).
  rewrite E. assert (E2 : (0 >=? sm_numLayers (two_sm e two_c) w)%Z = false) by (destruct w; reflexivity). rewrite E2.
  change (zrange 0 (0 + 1)) with [0%Z]. cbn [foldM bind]. rewrite H. cbn [bind].
  unfold td_add, td_new. cbn [td_p td_time td_dist td_depth]. rewrite n_0_R, n_2_R. cbn [n_mul n_add Num_R].
  do 2 f_equal; lra.
Qed.
Lemma two_lower : forall e w t x, layerTimeDist (two_sm e two_c) 0 0 w = Ok (mkTD 0 t x 0) ->
  approxDistance (two_sm e two_c) 1 0 w = Ok (mkTD 0 (2 * (t + 3371)) (2 * (x + PI / 2)) 0).
Proof.
  intros e w t x H. unfold approxDistance. assert (E : @n_ltb R _ 0 n_0 = false) by (apply Rltb_ge; rewrite n_0_R; lra).
  rewrite E. assert (E2 : (1 >=? sm_numLayers (two_sm e two_c) w)%Z = false) by (destruct w; reflexivity). rewrite E2.
  change (zrange 0 (1 + 1)) with [0%Z; 1%Z]. cbn [foldM bind]. rewrite H. cbn [bind]. rewrite two_through. cbn [bind].
  unfold td_add, td_new. cbn [td_p td_time td_dist td_depth]. rewrite n_0_R, n_2_R. cbn [n_mul n_add Num_R].
  do 2 f_equal; lra.
Qed.
Lemma unit_law : forall n a b, 0 < 6371 - a -> 0 < 6371 - b -> power_law (mkSL n (6371 - a) a (6371 - b) b) 6371 1 1.
Proof. intros n a b Ha Hb. split; cbn [sl_topP sl_botP sl_topDepth sl_botDepth]; rewrite Rpower_1 by assumption; lra. Qed.
(** down to the ray parameter halfway, and the turning ray there *)
Lemma unit_turn : forall n a b, a < b -> 0 < 6371 - b -> / 1000000000 <= b - a ->
  bullenRadialSlowness (mkSL n (6371 - a) a (6371 - b) b) (6371 - b) 6371 =
  Ok (mkTD (6371 - b) (sqrt ((6371 - a) * (6371 - a) - (6371 - b) * (6371 - b)))
       (atan (sqrt ((6371 - a) * (6371 - a) - (6371 - b) * (6371 - b)) / (6371 - b))) 0).
Proof.
  intros n a b Hab Hb Hk. rewrite (bullen_run _ 6371 1 1 (6371 - b)).
  - unfold bullen_time, bullen_dist. cbn [sl_topP sl_botP]. rewrite Rminus_eq_0, sqrt_0.
    rewrite !Ratan2_pos; [|lra|apply sqrt_pos|lra|lra].
    replace (0 / (6371 - b)) with 0 by (unfold Rdiv; ring). rewrite atan_0. do 2 f_equal; field.
  - unfold thick. cbn. lra.
  - split; cbn; lra.
  - apply unit_law; lra.
  - cbn. lra.
  - cbn. lra.
  - cbn. lra.
Qed.
Lemma two_depth_1 : forall n, bullenDepthFor (mkSL n 6371 0 3371 3000) 4871 6371 = Ok 1500.
Proof.
  intros n. rewrite (depthFor_run _ 6371 1 1 4871).
  - f_equal. replace (/ 1 * ln (4871 / 1)) with (ln 4871) by (rewrite Rinv_1, Rmult_1_l; f_equal; field). rewrite exp_ln by lra. lra.
  - unfold thick. cbn. lra.
  - split; cbn; lra.
  - pose proof (unit_law n 0 3000) as U. replace (6371 - 0) with 6371 in U by ring. replace (6371 - 3000) with 3371 in U by ring. apply U; lra.
  - unfold strictly_between. cbn. lra.
  - cbn. lra.
Qed.
Lemma two_depth_2 : forall n, bullenDepthFor (mkSL n 3371 3000 0 6371) (3371 / 2) 6371 = Ok (6371 - 3371 / 2).
Proof.
  intros n. unfold bullenDepthFor. cbn [sl_topP sl_botP sl_topDepth sl_botDepth]. cbn [n_sub n_mul Num_R]. rewrite !n_0_R.
  assert (E1 : @n_leb R _ 0 ((3371 - 3371 / 2) * (3371 / 2 - 0)) = true) by (apply Rleb_le; lra).
  assert (E2 : @n_eqb R _ 3000 6371 = false) by (apply Reqb_ne; lra).
  assert (E3 : @n_eqb R _ 3371 (3371 / 2) = false) by (apply Reqb_ne; lra).
  assert (E4 : @n_eqb R _ 0 (3371 / 2) = false) by (apply Reqb_ne; lra).
  assert (E5 : @n_eqb R _ 0 0 = true) by (apply Reqb_eq; lra).
  assert (E6 : @n_eqb R _ 3371 0 = false) by (apply Reqb_ne; lra).
  rewrite E1, E2, E3, E4, E5, E6. cbn [negb andb]. rewrite py_div_R by lra. cbn [bind]. f_equal. cbn [n_add Num_R]. lra.
Qed.
Lemma two_just_1 : exists t x, 0 < x /\ bullenRadialSlowness (mkSL (-1) 6371 0 4871 1500) 4871 6371 = Ok (mkTD 4871 t x 0).
Proof.
  pose proof (unit_turn (-1) 0 1500 ltac:(lra) ltac:(lra) ltac:(lra)) as U. replace (6371 - 0) with 6371 in U by ring.
  replace (6371 - 1500) with 4871 in U by ring. rewrite U. eexists. eexists. split; [|reflexivity].
  rewrite <- atan_0. apply atan_increasing. apply Rdiv_lt_0_compat; [|lra]. apply sqrt_lt_R0. lra.
Qed.
Lemma two_just_2 : exists t, bullenRadialSlowness (mkSL (-1) 3371 3000 (3371 / 2) (6371 - 3371 / 2)) (3371 / 2) 6371 = Ok (mkTD (3371 / 2) t (PI / 3) 0).
Proof.
  pose proof (unit_turn (-1) 3000 (6371 - 3371 / 2) ltac:(lra) ltac:(lra) ltac:(lra)) as U. replace (6371 - 3000) with 3371 in U by ring.
  replace (6371 - (6371 - 3371 / 2)) with (3371 / 2) in U by ring. rewrite U. eexists. do 2 f_equal.
  replace (3371 * 3371 - 3371 / 2 * (3371 / 2)) with (3 * ((3371 / 2) * (3371 / 2))) by field.
  rewrite sqrt_mult by lra. rewrite sqrt_square by lra. replace (sqrt 3 * (3371 / 2) / (3371 / 2)) with (sqrt 3) by field.
  rewrite <- tan_PI3. assert (P := PI_RGT_0). apply atan_tan. lra.
Qed.
Lemma far_no : forall cT sT pT num den : R, den <> 0 -> exists e0, forall e, e0 <= e -> interp_far cT sT pT num den e = Ok false.
Proof.
  intros cT sT pT num den Hd. exists (Rabs (cT - ((sT - pT) * (num / den) + pT))). intros e He. unfold interp_far. cbn [np_div Num_R].
  assert (E : Reqb den 0 = false) by (apply Reqb_ne; exact Hd). rewrite E. f_equal.
  apply Rltb_ge. cbn [n_abs n_sub n_mul n_add Num_R]. lra.
Qed.
Lemma two_distance : exists e0, forall e w, e0 <= e -> distanceCheck1 20 w (two_sm e two_c) = Ok (two_sm e two_c).
Proof.
  assert (P := PI_RGT_0). assert (P4 := PI_4).
  destruct (two_first 3371 ltac:(lra)) as [tA [iA [bA [LA [A1 [A2 [A3 [A4 [A5 A6]]]]]]]]].
  destruct (two_first (3371 / 2) ltac:(lra)) as [tH [iH [bH [LH [H1 [H2 [H3 [H4 [H5 H6]]]]]]]]].
  destruct (two_first 0 ltac:(lra)) as [tB [iB [bB [LB [B1 [B2 [B3 [B4 [B5 B6]]]]]]]]].
  destruct two_just_1 as [t1 [x1 [X1 J1]]]. destruct two_just_2 as [t2 J2].
  assert (EA : bA = PI / 2).
  { rewrite <- asin_1. replace 1 with (sin bA) by lra. rewrite asin_sin; lra. }
  assert (EH : bH = PI / 6).
  { assert (E : sin bH = sin (PI / 6)) by (rewrite sin_PI6; lra). rewrite <- (asin_sin bH) by lra. rewrite E. apply asin_sin. lra. }
  assert (Lt : iH < iA).
  { apply sin_increasing_0; try lra. }
  destruct (far_no (2 * tA) (0 + 2 * t1) 0 (2 * (bA - iA) - 0) (0 + 2 * x1 - 0) ltac:(lra)) as [e1 F1].
  destruct (far_no (2 * (tB + 3371)) (2 * tH + 2 * t2) (2 * tA) (2 * (bB - iB + PI / 2) - 2 * (bA - iA))
              (2 * (bH - iH) + 2 * (PI / 3) - 2 * (bA - iA)) ltac:(lra)) as [e2 F2].
  exists (Rmax e1 e2). intros e w He.
  assert (He1 : e1 <= e) by (eapply Rle_trans; [apply Rmax_l|exact He]). assert (He2 : e2 <= e) by (eapply Rle_trans; [apply Rmax_r|exact He]).
  specialize (F1 e He1). specialize (F2 e He2).
  unfold distanceCheck1. destruct (two_layer e two_c w) as [G1 G2]. rewrite G1. cbn [bind]. rewrite while_S.
  unfold dc_body at 1. cbn [dc_m dc_j dc_sLayer dc_currOK dc_prevPrev].
  assert (E1 : (0 <? sm_numLayers (two_sm e two_c) w)%Z = true) by (destruct w; reflexivity). rewrite E1. cbn [negb].
  rewrite G1. cbn [bind sl_topP sl_botP sl_topDepth sl_botDepth].
  assert (E2 : forall x p, depthInHighSlowness (two_sm e two_c) x p w = false) by (intros; destruct w; reflexivity).
  rewrite !E2. cbn [negb andb]. replace (0 - 1)%Z with (-1)%Z by lia. rewrite two_none by lra. cbn [bind].
  rewrite (two_upper e 3371 w tA (bA - iA)) by (lra || apply LA). cbn [bind not_none td_dist td_time].
  assert (E3 : forall x, Rabs x <= 10 -> n_ltb (sm_maxRangeInterval (two_sm e two_c)) (n_abs x) = false).
  { intros x Hx. apply Rltb_ge. cbn. lra. }
  rewrite E3 by (cbn; apply Rabs_le; lra). cbn [andb].
  rewrite n_2_R, py_div_R by lra. cbn [bind n_add Num_R].
  replace ((6371 + 3371) / 2) with 4871 by lra. rewrite two_none by lra. cbn [bind].
  change (sm_radius (two_sm e two_c)) with 6371. rewrite two_depth_1. cbn [bind].
  unfold new_slayer at 1. rewrite n_0_R. assert (F5 : forall x : R, 0 <= x -> @n_leb R _ 0 x = true) by (intros x Hx; apply Rleb_le; exact Hx).
  rewrite !F5 by lra. cbn [bind]. rewrite J1. cbn [bind td_dist td_time n_mul n_sub n_add Num_R].
  change (sm_maxInterpError (two_sm e two_c)) with e. cbn [n_mul n_sub n_add Num_R] in F1. rewrite F1. cbn [bind].
  rewrite while_S. unfold dc_body at 1. cbn [dc_m dc_j dc_sLayer dc_currOK dc_prevOK dc_prev dc_curr dc_prevPrev].
  assert (E4 : (0 + 1 <? sm_numLayers (two_sm e two_c) w)%Z = true) by (destruct w; reflexivity). rewrite E4. cbn [negb].
  change (0 + 1)%Z with 1%Z. rewrite G2. cbn [bind sl_topP sl_botP sl_topDepth sl_botDepth]. rewrite !E2. cbn [negb andb bind].
  rewrite (two_lower e w tB (bB - iB)) by apply LB. cbn [bind not_none td_dist td_time].
  rewrite E3 by (cbn; apply Rabs_le; lra). cbn [andb].
  rewrite n_2_R, py_div_R by lra. cbn [bind n_add Num_R]. replace ((3371 + 0) / 2) with (3371 / 2) by lra. change (1 - 1)%Z with 0%Z.
  rewrite (two_upper e (3371 / 2) w tH (bH - iH)) by (lra || apply LH). cbn [bind]. change (sm_radius (two_sm e two_c)) with 6371. rewrite two_depth_2. cbn [bind].
  unfold new_slayer at 1. rewrite n_0_R. rewrite !F5 by lra. cbn [bind]. rewrite J2. cbn [bind td_dist td_time n_mul n_sub n_add Num_R].
  change (sm_maxInterpError (two_sm e two_c)) with e. rewrite F2. cbn [bind].
  rewrite while_S. unfold dc_body at 1. cbn [dc_m dc_j].
  assert (E6 : (1 + 1 <? sm_numLayers (two_sm e two_c) w)%Z = false) by (destruct w; reflexivity). rewrite E6. reflexivity.
Qed.
(** ** the slowness model *)
Theorem two_built : exists e, newSlownessModel 20 two_vm 1 7000 7000 10 e true 1 = Ok (two_sm e two_c').
Proof.
  destruct two_distance as [e D]. exists e. assert (D' := fun w => D e w (Rle_refl e)).
  unfold newSlownessModel, createSample.
  assert (V : v_validate two_vm = Ok true) by srun.
  change (sm_vMod (sm_init two_vm 1 7000 7000 10 e true 1)) with two_vm. rewrite V. cbn [bind negb].
  change (getNumLayers two_vm =? 0)%Z with false. cbv iota.
  change (py_index (vm_layers two_vm) 0) with (@Ok (vlayer R) (mkVLayer 0 0 3000 1 1 1 1 1 1)). cbn [bind vl_topS].
  assert (E : @n_eqb R _ 1 n_0 = false) by (apply Reqb_ne; rewrite n_0_R; lra). rewrite E.
  change (vm_radius two_vm) with 6371. pose proof (two_found e) as F.
  destruct (findCriticalPoints _) as [m1|e'|]; [|discriminate..]. cbn [bind] in F |- *. rewrite F. cbn [bind].
  rewrite (proj1 (two_checked e)). cbn [bind]. rewrite (proj2 (two_checked e)). cbn [bind].
  unfold distanceCheck. rewrite D'. cbn [bind]. rewrite D'. cbn [bind].
  rewrite (proj1 (two_fixed e)). cbn [bind]. rewrite (proj2 (two_fixed e)). reflexivity.
Qed.
(** ** the tau model *)
Lemma two_rays : forall e, tauRayParams (two_sm e two_c') = Ok [6371; 3371; 0].
Proof. intros e. sval. Qed.
Section Branches.
  Variables e tA xA tB xB : R.
  Hypothesis LA : forall w, layerTimeDist (two_sm e two_c') 3371 0 w = Ok (mkTD 3371 tA xA 0).
  Hypothesis LB : forall w, layerTimeDist (two_sm e two_c') 0 0 w = Ok (mkTD 0 tB xB 0).
  Definition two_tb (w : bool) : tbranch R :=
    mkTB 0 6371 w 6371 0 0 [0; xA; xB + PI / 2] [0; tA; tB + 3371] [0; tA - 3371 * xA; tB + 3371].
  Definition two_top (w : bool) : tbranch R :=
    mkTB 0 3000 w 6371 3371 3371 [0; xA; xB] [0; tA; tB] [0; tA - 3371 * xA; tB].
  Definition two_bot (w : bool) : tbranch R :=
    mkTB 3000 6371 w 3371 0 0 [0; 0; PI / 2] [0; 0; 3371] [0; 0; 3371].
  Definition two_t : tmodel R := mkTM (two_sm e two_c') [6371; 3371; 0] [two_tb true] [two_tb false] 0 0 0 0 0 0 0 0 6371.
  Definition two_r : tmodel R :=
    mkTM (two_sm e two_c') [6371; 3371; 0] [two_top true; two_bot true] [two_top false; two_bot false] 0 0 0 0 0 0 3000 1 6371.

  Lemma two_times : forall w, 
    calcTimeDist (two_sm e two_c') w 6371 0 1 6371 = Ok (mkTD 6371 0 0 0) /\
    calcTimeDist (two_sm e two_c') w 6371 0 1 3371 = Ok (mkTD 3371 tA xA 0) /\
    calcTimeDist (two_sm e two_c') w 6371 0 1 0 = Ok (mkTD 0 (tB + 3371) (xB + PI / 2) 0) /\
    calcTimeDist (two_sm e two_c') w 6371 0 0 6371 = Ok (mkTD 6371 0 0 0) /\
    calcTimeDist (two_sm e two_c') w 6371 0 0 3371 = Ok (mkTD 3371 tA xA 0) /\
    calcTimeDist (two_sm e two_c') w 6371 0 0 0 = Ok (mkTD 0 tB xB 0).
  Proof.
    intros w. destruct (two_layer e two_c' w) as [G1 G2].
    assert (Le : forall x y : R, x <= y -> n_leb x y = true) by (intros; now apply Rleb_le).
    assert (Gt : forall x y : R, y < x -> n_leb x y = false) by (intros; apply Rleb_false; lra).
    assert (NL : forall x y : R, y <= x -> n_ltb x y = false) by (intros; apply Rltb_ge; lra).
    unfold calcTimeDist. rewrite !Le by lra. rewrite G1. cbn [bind].
    change (Z.to_nat (1 + 1 - 0)) with 2%nat. change (Z.to_nat (0 + 1 - 0)) with 1%nat. cbn [ctd_go sl_topP sl_botP].
    rewrite !(Gt 6371 3371) by lra. rewrite !Le by lra. cbn [andb]. rewrite LA, LB. change (0 + 1)%Z with 1%Z. cbn [bind]. rewrite G2. cbn [bind sl_topP sl_botP].
    rewrite !(Gt 3371 0) by lra. rewrite !Le by lra. cbn [andb]. rewrite two_through. cbn [bind].
    assert (SC : forall y p, sl_topP y = p \/ sl_botP y = p \/ (p <= sl_topP y /\ p <= sl_botP y) -> strictly_contains y p = false).
    { intros y p Hy. unfold strictly_contains. apply NL. cbn [n_sub n_mul Num_R]. rewrite n_0_R. nra. }
    rewrite !SC by (cbn [sl_topP sl_botP]; lra). unfold td_add, td_new. cbn [td_p td_time td_dist td_depth]. rewrite n_0_R. cbn [n_add Num_R].
    repeat split; do 2 f_equal; lra.
  Qed.
  Lemma two_least : forall w, 
    getMinTurnRayParam 20 (two_sm e two_c') 6371 w = Ok 0 /\ getMinRayParam 20 (two_sm e two_c') 6371 w = Ok 0 /\
    getMinTurnRayParam 20 (two_sm e two_c') 3000 w = Ok 3371 /\ getMinRayParam 20 (two_sm e two_c') 3000 w = Ok 3371.
  Proof.
    intros w. destruct (two_layer e two_c' w) as [G1 G2]. destruct (two_number e two_c' w) as [N1 [N2 [N3 [N4 N5]]]].
    assert (E : forall x p, depthInHighSlowness (two_sm e two_c') x p w = false) by (intros; destruct w; reflexivity).
    assert (Q : forall x : R, n_eqb x x = true) by (intro; apply Reqb_eq; lra).
    assert (A : getMinTurnRayParam 20 (two_sm e two_c') 6371 w = Ok 0).
    { unfold getMinTurnRayParam. rewrite E, N5. cbn [bind]. rewrite G2. cbn [bind sl_botDepth sl_botP]. now rewrite Q. }
    assert (B : getMinTurnRayParam 20 (two_sm e two_c') 3000 w = Ok 3371).
    { unfold getMinTurnRayParam. rewrite E, N4. cbn [bind]. rewrite G1. cbn [bind sl_botDepth sl_botP]. now rewrite Q. }
    assert (M : forall x y : R, x <= y -> py_min x y = x /\ py_min y x = x).
    { intros x y Hxy. unfold py_min. cbn [n_ltb Num_R]. destruct (Rltb_spec y x), (Rltb_spec x y); split; lra. }
    split; [exact A|]. split; [|split; [exact B|]].
    - unfold getMinRayParam. rewrite A. cbn [bind]. rewrite N5, N3. cbn [bind]. rewrite G2. cbn [bind sl_botDepth sl_botP sl_topP]. rewrite Q.
      rewrite (proj1 (M 0 0 ltac:(lra))), (proj1 (M 0 3371 ltac:(lra))). reflexivity.
    - unfold getMinRayParam. rewrite B. cbn [bind]. rewrite N4, N2. cbn [bind]. rewrite G1, G2. cbn [bind sl_botDepth sl_botP sl_topP sl_topDepth]. rewrite Q.
      rewrite !(proj1 (M 3371 3371 ltac:(lra))). reflexivity.
  Qed.
  Lemma two_branch : forall w, createBranch 20 (two_sm e two_c') 0 6371 w 6371 [6371; 3371; 0] = Ok (two_tb w) /\
    createBranch 20 (two_sm e two_c') 0 3000 w 6371 [6371; 3371; 0] = Ok (two_top w).
  Proof.
    intros w. destruct (two_layer e two_c' w) as [G1 G2]. destruct (two_number e two_c' w) as [N1 [N2 [N3 [N4 N5]]]].
    destruct (two_least w) as [L1 [L2 [L3 L4]]]. destruct (two_times w) as [T1 [T2 [T3 [T4 [T5 T6]]]]].
    assert (Q : forall x : R, n_eqb x x = true) by (intro; apply Reqb_eq; lra).
    split; unfold createBranch; rewrite N1, ?N4, ?N5; cbn [bind]; rewrite G1, ?G2; cbn [bind]; unfold branch_ends; cbn [sl_topDepth sl_botDepth];
      rewrite !Q; cbn [negb orb bind].
    - rewrite L1, L2. cbn [bind mapM]. rewrite T1, T2, T3. cbn [bind map combine td_dist td_time].
      cbn [n_sub n_mul Num_R]. replace (0 - 6371 * 0) with 0 by ring. replace (tB + 3371 - 0 * (xB + PI / 2)) with (tB + 3371) by ring. reflexivity.
    - rewrite L3, L4. cbn [bind mapM]. rewrite T4, T5, T6. cbn [bind map combine td_dist td_time].
      cbn [n_sub n_mul Num_R]. replace (0 - 6371 * 0) with 0 by ring. replace (tB - 0 * xB) with tB by ring. reflexivity.
  Qed.
  Lemma two_branches : forall w, make_branches 20 (two_sm e two_c') w [6371; 3371; 0] = Ok [two_tb w].
  Proof.
    intros w. destruct (two_layer e two_c' w) as [G1 G2]. destruct (two_number e two_c' w) as [N1 [N2 [N3 [N4 N5]]]].
    unfold make_branches. rewrite G1. cbn [bind sl_topP]. cbn [two_sm sm_crit].
    unfold two_c'. cbn [adjacent combine tl foldM bind]. fold two_c'. fold (two_sm e two_c'). unfold branch_step. cbn [cd_pNum cd_sNum cd_depth].
    rewrite (proj1 (two_branch w)). cbn [bind]. replace (if w then 0%Z else 0%Z) with 0%Z by (now destruct w).
    replace ((if w then 2%Z else 2%Z) - 1)%Z with 1%Z by (now destruct w). rewrite G1, G2. cbn [bind].
    rewrite N5. cbn [bind]. rewrite G2. reflexivity.
  Qed.
  Lemma two_modelled : newTauModel 20 (two_sm e two_c') = Ok two_t.
  Proof.
    unfold newTauModel. change (sm_numLayers (two_sm e two_c') true =? 0)%Z with false. change (sm_numLayers (two_sm e two_c') false =? 0)%Z with false.
    cbn [orb]. rewrite (proj2 (two_fixed e)). cbn [bind negb]. rewrite two_rays. cbn [bind]. rewrite !two_branches. cbn [bind].
    change (vm_moho (sm_vMod (two_sm e two_c'))) with 0. change (vm_cmb (sm_vMod (two_sm e two_c'))) with 1. change (vm_iocb (sm_vMod (two_sm e two_c'))) with 1. 
    assert (K : forall s x, 0 <= x <= 1 -> closestBranch s x [two_tb true] = Ok (0%Z, 0)).
    { intros s x Hx. unfold closestBranch. cbn [closest_go two_tb tb_top].
      assert (A : (if s then n_ltb (n_abs (n_sub 0 x)) (n_lit 1 300) else n_leb (n_abs (n_sub 0 x)) (n_lit 1 300)) = true).
      { assert (B : n_ltb (n_abs (n_sub 0 x)) (n_lit 1 300) = true).
        { apply Rltb_lt. assert (P : 1 < n_lit 1 300).
          { change (@n_lit R Num_R 1 300) with (1 * 10 ^ Pos.to_nat 300). rewrite Rmult_1_l. apply Rlt_pow_R1; [lra|apply Pos2Nat.is_pos]. }
          assert (Q : n_abs (n_sub 0 x) <= 1) by (cbn [n_abs n_sub Num_R]; unfold Rabs; destruct (Rcase_abs _); lra).
          eapply Rle_lt_trans; [exact Q|exact P]. } destruct s; [exact B|]. apply Rltb_lt in B. apply Rleb_le. lra. }
      now rewrite A. }
    rewrite !K by lra. cbn [bind]. unfold two_t. do 2 f_equal.
    - apply n_0_R.
    - cbn [n_lit Num_R]. apply Rlit_0.
  Qed.
  Lemma two_lower_branch : forall w, tb_difference 20 (two_tb w) (two_top w) (-1) (-1) (two_sm e two_c') [6371; 3371; 0] = Ok (two_bot w).
  Proof.
    intros w. destruct (two_number e two_c' true) as [_ [M2 _]]. destruct (two_number e two_c' false) as [_ [M3 _]].
    destruct (two_number e two_c' w) as [N1 [N2 [N3 [N4 N5]]]]. destruct (two_layer e two_c' w) as [G1 G2].
    destruct (two_layer e two_c' true) as [_ G3]. destruct (two_layer e two_c' false) as [_ G4].
    assert (Q : forall x : R, n_eqb x x = true) by (intro; apply Reqb_eq; lra).
    assert (NL : forall x y : R, y <= x -> n_ltb x y = false) by (intros; apply Rltb_ge; lra).
    assert (NE : forall x y : R, x <> y -> n_eqb x y = false) by (intros; apply Reqb_ne; assumption).
    unfold tb_difference, diff_checks. cbn [two_tb two_top tb_top tb_bot tb_isP tb_minRP tb_minTurnRP tb_dist tb_time tb_tau].
    rewrite Q, (NL 6371 3000) by lra. cbn [negb orb bind]. rewrite Bool.eqb_reflx. cbn [negb]. rewrite N2, N3. cbn [bind]. rewrite G2. cbn [bind sl_topDepth sl_botDepth].
    rewrite (NE 3000 6371) by lra. cbn [andb bind]. rewrite !Q. cbn [negb orb]. rewrite M2. cbn [bind]. rewrite G3. cbn [bind].
    change (-1 >=? 0)%Z with false. cbv iota. cbn [bind]. rewrite M3. cbn [bind]. rewrite G4. cbn [bind].
    change (-1 =? -1)%Z with true. cbn [negb andb bind].
    unfold two_bot, list_sub. cbn [combine map fst snd]. cbn [n_sub Num_R]. rewrite !Rminus_eq_0.
    replace (xB + PI / 2 - xB) with (PI / 2) by ring. replace (tB + 3371 - tB) with 3371 by ring. reflexivity.
  Qed.
  Lemma two_corrected : tm_depthCorrect 20 [] two_t 3000 = Ok ([3000], two_t, two_r).
  Proof.
    assert (Q : forall x : R, n_eqb x x = true) by (intro; apply Reqb_eq; lra).
    assert (NL : forall x y : R, y <= x -> n_ltb x y = false) by (intros; apply Rltb_ge; lra).
    assert (NE : forall x y : R, x <> y -> n_eqb x y = false) by (intros; apply Reqb_ne; assumption).
    assert (Le : forall x y : R, x <= y -> n_leb x y = true) by (intros; now apply Rleb_le).
    assert (LT : forall x y : R, x < y -> n_ltb x y = true) by (intros; now apply Rltb_lt).
    assert (Sp : forall w, splitLayer 20 (two_sm e two_c') 3000 w = Ok (two_sm e two_c', mkSplit (two_sm e two_c') false false n_0)).
    { intros w. unfold splitLayer. destruct (two_number e two_c' w) as [_ [_ [_ [N4 _]]]]. rewrite N4. cbn [bind].
      rewrite (proj1 (two_layer e two_c' w)). cbn [bind sl_topDepth sl_botDepth]. rewrite Q, orb_true_r. reflexivity. }
    assert (Sb : forall w rp rp', split_branches 20 (two_sm e two_c') w 0 3000 [6371; 3371; 0] None None rp rp' [two_tb w] = Ok [two_top w; two_bot w]).
    { intros w rp rp'. unfold split_branches. cbn [firstn mapM bind]. change (py_index [two_tb w] (Z.of_nat 0)) with (Ok (two_tb w)). cbn [bind].
      cbn [two_tb tb_top tb_maxRP]. fold (two_tb w). rewrite (proj2 (two_branch w)). cbn [bind idx_or]. rewrite two_lower_branch. reflexivity. }
    unfold tm_depthCorrect. cbn [two_t tm_sourceDepth tm_radius]. rewrite n_0_R, Q. cbn [negb]. rewrite (NL 6371 3000) by lra.
    unfold splitBranch. cbn [two_t tm_P tm_S tm_sMod tm_rayParams existsb two_tb tb_top tb_bot]. rewrite !NE by lra. cbn [orb].
    rewrite Sp. cbn [bind insert_rp si_needed si_moved andb negb si_sMod]. rewrite Sp. cbn [bind insert_rp si_needed si_moved andb negb si_sMod si_rayParam].
    fold (two_tb true). fold (two_tb false). fold two_t.
    assert (Fb : findBranch two_t 3000 = Ok 0%Z).
    { unfold findBranch. cbn [two_t tm_P findBranch_go two_tb tb_top tb_bot]. rewrite Le, LT by lra. reflexivity. }
    rewrite Fb. cbn [bind]. change (Z.to_nat 0) with 0%nat. rewrite !Sb. cbn [bind].
    cbn [tm_mohoDepth tm_mohoBranch tm_cmbDepth tm_cmbBranch tm_iocbDepth tm_iocbBranch tm_sourceDepth tm_sourceBranch tm_radius tm_sMod tm_P tm_S tm_rayParams two_t].
    rewrite !(NL 3000 0) by lra.
    unfold findBranch. cbn [tm_P findBranch_go two_top two_bot tb_top tb_bot]. fold (two_top true) (two_bot true). rewrite !Le, (NL 3000 3000), LT by lra.
    cbn [andb bind]. reflexivity.
  Qed.
End Branches.
Theorem two_all : exists e tA xA tB xB, newSlownessModel 20 two_vm 1 7000 7000 10 e true 1 = Ok (two_sm e two_c') /\
  newTauModel 20 (two_sm e two_c') = Ok (two_t e tA xA tB xB) /\
  tm_depthCorrect 20 [] (two_t e tA xA tB xB) 3000 = Ok ([3000], two_t e tA xA tB xB, two_r e tA xA tB xB).
Proof.
  destruct two_built as [e B]. destruct (two_first 3371 ltac:(lra)) as [tA [iA [bA [LA _]]]]. destruct (two_first 0 ltac:(lra)) as [tB [iB [bB [LB _]]]].
  exists e, tA, (bA - iA), tB, (bB - iB). split; [exact B|]. split.
  - apply two_modelled; intros; [apply LA|apply LB].
  - apply two_corrected; intros; [apply LA|apply LB].
Qed.

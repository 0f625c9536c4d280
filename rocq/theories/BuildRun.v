(** A slowness model and a tau model constructed over the reals, used only to exhibit a concrete case in the
    property files: the planet of constant velocity 1. *)
From Coq Require Import ZArith Bool List String Ascii Reals Lia Lra.
From Verif Require Import Base Num PyStr VelocityModel SlownessLayer SlownessModel TauModel RealRun SlowRun SlowSpec SlowProofs SlowRealProofs StackProofs CritProps.
Import ListNotations.
Local Open Scope string_scope.
Local Open Scope list_scope.
Local Open Scope R_scope.

Definition one_sm (cr : list (critdepth R)) : smodel R :=
  mkSM unit_vm 1 7000 7000 10 100000 true 1 6371 cr [] [] [] [mkSL 4 6371 0 0 6371] [mkSL 5 6371 0 0 6371] 6.
Definition one_c : list (critdepth R) := [mkCD 0 0 0 0; mkCD 6371 1 (-1) (-1)].
Definition one_c' : list (critdepth R) := [mkCD 0 0 0 0; mkCD 6371 1 1 1].

Lemma one_found : (let! m := findCriticalPoints (sm_set_radius (sm_init unit_vm 1 7000 7000 10 100000 true 1) 6371) in
  coarseSample 20 m) = Ok (one_sm one_c).
Proof. eapply bind_ok; [srun|srun]. Qed.
Lemma ray_small : forall (m : smodel R) y, Rabs (sl_topP y - sl_botP y) <= sm_maxDeltaP m -> rayInc_body m y = Ok m.
Proof.
  intros m y H. unfold rayInc_body. destruct (n_ltb _ _) eqn:E; [|reflexivity].
  exfalso. apply Rltb_lt in E. cbn [n_abs n_sub Num_R] in E. lra.
Qed.
Lemma depth_small : forall b (m : smodel R) y, sl_botDepth y - sl_topDepth y <= sm_maxDepthInterval m -> depthInc_body b m y = Ok m.
Proof.
  intros b m y H. unfold depthInc_body. destruct (n_ltb _ _) eqn:E; [|reflexivity].
  exfalso. apply Rltb_lt in E. cbn [n_sub Num_R] in E. lra.
Qed.
Lemma one_idx : forall get body n (y : slayer R) (m : smodel R), get m = [y] -> body m y = Ok m -> for_idx (S (S n)) get 0 body m = Ok m.
Proof.
  intros get body n y m E H. rewrite for_idx_S, E. cbn [nth_error]. rewrite H. cbn [bind]. rewrite for_idx_S, E. reflexivity.
Qed.
Lemma one_checked : rayParamIncCheck 20 (one_sm one_c) = Ok (one_sm one_c) /\ depthIncCheck 20 (one_sm one_c) = Ok (one_sm one_c).
Proof.
  split.
  - unfold rayParamIncCheck. rewrite (one_idx sm_S _ _ (mkSL 5 6371 0 0 6371)); [cbn [bind]| |apply ray_small]; [|reflexivity|].
    + apply (one_idx sm_P _ _ (mkSL 4 6371 0 0 6371)); [reflexivity|apply ray_small].
      cbn. rewrite Rabs_pos_eq; lra.
    + cbn. rewrite Rabs_pos_eq; lra.
  - unfold depthIncCheck. rewrite (one_idx sm_S _ _ (mkSL 5 6371 0 0 6371)); [cbn [bind]| |apply depth_small]; [|reflexivity|].
    + apply (one_idx sm_P _ _ (mkSL 4 6371 0 0 6371)); [reflexivity|apply depth_small]. cbn. lra.
    + cbn. lra.
Qed.
Lemma one_number : forall cr x w, 0 <= x <= 6371 -> layerNumberBelow 20 (one_sm cr) x w = Ok (Z.of_nat 0) /\
  layerNumberAbove 20 (one_sm cr) x w = Ok (Z.of_nat 0).
Proof.
  intros cr x w Hx.
  assert (Hm : s_meet (sm_layers (one_sm cr) w)) by (intros i a b Ha Hb; exfalso; destruct w, i as [|[|i]]; discriminate).
  assert (Hu : s_upright (sm_layers (one_sm cr) w)) by (intros y Hy; destruct w; destruct Hy as [<-|[]]; apply Rleb_le; cbn; lra).
  assert (K : forall j z, nth_error (sm_layers (one_sm cr) w) j = Some z -> j = 0%nat)
    by (intros j z Hz; destruct w, j as [|[|j]]; try reflexivity; discriminate).
  assert (H : exists y, nth_error (sm_layers (one_sm cr) w) 0 = Some y /\ holds y x).
  { destruct w; (eexists; split; [reflexivity|]); split; apply Rleb_le; cbn; lra. }
  split.
  - apply below_iff_s; [exact Hm|exact Hu|apply R_ok|destruct w; cbn; lia|].
    split; [exact H|]. intros j z Hz _. rewrite (K _ _ Hz). lia.
  - apply above_iff_s; [exact Hm|exact Hu|apply R_ok|destruct w; cbn; lia|].
    split; [exact H|]. intros j z Hz _. lia.
Qed.
Lemma one_fixed : fixCriticalPoints 20 (one_sm one_c) = Ok (one_sm one_c') /\ sm_validate (one_sm one_c') = Ok true.
Proof.
  assert (E : forall w, fix_crit_num 20 (one_sm one_c) 0 w = Ok 0%Z /\ fix_crit_num 20 (one_sm one_c) 6371 w = Ok 1%Z).
  { intros w. unfold fix_crit_num. rewrite (proj1 (one_number one_c 0 w ltac:(lra))), (proj1 (one_number one_c 6371 w ltac:(lra))). cbn [bind Z.of_nat].
    assert (G : getSlownessLayer (one_sm one_c) 0 w = Ok (mkSL (if w then 4 else 5)%Z 6371 0 0 6371)) by (destruct w; reflexivity).
    rewrite G. cbn [bind]. assert (LN : List.length (sm_layers (one_sm one_c) w) = 1%nat) by (destruct w; reflexivity). rewrite LN.
    cbn [sl_botDepth]. assert (E1 : @n_eqb R _ 6371 0 = false) by (apply Reqb_ne; lra).
    assert (E2 : @n_eqb R _ 6371 6371 = true) by (apply Reqb_eq; lra). rewrite E1, E2. split; reflexivity. }
  split; [|srun].
  unfold fixCriticalPoints. cbn [one_sm sm_crit one_c mapM]. fold one_c. fold (one_sm one_c). cbn [cd_depth cd_vel].
  destruct (E true) as [E1 E2]. destruct (E false) as [E3 E4]. rewrite E1, E3. cbn [bind]. rewrite E2, E4. reflexivity.
Qed.

(** ** the distance check *)
Lemma one_layer : forall cr w, getSlownessLayer (one_sm cr) 0 w = Ok (mkSL (if w then 4 else 5)%Z 6371 0 0 6371).
Proof. intros cr w. destruct w; reflexivity. Qed.
Lemma one_none : forall p w, 0 <= p -> approxDistance (one_sm one_c) (-1) p w = Ok (mkTD p 0 0 0).
Proof.
  intros p w Hp. unfold approxDistance. assert (E : n_ltb p n_0 = false) by (apply Rltb_ge; rewrite n_0_R; lra).
  rewrite E. assert (E2 : (-1 >=? sm_numLayers (one_sm one_c) w)%Z = false) by (destruct w; reflexivity). rewrite E2.
  change (zrange 0 (-1 + 1)) with (@nil Z). cbn [foldM bind]. unfold td_new. cbn [td_p td_time td_dist td_depth].
  rewrite n_0_R, n_2_R. cbn [n_mul Num_R]. rewrite Rmult_0_l. reflexivity.
Qed.
Lemma one_through : forall cr w, layerTimeDist (one_sm cr) 0 0 w = Ok (mkTD 0 6371 (PI / 2) 0).
Proof.
  intros cr w. unfold layerTimeDist. rewrite one_layer. cbn [bind sl_topP sl_botP sl_topDepth sl_botDepth].
  assert (P := PI_RGT_0). rewrite !n_0_R.
  assert (E1 : @n_ltb R _ (py_max 6371 0) 0 = false).
  { apply Rltb_ge. unfold py_max. destruct (n_ltb _ _) eqn:E; [apply Rltb_lt in E|]; lra. }
  assert (E2 : @n_ltb R _ 0 0 = false) by (apply Rltb_ge; lra).
  assert (E3 : @n_ltb R _ (py_min 6371 0) 0 = false).
  { apply Rltb_ge. unfold py_min. destruct (@n_ltb R _ 0 6371) eqn:E; lra. }
  assert (E4 : @n_eqb R _ 0 6371 = false) by (apply Reqb_ne; lra).
  assert (E5 : @n_eqb R _ 0 0 = true) by (apply Reqb_eq; lra).
  assert (E6 : @n_eqb R _ 6371 (sm_radius (one_sm cr)) = true) by (apply Reqb_eq; reflexivity).
  rewrite E1, E2, E3, E4, E5, E6. cbn [andb].
  assert (E7 : (0 =? sm_numLayers (one_sm cr) w - 1)%Z = true) by (destruct w; reflexivity). rewrite E7. cbn [negb].
  rewrite n_2_R, py_div_R by lra. cbn [bind m_pi Libm_R].
  assert (E8 : @n_ltb R _ (PI / 2) 0 = false) by (apply Rltb_ge; lra).
  assert (E9 : @n_ltb R _ 6371 0 = false) by (apply Rltb_ge; lra). rewrite E8, E9. reflexivity.
Qed.
Lemma one_all : forall w, approxDistance (one_sm one_c) 0 0 w = Ok (mkTD 0 12742 PI 0).
Proof.
  intros w. unfold approxDistance. assert (E : @n_ltb R _ 0 n_0 = false) by (apply Rltb_ge; rewrite n_0_R; lra).
  rewrite E. assert (E2 : (0 >=? sm_numLayers (one_sm one_c) w)%Z = false) by (destruct w; reflexivity). rewrite E2.
  change (zrange 0 (0 + 1)) with [0%Z]. cbn [foldM bind]. rewrite one_through. cbn [bind].
  unfold td_add, td_new. cbn [td_p td_time td_dist td_depth]. rewrite n_0_R, n_2_R. cbn [n_mul n_add Num_R].
  do 2 f_equal; [lra|field].
Qed.
Lemma one_half : forall n, bullenDepthFor (mkSL n 6371 0 0 6371) (6371 / 2) 6371 = Ok (6371 / 2).
Proof.
  intros n. unfold bullenDepthFor. cbn [sl_topP sl_botP sl_topDepth sl_botDepth]. cbn [n_sub n_mul Num_R]. rewrite !n_0_R.
  assert (E1 : @n_leb R _ 0 ((6371 - 6371 / 2) * (6371 / 2 - 0)) = true) by (apply Rleb_le; lra).
  assert (E2 : @n_eqb R _ 0 6371 = false) by (apply Reqb_ne; lra).
  assert (E3 : @n_eqb R _ 6371 (6371 / 2) = false) by (apply Reqb_ne; lra).
  assert (E4 : @n_eqb R _ 0 (6371 / 2) = false) by (apply Reqb_ne; lra).
  assert (E5 : @n_eqb R _ 0 0 = true) by (apply Reqb_eq; lra).
  assert (E6 : @n_eqb R _ 6371 0 = false) by (apply Reqb_ne; lra).
  rewrite E1, E2, E3, E4, E5, E6. cbn [negb andb]. rewrite py_div_R by lra. cbn [bind]. f_equal. cbn [n_add Num_R]. lra.
Qed.
Lemma one_bullen : forall n, exists s a, bullenRadialSlowness (mkSL n 6371 0 (6371 / 2) (6371 / 2)) (6371 / 2) 6371 = Ok (mkTD (6371 / 2) s a 0) /\
  0 <= s <= 6371 /\ PI / 4 <= a.
Proof.
  intros n. unfold bullenRadialSlowness. cbn [sl_topP sl_botP sl_topDepth sl_botDepth]. rewrite !n_0_R.
  assert (E1 : @n_eqb R _ (6371 / 2) 0 = false) by (apply Reqb_ne; lra). rewrite E1.
  assert (E2 : @n_ltb R _ (n_sub (6371 / 2) 0) (n_lit 1 (-9)) = false).
  { apply Rltb_ge. cbn [n_sub n_lit Num_R]. unfold Rlit. cbn [powerRZ]. 
    replace (1 * / 10 ^ Pos.to_nat 9) with (/ 1000000000).
    - apply Rle_not_lt. apply Rle_trans with 1; [|lra]. rewrite <- Rinv_1. apply Rinv_le_contravar; lra.
    - rewrite Rmult_1_l. f_equal. change (Pos.to_nat 9) with 9%nat. lra. }
  rewrite E2. rewrite py_div_R by lra. cbn [bind n_sub Num_R].
  replace (6371 / (6371 / 2)) with 2 by lra. cbn [m_log Libm_R].
  assert (E3 : Rleb 2 0 = false) by (apply Rleb_false; lra). rewrite E3. cbn [bind].
  rewrite py_div_R by lra. cbn [bind]. replace ((6371 - 0) / (6371 - 6371 / 2)) with 2 by lra. rewrite E3. cbn [bind].
  assert (L2 : 0 < ln 2) by (rewrite <- ln_1; apply ln_increasing; lra).
  rewrite py_div_R by lra. cbn [bind]. replace (ln 2 / ln 2) with 1 by (field; lra).
  cbn [n_mul Num_R m_sqrt Libm_R].
  assert (E4 : Rltb (6371 * 6371 - 6371 / 2 * (6371 / 2)) 0 = false) by (apply Rltb_ge; lra). rewrite E4. cbn [bind].
  assert (E5 : Rltb (6371 / 2 * (6371 / 2) - 6371 / 2 * (6371 / 2)) 0 = false) by (apply Rltb_ge; lra). rewrite E5. cbn [bind].
  replace (6371 / 2 * (6371 / 2) - 6371 / 2 * (6371 / 2)) with 0 by lra. rewrite sqrt_0.
  set (q := 6371 * 6371 - 6371 / 2 * (6371 / 2)). assert (Q : 6371 / 2 * (6371 / 2) <= q <= 6371 * 6371) by (unfold q; lra).
  assert (S1 : 6371 / 2 <= sqrt q).
  { rewrite <- (sqrt_square (6371 / 2)) by lra. apply sqrt_le_1; lra. }
  assert (S2 : sqrt q <= 6371).
  { rewrite <- (sqrt_square 6371) by lra. apply sqrt_le_1; lra. }
  generalize dependent (sqrt q). intros s S1 S2. clear q Q E4 E5.
  cbn [m_atan2 Libm_R bind]. unfold Ratan2.
  assert (F1 : Rltb 0 0 = false) by (apply Rltb_ge; lra). assert (F2 : Rltb 0 (6371 / 2) = true) by (apply Rltb_lt; lra).
  assert (F3 : Rltb 0 s = true) by (apply Rltb_lt; lra). rewrite F1, F2, F3.
  rewrite !py_div_R by lra. cbn [bind n_sub Num_R].
  assert (A : atan (6371 / 2 / s) <= PI / 4).
  { rewrite <- atan_1. assert (X : 6371 / 2 / s <= 1).
    { apply Rmult_le_reg_r with s; [lra|]. unfold Rdiv at 1. rewrite Rmult_assoc, Rinv_l; lra. }
    destruct X as [X|X]; [left; apply atan_increasing; exact X|right; rewrite X; reflexivity]. }
  assert (P := PI_RGT_0).
  assert (G1 : @n_ltb R _ ((PI / 2 - atan (6371 / 2 / s)) / 1) 0 = false) by (apply Rltb_ge; lra).
  assert (G2 : @n_ltb R _ ((s - 0) / 1) 0 = false) by (apply Rltb_ge; lra). rewrite G1, G2.
  cbn [orb n_isnan Num_R]. eexists. eexists. split; [reflexivity|]. lra.
Qed.
Lemma one_near : forall s a, 0 <= s <= 6371 -> PI / 4 <= a ->
  interp_far 12742 (0 + 2 * s) 0 (PI - 0) (0 + 2 * a - 0) 100000 = Ok false.
Proof.
  intros s a Hs Ha. assert (P := PI_RGT_0). unfold interp_far. cbn [np_div Num_R].
  assert (E : Reqb (0 + 2 * a - 0) 0 = false) by (apply Reqb_ne; lra). rewrite E. f_equal.
  apply Rltb_ge. cbn [n_abs n_sub n_mul n_add Num_R]. set (q := (PI - 0) / (0 + 2 * a - 0)).
  assert (Q : 0 <= q <= 2).
  { unfold q. split.
    - apply Rmult_le_pos; [lra|]. left. apply Rinv_0_lt_compat. lra.
    - apply Rmult_le_reg_r with (2 * a); [lra|]. unfold Rdiv. replace (0 + 2 * a - 0) with (2 * a) by ring.
      rewrite Rmult_assoc, Rinv_l by lra. lra. }
  clearbody q. apply Rle_not_lt. unfold Rabs. destruct (Rcase_abs _); nra.
Qed.
Lemma one_distance : forall w, distanceCheck1 20 w (one_sm one_c) = Ok (one_sm one_c).
Proof.
  intros w. unfold distanceCheck1. rewrite one_layer. cbn [bind]. rewrite while_S.
  unfold dc_body at 1. cbn [dc_m dc_j dc_sLayer dc_currOK dc_prevPrev].
  assert (E1 : (0 <? sm_numLayers (one_sm one_c) w)%Z = true) by (destruct w; reflexivity). rewrite E1. cbn [negb].
  rewrite one_layer. cbn [bind sl_topP sl_botP sl_topDepth sl_botDepth].
  assert (E2 : forall x p, depthInHighSlowness (one_sm one_c) x p w = false) by (intros; destruct w; reflexivity).
  rewrite !E2. cbn [negb andb]. replace (0 - 1)%Z with (-1)%Z by lia. rewrite one_none by lra. cbn [bind].
  rewrite one_all. cbn [bind not_none td_dist td_time].
  assert (E3 : n_ltb (sm_maxRangeInterval (one_sm one_c)) (n_abs (n_sub 0 PI)) = false).
  { apply Rltb_ge. cbn. pose proof PI_4. pose proof PI_RGT_0. replace (0 - PI) with (- PI) by ring. rewrite Rabs_Ropp, Rabs_pos_eq; lra. }
  rewrite E3. cbn [andb]. rewrite n_2_R, py_div_R by lra. cbn [bind n_add Num_R].
  replace ((6371 + 0) / 2) with (6371 / 2) by lra. rewrite one_none by lra. cbn [bind].
  change (sm_radius (one_sm one_c)) with 6371. rewrite one_half. cbn [bind].
  unfold new_slayer. rewrite n_0_R. assert (F1 : @n_leb R _ 0 0 = true) by (apply Rleb_le; lra).
  assert (F2 : @n_leb R _ 0 (6371 / 2) = true) by (apply Rleb_le; lra). rewrite F1, F2. cbn [bind].
  destruct (one_bullen (-1)) as [s [a [B [S1 S2]]]]. rewrite B. cbn [bind td_dist td_time n_mul n_sub n_add Num_R].
  change (sm_maxInterpError (one_sm one_c)) with 100000. rewrite (one_near s a S1 S2). cbn [bind].
  rewrite while_S. unfold dc_body at 1. cbn [dc_m dc_j].
  assert (E4 : (0 + 1 <? sm_numLayers (one_sm one_c) w)%Z = false) by (destruct w; reflexivity). rewrite E4. reflexivity.
Qed.
(** ** the constructors *)
Theorem one_built : newSlownessModel 20 unit_vm 1 7000 7000 10 100000 true 1 = Ok (one_sm one_c').
Proof.
  unfold newSlownessModel, createSample.
  assert (V : v_validate unit_vm = Ok true) by srun.
  change (sm_vMod (sm_init unit_vm 1 7000 7000 10 100000 true 1)) with unit_vm. rewrite V. cbn [bind negb].
  change (getNumLayers unit_vm =? 0)%Z with false. cbv iota.
  change (py_index (vm_layers unit_vm) 0) with (@Ok (vlayer R) (mkVLayer 0 0 6371 1 1 1 1 1 1)). cbn [bind vl_topS].
  assert (E : @n_eqb R _ 1 n_0 = false) by (apply Reqb_ne; rewrite n_0_R; lra). rewrite E.
  change (vm_radius unit_vm) with 6371. pose proof one_found as F.
  destruct (findCriticalPoints _) as [m1|e|]; [|discriminate..]. cbn [bind] in F |- *. rewrite F. cbn [bind].
  rewrite (proj1 one_checked). cbn [bind]. rewrite (proj2 one_checked). cbn [bind].
  unfold distanceCheck. rewrite one_distance. cbn [bind]. rewrite one_distance. cbn [bind].
  rewrite (proj1 one_fixed). cbn [bind]. rewrite (proj2 one_fixed). reflexivity.
Qed.

Definition one_tb (w : bool) : tbranch R := mkTB 0 6371 w 6371 0 0 [0; PI / 2] [0; 6371] [0; 6371].
Definition one_t : tmodel R := mkTM (one_sm one_c') [6371; 0] [one_tb true] [one_tb false] 0 0 0 0 0 0 0 0 6371.
Lemma one_rays : tauRayParams (one_sm one_c') = Ok [6371; 0].
Proof. sval. Qed.
Lemma one_times : forall w, calcTimeDist (one_sm one_c') w 6371 0 0 6371 = Ok (mkTD 6371 0 0 0) /\
  calcTimeDist (one_sm one_c') w 6371 0 0 0 = Ok (mkTD 0 6371 (PI / 2) 0).
Proof.
  intros w. unfold calcTimeDist. rewrite !one_layer. cbn [bind Z.to_nat Z.sub Z.add Z.opp Pos.to_nat].
  assert (E1 : @n_leb R _ 6371 6371 = true) by (apply Rleb_le; lra).
  assert (E2 : @n_leb R _ 0 6371 = true) by (apply Rleb_le; lra). rewrite E1, E2.
  split; [destruct w; sval|].
  change (Pos.to_nat 1) with 1%nat. cbn [ctd_go sl_topP sl_botP].
  assert (E3 : @n_leb R _ 0 0 = true) by (apply Rleb_le; lra). rewrite E2, E3. cbn [andb].
  rewrite one_through. cbn [bind]. unfold strictly_contains, td_add, td_new. cbn [td_p td_time td_dist td_depth sl_topP sl_botP].
  assert (E4 : @n_ltb R _ 0 0 = false) by (apply Rltb_ge; lra). rewrite !n_0_R.
  assert (E5 : @n_ltb R _ 6371 0 = false) by (apply Rltb_ge; lra).
  match goal with |- (if ?b then _ else _) = _ => assert (Eb : b = false) by (apply Rltb_ge; cbn [n_sub n_mul Num_R]; lra); rewrite Eb end.
  cbn [n_add Num_R]. do 2 f_equal; lra.
Qed.
Lemma one_least : forall w, getMinTurnRayParam 20 (one_sm one_c') 6371 w = Ok 0 /\ getMinRayParam 20 (one_sm one_c') 6371 w = Ok 0.
Proof.
  intros w.
  assert (A : getMinTurnRayParam 20 (one_sm one_c') 6371 w = Ok 0).
  { unfold getMinTurnRayParam. assert (E : forall x p, depthInHighSlowness (one_sm one_c') x p w = false) by (intros; destruct w; reflexivity).
    rewrite E, (proj2 (one_number one_c' 6371 w ltac:(lra))). cbn [bind Z.of_nat]. rewrite one_layer. cbn [bind sl_botDepth sl_botP].
    assert (E2 : @n_eqb R _ 6371 6371 = true) by (apply Reqb_eq; lra). now rewrite E2. }
  split; [exact A|]. unfold getMinRayParam. rewrite A. cbn [bind].
  rewrite (proj2 (one_number one_c' 6371 w ltac:(lra))), (proj1 (one_number one_c' 6371 w ltac:(lra))). cbn [bind Z.of_nat].
  rewrite one_layer. cbn [bind sl_botDepth sl_botP sl_topP].
  assert (E2 : @n_eqb R _ 6371 6371 = true) by (apply Reqb_eq; lra). rewrite E2. unfold py_min.
  assert (E4 : @n_ltb R _ 0 0 = false) by (apply Rltb_ge; lra).
  assert (E5 : @n_ltb R _ 6371 0 = false) by (apply Rltb_ge; lra). now rewrite ?E4, ?E5, ?E4, ?E5.
Qed.
Lemma one_branches : forall w, make_branches 20 (one_sm one_c') w [6371; 0] = Ok [one_tb w].
Proof.
  intros w. unfold make_branches. rewrite one_layer. cbn [bind sl_topP]. cbn [one_sm sm_crit].
  assert (C : createBranch 20 (one_sm one_c') 0 6371 w 6371 [6371; 0] = Ok (one_tb w)).
  { unfold createBranch. rewrite (proj2 (one_number one_c' 6371 w ltac:(lra))), (proj1 (one_number one_c' 0 w ltac:(lra))). cbn [bind Z.of_nat].
    rewrite one_layer. cbn [bind]. unfold branch_ends. cbn [sl_topDepth sl_botDepth].
    assert (E2 : forall x : R, n_eqb x x = true) by (intro; apply Reqb_eq; lra). rewrite !E2. cbn [negb orb bind].
    destruct (one_least w) as [L1 L2]. rewrite L1, L2. cbn [bind mapM]. destruct (one_times w) as [T1 T2]. rewrite T1, T2. cbn [bind map combine td_dist td_time].
    unfold one_tb. do 2 f_equal. cbn [n_sub n_mul Num_R]. do 2 f_equal; [|f_equal]; lra. }
  unfold one_c'. cbn [adjacent combine tl foldM bind]. fold one_c'. unfold branch_step. cbn [cd_pNum cd_sNum cd_depth].
  rewrite C. cbn [bind]. replace (if w then 0%Z else 0%Z) with 0%Z by (now destruct w).
  replace ((if w then 1%Z else 1%Z) - 1)%Z with 0%Z by (now destruct w). rewrite one_layer. cbn [bind].
  rewrite (proj2 (one_number one_c' 6371 w ltac:(lra))). cbn [bind Z.of_nat]. rewrite one_layer. reflexivity.
Qed.
Lemma one_modelled : newTauModel 20 (one_sm one_c') = Ok one_t.
Proof.
  unfold newTauModel. change (sm_numLayers (one_sm one_c') true =? 0)%Z with false. change (sm_numLayers (one_sm one_c') false =? 0)%Z with false.
  cbn [orb]. rewrite (proj2 one_fixed). cbn [bind negb]. rewrite one_rays. cbn [bind]. rewrite !one_branches. cbn [bind].
  change (vm_moho (sm_vMod (one_sm one_c'))) with 0. change (vm_cmb (sm_vMod (one_sm one_c'))) with 1. change (vm_iocb (sm_vMod (one_sm one_c'))) with 1. 
  assert (K : forall s x, 0 <= x <= 1 -> closestBranch s x [one_tb true] = Ok (0%Z, 0)).
  { intros s x Hx. unfold closestBranch. cbn [closest_go one_tb tb_top].
    assert (A : (if s then n_ltb (n_abs (n_sub 0 x)) (n_lit 1 300) else n_leb (n_abs (n_sub 0 x)) (n_lit 1 300)) = true).
    { assert (B : n_ltb (n_abs (n_sub 0 x)) (n_lit 1 300) = true).
      { apply Rltb_lt. assert (P : 1 < n_lit 1 300).
        { change (@n_lit R Num_R 1 300) with (1 * 10 ^ Pos.to_nat 300). rewrite Rmult_1_l. apply Rlt_pow_R1; [lra|apply Pos2Nat.is_pos]. }
        assert (Q : n_abs (n_sub 0 x) <= 1) by (cbn [n_abs n_sub Num_R]; unfold Rabs; destruct (Rcase_abs _); lra).
        eapply Rle_lt_trans; [exact Q|exact P]. } destruct s; [exact B|]. apply Rltb_lt in B. apply Rleb_le. lra. }
    now rewrite A. }
  rewrite !K by lra. cbn [bind]. unfold one_t. do 2 f_equal.
  - apply n_0_R.
  - cbn [n_lit Num_R]. apply Rlit_0.
Qed.

(** The ball of TwoRun.v with a source inside its upper layer, used only to exhibit a concrete case in InsideProps.v. *)
From Coq Require Import ZArith Bool List String Ascii Reals Lia Lra.
From Verif Require Import Base Num PyStr VelocityModel SlownessLayer SlownessModel TauModel RealRun SlowRun SlowSpec SlowProofs SlowRealProofs StackProofs CritProps
  ShellProps BuildRun BullenSpec BullenProofs TauSpec TauProofs TauSplitProofs TauProps TwoRun.
Import ListNotations.
Local Open Scope list_scope.
Local Open Scope R_scope.

Definition in_l (a b c : Z) : list (slayer R) := [mkSL a 6371 0 4871 1500; mkSL b 4871 1500 3371 3000; mkSL c 3371 3000 0 6371].
Definition two_l' (n : Z) : list (slayer R) := [mkSL n 6371 0 3371 3000; mkSL (n + 1) 3371 3000 0 6371].
Definition in_c : list (critdepth R) := [mkCD 0 0 0 0; mkCD 6371 2 2 4].
Definition in_sm (e : R) : smodel R :=
  mkSM two_vm 1 7000 7000 10 e true 1 6371 in_c [] [] [] (in_l 16 17 15) (in_l 12 13 11) 18.

Lemma in_layer : forall e w, getSlownessLayer (in_sm e) 0 w = Ok (mkSL (if w then 16 else 12)%Z 6371 0 4871 1500) /\
  getSlownessLayer (in_sm e) 1 w = Ok (mkSL (if w then 17 else 13)%Z 4871 1500 3371 3000) /\
  getSlownessLayer (in_sm e) 2 w = Ok (mkSL (if w then 15 else 11)%Z 3371 3000 0 6371).
Proof. intros e w. destruct w; repeat split; reflexivity. Qed.
Lemma in_depths : forall e w j z, nth_error (sm_layers (in_sm e) w) j = Some z ->
  j = 0%nat /\ sl_topDepth z = 0 /\ sl_botDepth z = 1500 \/ j = 1%nat /\ sl_topDepth z = 1500 /\ sl_botDepth z = 3000 \/
  j = 2%nat /\ sl_topDepth z = 3000 /\ sl_botDepth z = 6371.
Proof.
  intros e w j z Hz.
  assert (E : tops (nth_error (sm_layers (in_sm e) w) j) = sl_topDepth z /\ bots (nth_error (sm_layers (in_sm e) w) j) = sl_botDepth z) by (rewrite Hz; auto).
  destruct E as [<- <-]. destruct j as [|[|[|j]]].
  - left. destruct w; repeat split; reflexivity.
  - right; left. destruct w; repeat split; reflexivity.
  - right; right. destruct w; repeat split; reflexivity.
  - destruct w, j; discriminate.
Qed.
Lemma in_stack : forall e w, s_meet (sm_layers (in_sm e) w) /\ s_upright (sm_layers (in_sm e) w).
Proof.
  intros e w. split.
  - intros i a b Ha Hb. apply Reqb_eq. apply in_depths in Ha, Hb. destruct Ha as [Ha|[Ha|Ha]], Hb as [Hb|[Hb|Hb]]; try lra; lia.
  - intros y Hy. apply In_nth_error in Hy. destruct Hy as [j Hj]. apply in_depths in Hj. apply Rleb_le. lra.
Qed.
Lemma in_number : forall e w,
  layerNumberBelow 20 (in_sm e) 0 w = Ok 0%Z /\ layerNumberBelow 20 (in_sm e) 1500 w = Ok 1%Z /\
  layerNumberBelow 20 (in_sm e) 6371 w = Ok 2%Z /\ layerNumberAbove 20 (in_sm e) 1500 w = Ok 0%Z.
Proof.
  intros e w. destruct (in_stack e w) as [Hm Hu].
  assert (LN : (List.length (sm_layers (in_sm e) w) <= 20)%nat) by (destruct w; cbn; lia).
  assert (K : forall j z x, nth_error (sm_layers (in_sm e) w) j = Some z -> holds z x ->
    j = 0%nat /\ 0 <= x <= 1500 \/ j = 1%nat /\ 1500 <= x <= 3000 \/ j = 2%nat /\ 3000 <= x <= 6371).
  { intros j z x Hz [H1 H2]. apply Rleb_le in H1, H2. apply in_depths in Hz. destruct Hz as [[-> [E1 E2]]|[[-> [E1 E2]]|[-> [E1 E2]]]]; rewrite E1 in H1; rewrite E2 in H2; auto. }
  assert (H0 : forall j x, (j = 0%nat /\ 0 <= x <= 1500 \/ j = 1%nat /\ 1500 <= x <= 3000 \/ j = 2%nat /\ 3000 <= x <= 6371) ->
    exists y, nth_error (sm_layers (in_sm e) w) j = Some y /\ holds y x).
  { intros j x Hx. destruct (nth_error (sm_layers (in_sm e) w) j) as [y|] eqn:E.
    - exists y. split; [reflexivity|]. apply in_depths in E. split; apply Rleb_le; destruct Hx as [Hx|[Hx|Hx]], E as [E|[E|E]]; try lra; lia.
    - exfalso. destruct Hx as [[-> _]|[[-> _]|[-> _]]]; destruct w; discriminate. }
  split; [|split; [|split]].
  - apply (below_iff_s 20 _ w 0 0); [exact Hm|exact Hu|apply R_ok|exact LN|]. split; [apply H0; left; split; [reflexivity|lra]|].
    intros j z Hz Hh. destruct (K _ _ _ Hz Hh) as [[-> _]|[[-> X]|[-> X]]]; [lia|lra..].
  - apply (below_iff_s 20 _ w 1500 1); [exact Hm|exact Hu|apply R_ok|exact LN|]. split; [apply H0; right; left; split; [reflexivity|lra]|].
    intros j z Hz Hh. destruct (K _ _ _ Hz Hh) as [[-> _]|[[-> X]|[-> X]]]; [lia|lia|lra].
  - apply (below_iff_s 20 _ w 6371 2); [exact Hm|exact Hu|apply R_ok|exact LN|]. split; [apply H0; right; right; split; [reflexivity|lra]|].
    intros j z Hz Hh. destruct (K _ _ _ Hz Hh) as [[-> _]|[[-> X]|[-> X]]]; lia.
  - apply (above_iff_s 20 _ w 1500 0); [exact Hm|exact Hu|apply R_ok|exact LN|]. split; [apply H0; left; split; [reflexivity|lra]|]. intros; lia.
Qed.
Lemma in_first : forall p, 0 <= p <= 4871 -> exists t x, forall e w, layerTimeDist (in_sm e) p 0 w = Ok (mkTD p t x 0).
Proof.
  intros p Hp.
  assert (A := C19_straight_ray (in_sm 0) 0 true (mkSL 16 6371 0 4871 1500) p (proj1 (in_layer 0 true))).
  cbn in A. destruct A as [A _]; [split; cbn; lra|lra| |lra|].
  { replace ((6371 - 0) / 6371 - (6371 - 1500) / 4871) with 0 by field. rewrite Rabs_R0. lra. }
  destruct A as [td [B1 [B2 [B3 _]]]]; [lra|].
  exists (td_time td), (td_dist td). 
  intros e w. transitivity (layerTimeDist (in_sm 0) p 0 true); [destruct w; reflexivity|]. transitivity (Ok td); [exact B1|].
  destruct td as [a b c q]. cbn in B2, B3 |- *. rewrite B2, B3. reflexivity.
Qed.
Lemma two_slow_1 : forall n, evaluateAtBullen (mkSL n 6371 0 3371 3000) 1500 6371 = Ok 4871.
Proof.
  intros n. rewrite (evaluate_run _ 6371 1 1 1500).
  - f_equal. unfold ys. replace (6371 - 1500) with 4871 by ring. rewrite Rpower_1 by lra. ring.
  - unfold thick. cbn. lra.
  - split; cbn; lra.
  - pose proof (unit_law n 0 3000) as U. replace (6371 - 0) with 6371 in U by ring. replace (6371 - 3000) with 3371 in U by ring. apply U; lra.
  - cbn. lra.
Qed.
Lemma in_split : forall e, splitLayer 20 (two_sm e two_c') 1500 false = Ok (two_sm e two_c', mkSplit (in_sm e) true false 4871) /\
  splitLayer 20 (in_sm e) 1500 true = Ok (in_sm e, mkSplit (in_sm e) false false n_0).
Proof.
  intros e. assert (Q : forall x : R, n_eqb x x = true) by (intro; apply Reqb_eq; lra).
  assert (NE : forall x y : R, x <> y -> n_eqb x y = false) by (intros; apply Reqb_ne; assumption).
  assert (LL : @n_lit R Num_R 1 (-6) = / 1000000) by (change (@n_lit R Num_R) with Rlit; unfold Rlit, powerRZ; simpl; lra).
  assert (GE : forall x : R, 0 <= x -> @n_leb R _ 0 x = true) by (intros; now apply Rleb_le).
  split.
  - unfold splitLayer. 
    assert (N : layerNumberAbove 20 (two_sm e two_c') 1500 false = Ok 0%Z).
    { destruct (two_stack e two_c' false) as [Hm Hu]. apply (above_iff_s 20 _ false 1500 0); [exact Hm|exact Hu|apply R_ok|cbn; lia|].
      split; [|intros; lia]. eexists. split; [reflexivity|]. split; apply Rleb_le; cbn; lra. }
    rewrite N. cbn [bind]. rewrite (proj1 (two_layer e two_c' false)). cbn [bind sl_topDepth sl_botDepth sl_topP sl_botP]. rewrite !NE by lra. cbn [orb]. rewrite !LL.
    assert (A1 : n_ltb (n_abs (n_sub 0 1500)) (/ 1000000) = false).
    { apply Rltb_ge. cbn [n_abs n_sub Num_R]. rewrite Rabs_left; lra. }
    assert (A2 : n_ltb (n_abs (n_sub 1500 3000)) (/ 1000000) = false).
    { apply Rltb_ge. cbn [n_abs n_sub Num_R]. rewrite Rabs_left; lra. }
    rewrite A1, A2. change (sm_radius (two_sm e two_c')) with 6371. rewrite two_slow_1. cbn [bind].
    unfold new_slayer at 1. rewrite n_0_R. rewrite !GE by lra. cbn [bind]. unfold new_slayer at 1. rewrite n_0_R. rewrite !GE by lra. cbn [bind].
    assert (S1 : strictly_contains (mkSL 14 6371 0 3371 3000) 4871 = true).
    { unfold strictly_contains. apply Rltb_lt. cbn [n_sub n_mul Num_R sl_topP sl_botP]. rewrite n_0_R. lra. }
    assert (S2 : strictly_contains (mkSL 15 3371 3000 0 6371) 4871 = false).
    { unfold strictly_contains. apply Rltb_ge. cbn [n_sub n_mul Num_R sl_topP sl_botP]. rewrite n_0_R. lra. }
    assert (F : forall crit, fixOtherLayers 6371 (two_l 6) 4871 (mkSL 7 6371 0 3371 3000) (mkSL 12 6371 0 4871 1500) (mkSL 13 4871 1500 3371 3000) crit true 14 =
      Ok (in_l 16 17 15, fixCriticalDepths crit 0 false, 18%Z)).
    { intros crit. unfold fixOtherLayers. 
      change (index_of_id (sl_id (mkSL 7 6371 0 3371 3000)) (two_l 6)) with (@None nat). cbv iota.
      change (fresh_copy 14 (two_l 6)) with (two_l' 14). change (14 + Z.of_nat (List.length (two_l 6)))%Z with 16%Z.
      change (enumerate (two_l' 14)) with [(0%Z, mkSL 14 6371 0 3371 3000); (1%Z, mkSL 15 3371 3000 0 6371)].
      cbn [foldM]. unfold fixOther_step at 1. rewrite S1, two_depth_1. cbn [bind sl_topP sl_botP sl_topDepth sl_botDepth].
      unfold new_slayer at 1. rewrite n_0_R. rewrite !GE by lra. cbn [bind sl_botDepth]. unfold new_slayer at 1. rewrite n_0_R. rewrite !GE by lra. cbn [bind].
      unfold fixOther_step at 1. rewrite S2. reflexivity. }
    specialize (F (fixCriticalDepths (sm_crit (two_sm e two_c')) 0 false)).
    match goal with |- bind ?X _ = _ => change X with (fixOtherLayers 6371 (two_l 6) 4871 (mkSL 7 6371 0 3371 3000) (mkSL 12 6371 0 4871 1500) (mkSL 13 4871 1500 3371 3000) (fixCriticalDepths (sm_crit (two_sm e two_c')) 0 false) true 14) end.
    rewrite F. reflexivity.
  - unfold splitLayer. destruct (in_number e true) as [_ [_ [_ N]]]. rewrite N. cbn [bind]. rewrite (proj1 (in_layer e true)). cbn [bind sl_topDepth sl_botDepth].
    rewrite Q, orb_true_r. reflexivity.
Qed.
Section Branches.
  Variables e tA xA tB xB tC xC tD xD : R.
  Hypothesis LC : forall w, layerTimeDist (in_sm e) 3371 0 w = Ok (mkTD 3371 tC xC 0).
  Hypothesis LD : forall w, layerTimeDist (in_sm e) 0 0 w = Ok (mkTD 0 tD xD 0).
  Hypothesis Hm : newTauModel 20 (two_sm e two_c') = Ok (two_t e tA xA tB xB).
  Definition in_top (w : bool) : tbranch R :=
    mkTB 0 1500 w 6371 4871 4871 [0; xC; xD] [0; tC; tD] [0; tC - 3371 * xC; tD].
  Definition in_bot (w : bool) : tbranch R :=
    mkTB 1500 6371 w 4871 0 0 [0; xA - xC; xB + PI / 2 - xD] [0; tA - tC; tB + 3371 - tD] [0; tA - 3371 * xA - (tC - 3371 * xC); tB + 3371 - tD].
  Definition in_r : tmodel R :=
    mkTM (in_sm e) [6371; 3371; 0] [in_top true; in_bot true] [in_top false; in_bot false] 0 0 0 0 0 0 1500 1 6371.
  Let tt_ := two_t e tA xA tB xB.
  Let tb_ := two_tb tA xA tB xB.

  Lemma in_times : forall w, 
    calcTimeDist (in_sm e) w 6371 0 0 6371 = Ok (mkTD 6371 0 0 0) /\
    calcTimeDist (in_sm e) w 6371 0 0 3371 = Ok (mkTD 3371 tC xC 0) /\
    calcTimeDist (in_sm e) w 6371 0 0 0 = Ok (mkTD 0 tD xD 0).
  Proof.
    intros w. destruct (in_layer e w) as [G1 _].
    assert (Le : forall x y : R, x <= y -> n_leb x y = true) by (intros; now apply Rleb_le).
    assert (Gt : forall x y : R, y < x -> n_leb x y = false) by (intros; apply Rleb_false; lra).
    assert (NL : forall x y : R, y <= x -> n_ltb x y = false) by (intros; apply Rltb_ge; lra).
    unfold calcTimeDist. rewrite !Le by lra. rewrite G1. cbn [bind].
    change (Z.to_nat (0 + 1 - 0)) with 1%nat. cbn [ctd_go sl_topP sl_botP].
    rewrite !(Gt 6371 4871) by lra. rewrite !Le by lra. cbn [andb]. rewrite LC, LD. cbn [bind]. 
    assert (SC : forall y p, sl_topP y = p \/ sl_botP y = p \/ (p <= sl_topP y /\ p <= sl_botP y) -> strictly_contains y p = false).
    { intros y p Hy. unfold strictly_contains. apply NL. cbn [n_sub n_mul Num_R]. rewrite n_0_R. nra. }
    rewrite !SC by (cbn [sl_topP sl_botP]; lra). unfold td_add, td_new. cbn [td_p td_time td_dist td_depth]. rewrite n_0_R. cbn [n_add Num_R].
    repeat split; do 2 f_equal; lra.
  Qed.
  Lemma in_least : forall w, 
    getMinTurnRayParam 20 (in_sm e) 1500 w = Ok 4871 /\ getMinRayParam 20 (in_sm e) 1500 w = Ok 4871.
  Proof.
    intros w. destruct (in_layer e w) as [G1 [G2 _]]. destruct (in_number e w) as [N1 [N2 [N3 N4]]].
    assert (E : forall x p, depthInHighSlowness (in_sm e) x p w = false) by (intros; destruct w; reflexivity).
    assert (Q : forall x : R, n_eqb x x = true) by (intro; apply Reqb_eq; lra).
    assert (B : getMinTurnRayParam 20 (in_sm e) 1500 w = Ok 4871).
    { unfold getMinTurnRayParam. rewrite E, N4. cbn [bind]. rewrite G1. cbn [bind sl_botDepth sl_botP]. now rewrite Q. }
    assert (M : forall x y : R, x <= y -> py_min x y = x /\ py_min y x = x).
    { intros x y Hxy. unfold py_min. cbn [n_ltb Num_R]. destruct (Rltb_spec y x), (Rltb_spec x y); split; lra. }
    split; [exact B|].
    unfold getMinRayParam. rewrite B. cbn [bind]. rewrite N4, N2. cbn [bind]. rewrite G1, G2. cbn [bind sl_botDepth sl_botP sl_topP sl_topDepth]. rewrite Q.
    rewrite !(proj1 (M 4871 4871 ltac:(lra))). reflexivity.
  Qed.
  Lemma in_branch_top : forall w, createBranch 20 (in_sm e) 0 1500 w 6371 [6371; 3371; 0] = Ok (in_top w).
  Proof.
    intros w. destruct (in_layer e w) as [G1 [G2 _]]. destruct (in_number e w) as [N1 [N2 [N3 N4]]].
    destruct (in_least w) as [L1 L2]. destruct (in_times w) as [T1 [T2 T3]].
    assert (Q : forall x : R, n_eqb x x = true) by (intro; apply Reqb_eq; lra).
    unfold createBranch; rewrite N1, N4; cbn [bind]; rewrite G1; cbn [bind]; unfold branch_ends; cbn [sl_topDepth sl_botDepth];
      rewrite !Q; cbn [negb orb bind].
    rewrite L1, L2. cbn [bind mapM]. rewrite T1, T2, T3. cbn [bind map combine td_dist td_time].
    cbn [n_sub n_mul Num_R]. replace (0 - 6371 * 0) with 0 by ring. replace (tD - 0 * xD) with tD by ring. reflexivity.
  Qed.
  Lemma in_lower_branch : forall w, tb_difference 20 (tb_ w) (in_top w) (-1) (-1) (in_sm e) [6371; 3371; 0] = Ok (in_bot w).
  Proof.
    intros w. destruct (in_number e true) as [_ [M2 _]]. destruct (in_number e false) as [_ [M3 _]].
    destruct (in_number e w) as [N1 [N2 [N3 N4]]]. destruct (in_layer e w) as [G1 [G2 G5]].
    destruct (in_layer e true) as [_ [G3 _]]. destruct (in_layer e false) as [_ [G4 _]].
    assert (Q : forall x : R, n_eqb x x = true) by (intro; apply Reqb_eq; lra).
    assert (NL : forall x y : R, y <= x -> n_ltb x y = false) by (intros; apply Rltb_ge; lra).
    assert (NE : forall x y : R, x <> y -> n_eqb x y = false) by (intros; apply Reqb_ne; assumption).
    unfold tb_difference, diff_checks, tb_. cbn [two_tb in_top tb_top tb_bot tb_isP tb_minRP tb_minTurnRP tb_dist tb_time tb_tau].
    rewrite Q, (NL 6371 1500) by lra. cbn [negb orb bind]. rewrite Bool.eqb_reflx. cbn [negb]. rewrite N2, N3. cbn [bind]. rewrite G2, G5. cbn [bind sl_topDepth sl_botDepth].
    rewrite ?(NE 1500 6371), ?(NE 3000 6371) by lra. cbn [andb bind]. rewrite !Q. cbn [negb orb]. rewrite M2. cbn [bind]. rewrite G3. cbn [bind].
    change (-1 >=? 0)%Z with false. cbv iota. cbn [bind]. rewrite M3. cbn [bind]. rewrite G4. cbn [bind].
    change (-1 =? -1)%Z with true. cbn [negb andb bind].
    unfold in_bot, list_sub. cbn [combine map fst snd]. cbn [n_sub Num_R]. rewrite !Rminus_eq_0. reflexivity.
  Qed.
  Lemma in_corrected : tm_depthCorrect 20 [] tt_ 1500 = Ok ([1500], tt_, in_r).
  Proof.
    assert (Q : forall x : R, n_eqb x x = true) by (intro; apply Reqb_eq; lra).
    assert (NL : forall x y : R, y <= x -> n_ltb x y = false) by (intros; apply Rltb_ge; lra).
    assert (NE : forall x y : R, x <> y -> n_eqb x y = false) by (intros; apply Reqb_ne; assumption).
    assert (Le : forall x y : R, x <= y -> n_leb x y = true) by (intros; now apply Rleb_le).
    assert (LT : forall x y : R, x < y -> n_ltb x y = true) by (intros; now apply Rltb_lt).
    destruct (in_split e) as [Sp1 Sp2].
    assert (Sb : forall w rp rp', split_branches 20 (in_sm e) w 0 1500 [6371; 3371; 0] None None rp rp' [tb_ w] = Ok [in_top w; in_bot w]).
    { intros w rp rp'. unfold split_branches. cbn [firstn mapM bind]. change (py_index [tb_ w] (Z.of_nat 0)) with (Ok (tb_ w)). cbn [bind].
      change (tb_top (tb_ w)) with 0. change (tb_maxRP (tb_ w)) with 6371. rewrite in_branch_top. cbn [bind idx_or]. rewrite in_lower_branch. reflexivity. }
    assert (Dc : decreasing [6371; 3371; 0]).
    { destruct (C24_ray_parameters _ _ _ Hm ltac:(intros; apply R_ok)) as [_ [Dec _]]. exact Dec. }
    unfold tm_depthCorrect, tt_. cbn [two_t tm_sourceDepth tm_radius]. rewrite n_0_R, Q. cbn [negb]. rewrite (NL 6371 1500) by lra.
    unfold splitBranch. cbn [two_t tm_P tm_S tm_sMod tm_rayParams existsb two_tb tb_top tb_bot]. rewrite !NE by lra. cbn [orb].
    rewrite Sp1. cbn [bind]. rewrite insert_rp_none by exact Dc. cbn [si_sMod]. rewrite Sp2. cbn [bind].
    rewrite insert_rp_none by exact Dc. cbn [si_needed si_moved andb orb negb si_sMod si_rayParam].
    fold (two_tb tA xA tB xB true). fold (two_tb tA xA tB xB false). fold (tb_ true). fold (tb_ false).
    fold (two_t e tA xA tB xB). fold tt_.
    assert (Fb : findBranch tt_ 1500 = Ok 0%Z).
    { unfold findBranch, tt_. cbn [two_t tm_P findBranch_go two_tb tb_top tb_bot]. rewrite Le, LT by lra. reflexivity. }
    rewrite Fb. cbn [bind]. change (Z.to_nat 0) with 0%nat. rewrite !Sb. cbn [bind].
    unfold tt_. cbn [tm_mohoDepth tm_mohoBranch tm_cmbDepth tm_cmbBranch tm_iocbDepth tm_iocbBranch tm_sourceDepth tm_sourceBranch tm_radius tm_sMod tm_P tm_S tm_rayParams two_t].
    rewrite !(NL 1500 0) by lra.
    unfold findBranch. cbn [tm_P findBranch_go in_top in_bot tb_top tb_bot]. fold (in_top true) (in_bot true). rewrite !Le, (NL 1500 1500), LT by lra.
    cbn [andb bind]. reflexivity.
  Qed.
End Branches.
Theorem in_all : exists e tA xA tB xB tC xC tD xD, newSlownessModel 20 two_vm 1 7000 7000 10 e true 1 = Ok (two_sm e two_c') /\
  newTauModel 20 (two_sm e two_c') = Ok (two_t e tA xA tB xB) /\
  tm_depthCorrect 20 [] (two_t e tA xA tB xB) 1500 = Ok ([1500], two_t e tA xA tB xB, in_r e tA xA tB xB tC xC tD xD) /\
  (forall w, layerTimeDist (in_sm e) 3371 0 w = Ok (mkTD 3371 tC xC 0)) /\ (forall w, layerTimeDist (in_sm e) 0 0 w = Ok (mkTD 0 tD xD 0)).
Proof.
  destruct two_all as [e [tA [xA [tB [xB [B [C _]]]]]]].
  destruct (in_first 3371 ltac:(lra)) as [tC [xC LC]]. destruct (in_first 0 ltac:(lra)) as [tD [xD LD]].
  exists e, tA, xA, tB, xB, tC, xC, tD, xD. split; [exact B|]. split; [exact C|].
  split; [|split; [intros; apply LC|intros; apply LD]].
  apply in_corrected; [intros; apply LC|intros; apply LD|exact C].
Qed.

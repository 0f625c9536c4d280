(** Property C19: layers of constant velocity. *)
From Coq Require Import Reals Lra Bool List ZArith String Psatz.
From Verif Require Import Base Num SlownessLayer VelocityModel SlownessModel BullenSpec BullenProofs.
Import ListNotations.
Local Open Scope R_scope.

Lemma dist_euc_polar : forall rt rb x l, 0 <= l -> l * l = rt * rt + rb * rb - 2 * rt * rb * cos x ->
  dist_euc rt 0 (rb * cos x) (rb * sin x) = l.
Proof.
  intros rt rb x l Hl E. unfold dist_euc. apply Rsqr_inj; [apply sqrt_pos|assumption|].
  rewrite Rsqr_sqrt.
  - unfold Rsqr. pose proof (sin2_cos2 x) as S. unfold Rsqr in S. nra.
  - pose proof (Rle_0_sqr (rt - rb * cos x)). pose proof (Rle_0_sqr (0 - rb * sin x)). lra.
Qed.

(** The chord between a point at radius [rt] and one at radius [rb], whose angles with the radius are
    given by Snell's law, seen from the centre under the angle [x] with length [len]. *)
Definition chord (a rt rb x len : R) : Prop :=
  (exists it ib, 0 <= it /\ it <= ib /\ ib <= PI / 2 /\ rt * sin it = a /\ rb * sin ib = a /\ x = ib - it)
  /\ dist_euc rt 0 (rb * cos x) (rb * sin x) = len.

(** ** C19 *)
(** A layer that passes the test for constant velocity and is thicker than the tolerance: time and
    angle are those of the straight line. *)
Theorem C19_straight_ray : forall m n w l p, 
  getSlownessLayer m n w = Ok l -> slow_pos l -> 
  let rt := sm_radius m - sl_topDepth l in
  let rb := sm_radius m - sl_botDepth l in
  let v := rb / sl_botP l in
  0 < rb < rt -> Rabs (rt / sl_topP l - v) < sm_tolerance m -> sm_tolerance m <= rt * rt - rb * rb ->
  (0 <= p <= sl_topP l /\ p <= sl_botP l ->
     exists td, layerTimeDist m p n w = Ok td /\ td_p td = p /\ td_depth td = 0 /\
                0 <= td_time td /\ 0 <= td_dist td /\ chord (p * v) rt rb (td_dist td) (v * td_time td)) /\
  (~ (0 <= p <= sl_topP l /\ p <= sl_botP l) -> layerTimeDist m p n w = Raise SlownessModelError).
Proof.
  intros m n w l p Hg [P1 P2] rt rb v Hr Hv Ht.
  assert (V0 : 0 < v) by (unfold v; apply Rdiv_lt_0_compat; lra).
  unfold layerTimeDist. rewrite Hg. cbn [bind]. fold rt rb.
  unfold py_max, py_min. cbn [n_ltb n_eqb n_sub n_abs Num_R]. rewrite ?n_0_R.
  split.
  - intros [Hp Hp'].
    destruct (Rltb_spec (sl_topP l) (sl_botP l)).
    all: destruct (Rltb_spec (sl_botP l) (sl_topP l)); try lra.
    all: try (destruct (Rltb_spec (sl_botP l) p); [lra|]); try (destruct (Rltb_spec (sl_topP l) p); [lra|]).
    all: destruct (Rltb_spec p 0); [lra|]; try (destruct (Rltb_spec (sl_botP l) p); [lra|]); try (destruct (Rltb_spec (sl_topP l) p); [lra|]).
    all: destruct (Reqb_spec (sl_topDepth l) (sl_botDepth l)); [unfold rt, rb in Hr; lra|].
    all: destruct (Reqb_spec (sl_botDepth l) (sm_radius m)); [unfold rb in Hr; lra|].
    all: rewrite andb_false_r.
    all: change (sm_radius m - sl_topDepth l)%R with rt; change (sm_radius m - sl_botDepth l)%R with rb.
    all: rewrite py_div_R by lra; cbn [bind]; rewrite py_div_R by lra; cbn [bind].
    all: fold v; rewrite (proj2 (Rltb_true _ _) Hv).
    all: assert (G : exists td, constVelTimeDist (sm_tolerance m) p rt rb (sl_botP l) = Ok td /\ td_p td = p /\ td_depth td = 0 /\
                0 <= td_time td /\ 0 <= td_dist td /\ chord (p * v) rt rb (td_dist td) (v * td_time td)); [|exact G].
    all: unfold constVelTimeDist; cbn [n_ltb n_eqb n_sub n_abs n_mul Num_R]; rewrite py_div_R by lra; cbn [bind]; fold v; rewrite ?n_0_R.
    all: assert (Av : 0 <= p * v <= rb) by
      (split; [apply Rmult_le_pos; lra|]; replace rb with (sl_botP l * v) by (unfold v; field; lra); apply Rmult_le_compat_r; lra).
    all: assert (Tt : sm_tolerance m <= rt * rt - p * p * v * v) by nra.
    all: assert (T0 : 0 < sm_tolerance m) by (pose proof (Rabs_pos (rt / sl_topP l - v)); lra).
    all: rewrite (Rabs_right (rt * rt - p * p * v * v)) by lra.
    all: destruct (Rltb_spec (rt * rt - p * p * v * v) (sm_tolerance m)); [lra|].
    all: assert (Eb : (if Reqb p (sl_botP l) then 0 else rb * rb - p * p * v * v) = rb * rb - (p * v) * (p * v)) by
      (destruct (Reqb_spec p (sl_botP l)) as [E|_]; [rewrite E; unfold v; field; lra|ring]).
    all: rewrite Eb; replace (rt * rt - p * p * v * v) with (rt * rt - (p * v) * (p * v)) by ring.
    all: rewrite m_sqrt_R by nra; cbn [bind]; rewrite m_sqrt_R by nra; cbn [bind].
    all: destruct (asin_diff (p * v) rt rb Av Hr) as [Q1 Q2].
    all: set (st := sqrt (rt * rt - p * v * (p * v))) in *; set (sb := sqrt (rb * rb - p * v * (p * v))) in *.
    all: cbv zeta in Q1, Q2.
    all: rewrite py_div_R by lra; cbn [bind].
    all: rewrite py_div_R by nra; cbn [bind].
    all: replace ((st - sb) * p * v / (rt * rb)) with ((st - sb) * (p * v) / (rt * rb)) by (field; lra).
    all: cbn [m_asin Libm_R]; rewrite (proj2 (Rleb_true (-1) _)) by lra; rewrite (proj2 (Rleb_true _ 1)) by lra; cbn [andb bind].
    all: assert (Sd : sb <= st) by (apply sqrt_le_1; nra).
    all: assert (X0 : 0 <= asin ((st - sb) * (p * v) / (rt * rb))) by (rewrite <- asin_0; apply asin_le; lra).
    all: assert (Z0 : 0 <= (st - sb) / v) by (apply Rmult_le_pos; [lra|apply Rlt_le, Rinv_0_lt_compat; lra]).
    all: rewrite (proj2 (Rltb_false _ 0) X0), (proj2 (Rltb_false _ 0) Z0); cbn [orb n_isnan Num_R].
    all: eexists; split; [reflexivity|]; cbn [td_p td_depth td_time td_dist]; do 4 (split; [reflexivity||assumption|]).
    all: assert (Qq : forall z0, rb <= z0 -> 0 <= p * v / z0 <= 1) by
      (intros z0 Hr'; split; [apply Rmult_le_pos; [lra|apply Rlt_le, Rinv_0_lt_compat; lra]|];
       apply Rmult_le_reg_r with z0; [lra|]; unfold Rdiv; rewrite Rmult_assoc, Rinv_l by lra; lra).
    all: pose proof (Qq rb ltac:(lra)) as Qb; pose proof (Qq rt ltac:(lra)) as Qt.
    all: assert (Le : p * v / rt <= p * v / rb) by
      (unfold Rdiv; apply Rmult_le_compat_l; [lra|]; apply Rinv_le_contravar; lra).
    all: rewrite Q2.
    all: split.
    1,3,5: exists (asin (p * v / rt)), (asin (p * v / rb)); split; [rewrite <- asin_0; apply asin_le; lra|];
      split; [apply asin_le; lra|]; split; [apply asin_bound|]; rewrite !sin_asin by lra;
      split; [field; lra|]; split; [field; lra|reflexivity].
    all: replace (v * ((st - sb) / v)) with (st - sb) by (field; lra).
    all: apply dist_euc_polar; [lra|].
    all: rewrite cos_minus, !sin_asin by lra; rewrite !asin_cos by lra; fold st sb.
    all: assert (S1 : st * st = rt * rt - p * v * (p * v)) by (apply sqrt_sqrt; nra).
    all: assert (S2 : sb * sb = rb * rb - p * v * (p * v)) by (apply sqrt_sqrt; nra).
    all: replace (rt * rt + rb * rb - 2 * rt * rb * (sb / rb * (st / rt) + p * v / rb * (p * v / rt)))
      with (rt * rt + rb * rb - 2 * (sb * st) - 2 * (p * v * (p * v))) by (field; lra); nra.
  - intros Hn.
    destruct (Rltb_spec (sl_topP l) (sl_botP l)).
    all: destruct (Rltb_spec (sl_botP l) (sl_topP l)); try lra.
    all: destruct (Rltb_spec (sl_botP l) p); try reflexivity; destruct (Rltb_spec (sl_topP l) p); try reflexivity.
    all: destruct (Rltb_spec p 0); try reflexivity; lra.
Qed.

(** The innermost layer, down to the centre: the vertical ray turns through a right angle and takes the
    slowness at its top; any other ray parameter is refused because the slowness vanishes at the centre. *)
Theorem C19_centre : forall m n w l p, getSlownessLayer m n w = Ok l ->
  sl_topDepth l < sl_botDepth l -> sl_botDepth l = sm_radius m -> sl_botP l = 0 -> 0 < sl_topP l ->
  (p = 0 -> n = (sm_numLayers m w - 1)%Z -> layerTimeDist m p n w = Ok (mkTD 0 (sl_topP l) (PI / 2) 0)) /\
  (p <> 0 \/ n <> (sm_numLayers m w - 1)%Z -> layerTimeDist m p n w = Raise SlownessModelError).
Proof.
  intros m n w l p Hg Hd Hr Hb Ht. unfold layerTimeDist. rewrite Hg. cbn [bind].
  unfold py_max, py_min. cbn [n_ltb n_eqb n_sub Num_R]. rewrite Hb, ?n_0_R.
  destruct (Rltb_spec (sl_topP l) 0); [lra|]. destruct (Rltb_spec 0 (sl_topP l)); [|lra].
  split.
  - intros -> ->. destruct (Rltb_spec (sl_topP l) 0); [lra|]. destruct (Rltb_spec 0 0); [lra|].
    destruct (Reqb_spec (sl_topDepth l) (sl_botDepth l)); [lra|]. destruct (Reqb_spec 0 0); [|lra].
    destruct (Reqb_spec (sl_botDepth l) (sm_radius m)); [|contradiction]. cbn [andb].
    rewrite Z.eqb_refl. cbn [negb]. rewrite n_2_R. cbn [m_pi Libm_R]. rewrite py_div_R by lra. cbn [bind].
    pose proof PI_RGT_0. destruct (Rltb_spec (PI / 2) 0); [lra|]. reflexivity.
  - intros H. destruct (Rltb_spec (sl_topP l) p); [reflexivity|]. destruct (Rltb_spec p 0); [reflexivity|].
    destruct (Rltb_spec 0 p); [reflexivity|].
    assert (p = 0) by lra. destruct H as [H|H]; [contradiction|].
    destruct (Reqb_spec (sl_topDepth l) (sl_botDepth l)); [lra|]. destruct (Reqb_spec p 0); [|contradiction].
    destruct (Reqb_spec (sl_botDepth l) (sm_radius m)); [|contradiction]. cbn [andb].
    destruct (Z.eqb_spec n (sm_numLayers m w - 1)); [contradiction|]. reflexivity.
Qed.

(** a planet of radius 8 with velocity 2 above radius 4 and down to the centre *)
Definition ball : smodel R :=
  let ls := [mkSL 0 4 0 2 4; mkSL 1 2 4 0 8] in
  mkSM (mkVModel EmptyString 8 0 0 0 0 8 true []) 0 0 0 0 0 true (/ 100) 8 [] [] [] [] ls ls 2.
Example C19_ex : (exists td, layerTimeDist ball 2 0 true = Ok td /\ chord 4 8 4 (td_dist td) (2 * td_time td)) /\
  layerTimeDist ball 3 0 true = Raise SlownessModelError /\
  layerTimeDist ball 0 1 true = Ok (mkTD 0 2 (PI / 2) 0).
Proof.
  assert (H0 : getSlownessLayer ball 0 true = Ok (mkSL 0 4 0 2 4)) by reflexivity.
  assert (H1 : getSlownessLayer ball 1 true = Ok (mkSL 1 2 4 0 8)) by reflexivity.
  assert (V : Rabs ((8 - 0) / 4 - (8 - 4) / 2) < / 100) by (replace ((8 - 0) / 4 - (8 - 4) / 2) with 0 by field; rewrite Rabs_R0; lra).
  split; [|split].
  - destruct (C19_straight_ray ball 0 true _ 2 H0) as [A _]; try (unfold slow_pos; cbn; lra).
    destruct A as [td [E [_ [_ [_ [_ C]]]]]]; [cbn; lra|]. exists td. split; [assumption|].
      cbn in C. replace (2 * ((8 - 4) / 2)) with 4 in C by field. replace ((8 - 4) / 2) with 2 in C by field.
      replace (8 - 0) with 8 in C by ring. replace (8 - 4) with 4 in C by ring. exact C.
  - destruct (C19_straight_ray ball 0 true _ 3 H0) as [_ A]; try (unfold slow_pos; cbn; lra).
    apply A. cbn. lra.
  - apply (C19_centre ball 1 true _ 0 H1); cbn; try lra; reflexivity.
Qed.

Print Assumptions C19_straight_ray.
Print Assumptions C19_centre.

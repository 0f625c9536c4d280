(** Straight lines between two spheres. *)
From Coq Require Import Reals Lra Psatz.
From Verif Require Import TimeSpec TimeProofs BullenProofs ErrProofs ChordSpec ChordProofs EchoSpec.
Local Open Scope R_scope.

Lemma between_sqr : forall r q x, 0 <= between r q x /\ between r q x * between r q x = r * r + q * q - 2 * r * q * cos x.
Proof.
  intros r q x. unfold between, dist_euc. split; [apply sqrt_pos|].
  rewrite sqrt_sqrt; [|apply Rplus_le_le_0_compat; apply Rle_0_sqr]. pose proof (sin2_cos2 x) as P. unfold Rsqr in *. nra.
Qed.
Lemma sqr_eq : forall a b : R, 0 <= a -> 0 <= b -> a * a = b * b -> a = b.
Proof. intros a b Ha Hb E. apply Rsqr_inj; [exact Ha|exact Hb|exact E]. Qed.
Lemma sqr_le : forall a b : R, 0 <= b -> a * a <= b * b -> a <= b.
Proof. intros a b Hb E. destruct (Rle_or_lt a b) as [L|L]; [exact L|]. exfalso. nra. Qed.
Lemma sqr_sin : forall r x, (r * sin x) * (r * sin x) = r * r - (r * cos x) * (r * cos x).
Proof. intros r x. pose proof (sin2_cos2 x) as P. unfold Rsqr in P. nra. Qed.
(** the part of a line between two spheres *)
Lemma echo_ok : forall a q r, 0 <= a <= q -> 0 < q -> q < r ->
  let x := line_angle a r - line_angle a q in
  0 <= x <= PI / 2 /\ q <= r * cos x /\ between r q x = line_length a r - line_length a q.
Proof.
  intros a q r Ha Hq Hr x.
  destruct (angle_straight a r ltac:(lra) ltac:(lra)) as [RA [CA [LA _]]]. destruct (angle_straight a q ltac:(lra) Hq) as [RB [CB [LB _]]].
  rewrite LA, LB. unfold x. set (A := line_angle a r) in *. set (B := line_angle a q) in *.
  pose proof (sqr_sin r A) as SA. pose proof (sqr_sin q B) as SB. rewrite CA in SA. rewrite CB in SB.
  assert (0 <= sin A) by (apply sin_ge_0; lra). assert (0 <= sin B) by (apply sin_ge_0; lra).
  assert (PA : 0 <= r * sin A) by (apply Rmult_le_pos; lra). assert (PB : 0 <= q * sin B) by (apply Rmult_le_pos; lra).
  assert (LAB : q * sin B <= r * sin A) by (apply sqr_le; [exact PA|]; nra).
  assert (Mul : r * q * cos (A - B) = a * a + (r * sin A) * (q * sin B)).
  { rewrite cos_minus. replace (r * q * (cos A * cos B + sin A * sin B)) with ((r * cos A) * (q * cos B) + (r * sin A) * (q * sin B)) by ring. rewrite CA, CB. ring. }
  split; [|split].
  - split; [|lra]. destruct (Rle_or_lt 0 (A - B)) as [L|L]; [exact L|]. exfalso.
    assert (cos B < cos A) by (apply cos_decreasing_1; lra). assert (0 <= cos A) by (apply cos_ge_0; lra). assert (q * cos B < q * cos A) by (apply Rmult_lt_compat_l; lra). nra.
  - apply Rmult_le_reg_l with q; [exact Hq|]. replace (q * (r * cos (A - B))) with (r * q * cos (A - B)) by ring. rewrite Mul. nra.
  - destruct (between_sqr r q (A - B)) as [N E]. apply sqr_eq; [exact N|lra|]. rewrite E.
    replace (2 * r * q * cos (A - B)) with (2 * (r * q * cos (A - B))) by ring. rewrite Mul. nra.
Qed.
(** every pair of points that see each other is on such a line *)
Lemma echo_find : forall q r y, 0 < q -> q < r -> 0 <= y <= PI -> q <= r * cos y ->
  exists a, 0 <= a <= q /\ line_angle a r - line_angle a q = y.
Proof.
  intros q r y Hq Hr Hy Hc. destruct (between_sqr r q y) as [N E]. set (c := between r q y) in *.
  assert (Cy : cos y <= 1) by apply COS_bound. assert (Sy : 0 <= sin y) by (apply sin_ge_0; lra).
  pose proof (sin2_cos2 y) as P2. unfold Rsqr in P2.
  assert (Cp : 0 < c).
  { destruct N as [N|N]; [exact N|]. exfalso. rewrite <- N in E. assert (0 < (r - q) * (r - q)) by (apply Rmult_lt_0_compat; lra).
    assert (r * q * cos y <= r * q * 1) by (apply Rmult_le_compat_l; [apply Rmult_le_pos; lra|exact Cy]). lra. }
  set (a := r * q * sin y / c). assert (Ea : a * c = r * q * sin y) by (unfold a; field; lra).
  assert (A0 : 0 <= a). { unfold a. apply Rmult_le_pos; [apply Rmult_le_pos; [nra|exact Sy]|apply Rlt_le, Rinv_0_lt_compat; exact Cp]. }
  assert (K : r * sin y <= c). { apply sqr_le; [exact N|]. rewrite E. pose proof (Rle_0_sqr (r * cos y - q)) as Z. unfold Rsqr in Z. nra. }
  assert (Aq : a <= q). { apply Rmult_le_reg_r with c; [exact Cp|]. rewrite Ea. nra. }
  exists a. split; [lra|].
  destruct (echo_ok a q r (conj A0 Aq) Hq Hr) as [Rx _]. cbv zeta in Rx.
  destruct (angle_straight a r ltac:(lra) ltac:(lra)) as [RA [CA _]]. destruct (angle_straight a q ltac:(lra) Hq) as [RB [CB _]].
  pose proof PI_RGT_0 as HP. set (A := line_angle a r) in *. set (B := line_angle a q) in *.
  pose proof (sqr_sin r A) as SA. pose proof (sqr_sin q B) as SB. rewrite CA in SA. rewrite CB in SB.
  assert (0 <= sin A) by (apply sin_ge_0; lra). assert (0 <= sin B) by (apply sin_ge_0; lra).
  assert (FA : r * sin A * c = r * (r - q * cos y)).
  { apply sqr_eq; [apply Rmult_le_pos; [apply Rmult_le_pos; lra|lra]|apply Rmult_le_pos; [lra|nra]|].
    replace (r * sin A * c * (r * sin A * c)) with (r * sin A * (r * sin A) * (c * c)) by ring. rewrite SA.
    replace ((r * r - a * a) * (c * c)) with (r * r * (c * c) - (a * c) * (a * c)) by ring. rewrite Ea, E.
    replace (r * q * sin y * (r * q * sin y)) with (r * r * q * q * (sin y * sin y)) by ring. replace (sin y * sin y) with (1 - cos y * cos y) by lra. ring. }
  assert (FB : q * sin B * c = q * (r * cos y - q)).
  { apply sqr_eq; [apply Rmult_le_pos; [apply Rmult_le_pos; lra|lra]|apply Rmult_le_pos; lra|].
    replace (q * sin B * c * (q * sin B * c)) with (q * sin B * (q * sin B) * (c * c)) by ring. rewrite SB.
    replace ((q * q - a * a) * (c * c)) with (q * q * (c * c) - (a * c) * (a * c)) by ring. rewrite Ea, E.
    replace (r * q * sin y * (r * q * sin y)) with (r * r * q * q * (sin y * sin y)) by ring. replace (sin y * sin y) with (1 - cos y * cos y) by lra. ring. }
  assert (Ec : cos (A - B) = cos y).
  { rewrite cos_minus. apply Rmult_eq_reg_l with (r * q * (c * c)); [|apply Rgt_not_eq; repeat apply Rmult_lt_0_compat; lra].
    replace (r * q * (c * c) * (cos A * cos B + sin A * sin B)) with ((r * cos A) * c * ((q * cos B) * c) + (r * sin A * c) * (q * sin B * c)) by ring.
    rewrite CA, CB, Ea, FA, FB, E.
    replace (r * q * sin y * (r * q * sin y)) with (r * r * q * q * (sin y * sin y)) by ring. replace (sin y * sin y) with (1 - cos y * cos y) by lra. ring. }
  destruct (Rtotal_order (A - B) y) as [L|[L|L]]; [exfalso|exact L|exfalso].
  - assert (cos y < cos (A - B)) by (apply cos_decreasing_1; lra). lra.
  - assert (cos (A - B) < cos y) by (apply cos_decreasing_1; lra). lra.
Qed.
(** the distance grows at least as along the line *)
Lemma echo_tangent : forall a q r y, 0 <= a <= q -> 0 < q -> q < r -> 0 <= y <= PI -> q <= r * cos y ->
  line_length a r - line_length a q + a * (y - (line_angle a r - line_angle a q)) <= between r q y.
Proof.
  intros a q r y Ha Hq Hr Hy Hc.
  destruct (angle_straight a r ltac:(lra) ltac:(lra)) as [RA [CA [LA _]]]. destruct (angle_straight a q ltac:(lra) Hq) as [RB [CB [LB _]]].
  rewrite LA, LB. pose proof PI_RGT_0 as HP. set (A := line_angle a r) in *. set (B := line_angle a q) in *.
  assert (Ly : y <= A).
  { destruct (Rle_or_lt y A) as [L|L]; [exact L|]. exfalso. assert (cos y < cos A) by (apply cos_decreasing_1; lra). nra. }
  pose proof (sin_concave (A - y) B ltac:(lra) ltac:(lra)) as Sc.
  assert (M : r * sin A - q * sin (A - y) <= between r q y).
  { destruct (between_sqr r q y) as [N E]. apply sqr_le; [exact N|]. rewrite E.
    assert (Mul : r * q * cos y = (r * cos A) * (q * cos (A - y)) + (r * sin A) * (q * sin (A - y))).
    { replace y with (A - (A - y)) at 1 by ring. rewrite cos_minus. ring. }
    pose proof (sqr_sin r A) as S1. pose proof (sqr_sin q (A - y)) as S2. pose proof (Rle_0_sqr (r * cos A - q * cos (A - y))) as Z. unfold Rsqr in Z. nra. }
  apply Rle_trans with (2 := M). rewrite <- CB. nra.
Qed.
(** a time interpolated between two samples of the curve *)
Lemma between_echoes : forall r q v p0 p1 d0 d1 t0 t1 x tm, 0 < q -> q <= r -> 0 < v -> 0 <= p1 < p0 -> p0 * v <= q ->
  d0 = 2 * (line_angle (p0 * v) r - line_angle (p0 * v) q) -> v * t0 = 2 * (line_length (p0 * v) r - line_length (p0 * v) q) ->
  d1 = 2 * (line_angle (p1 * v) r - line_angle (p1 * v) q) -> v * t1 = 2 * (line_length (p1 * v) r - line_length (p1 * v) q) ->
  d0 <> d1 -> (d0 <= x <= d1 \/ d1 <= x <= d0) -> (tm - t0) * (d1 - d0) = (t1 - t0) * (x - d0) ->
  d1 < d0 /\ 0 <= tm - 2 * between r q (x / 2) / v <= (p0 - p1) * (d0 - d1) / 4.
Proof.
  intros r q v p0 p1 d0 d1 t0 t1 x tm Hq Hr Hv Hp L0 D0 T0 D1 T1 Hd Hx On. pose proof PI_RGT_0.
  assert (Hlt : q < r).
  { destruct Hr as [Hr|Hr]; [exact Hr|]. exfalso. subst r. lra. }
  assert (A0 : 0 <= p0 * v) by (apply Rmult_le_pos; lra). assert (A1 : 0 <= p1 * v) by (apply Rmult_le_pos; lra).
  assert (Lp : p1 * v < p0 * v) by (apply Rmult_lt_compat_r; lra).
  destruct (echo_ok (p0 * v) q r ltac:(lra) Hq Hlt) as [R0 [C0 B0]]. destruct (echo_ok (p1 * v) q r ltac:(lra) Hq Hlt) as [R1 [C1 B1]].
  pose proof (fun y => echo_tangent (p0 * v) q r y ltac:(lra) Hq Hlt) as G0. pose proof (fun y => echo_tangent (p1 * v) q r y ltac:(lra) Hq Hlt) as G1.
  replace (line_angle (p0 * v) r - line_angle (p0 * v) q) with (d0 / 2) in * by lra.
  replace (line_angle (p1 * v) r - line_angle (p1 * v) q) with (d1 / 2) in * by lra.
  replace (line_length (p0 * v) r - line_length (p0 * v) q) with (v * t0 / 2) in * by lra.
  replace (line_length (p1 * v) r - line_length (p1 * v) q) with (v * t1 / 2) in * by lra. cbv zeta in *.
  assert (Lt : d1 < d0).
  { destruct (Rlt_or_le d1 d0) as [X|X]; [exact X|]. exfalso.
    pose proof (G0 (d1 / 2) ltac:(lra) C1) as Q0. pose proof (G1 (d0 / 2) ltac:(lra) C0) as Q1. rewrite B1 in Q0. rewrite B0 in Q1. nra. }
  split; [exact Lt|]. assert (Hx' : d1 <= x <= d0) by lra.
  assert (Rx : 0 <= x / 2 <= PI) by lra.
  assert (Cx : q <= r * cos (x / 2)).
  { apply Rle_trans with (1 := C0). apply Rmult_le_compat_l; [lra|]. apply cos_decr_1; lra. }
  pose proof (G0 (x / 2) Rx Cx) as Q0. pose proof (G1 (x / 2) Rx Cx) as Q1.
  destruct (echo_find q r (x / 2) Hq Hlt Rx Cx) as [c [Hc Ex]].
  destruct (echo_ok c q r Hc Hq Hlt) as [_ [_ Bx]]. cbv zeta in Bx. rewrite Ex in Bx.
  pose proof (echo_tangent c q r (d0 / 2) Hc Hq Hlt ltac:(lra) C0) as U0. pose proof (echo_tangent c q r (d1 / 2) Hc Hq Hlt ltac:(lra) C1) as U1.
  rewrite Ex, <- Bx in U0, U1. rewrite B0 in U0. rewrite B1 in U1.
  set (S := 2 * between r q (x / 2)) in *. replace (between r q (x / 2)) with (S / 2) in * by (unfold S; field).
  assert (V : v * tm * (d1 - d0) = v * t0 * (d1 - x) + v * t1 * (x - d0)).
  { replace (v * tm * (d1 - d0)) with (v * ((tm - t0) * (d1 - d0)) + v * t0 * (d1 - d0)) by ring. rewrite On. ring. }
  assert (Low : 0 <= (v * tm - S) * (d0 - d1)).
  { assert (M0 : (S + c * (d0 - x)) * (x - d1) <= v * t0 * (x - d1)) by (apply Rmult_le_compat_r; lra).
    assert (M1 : (S + c * (d1 - x)) * (d0 - x) <= v * t1 * (d0 - x)) by (apply Rmult_le_compat_r; lra). lra. }
  assert (High : (v * tm - S) * (d0 - d1) <= (p0 - p1) * v * ((d0 - x) * (x - d1))).
  { assert (M0 : (v * t0 + p0 * v * (x - d0)) * (x - d1) <= S * (x - d1)) by (apply Rmult_le_compat_r; lra).
    assert (M1 : (v * t1 + p1 * v * (x - d1)) * (d0 - x) <= S * (d0 - x)) by (apply Rmult_le_compat_r; lra). lra. }
  assert (Sq : (d0 - x) * (x - d1) <= (d0 - d1) * (d0 - d1) / 4) by (pose proof (Rle_0_sqr ((x - d1) - (d0 - x))) as Z; unfold Rsqr in Z; lra).
  assert (P : 0 <= v * tm - S) by (apply Rmult_le_reg_r with (d0 - d1); [lra|]; lra).
  assert (Q : v * tm - S <= (p0 - p1) * v * ((d0 - d1) / 4)).
  { apply Rmult_le_reg_r with (d0 - d1); [lra|]. apply Rle_trans with (1 := High).
    replace ((p0 - p1) * v * ((d0 - d1) / 4) * (d0 - d1)) with ((p0 - p1) * v * ((d0 - d1) * (d0 - d1) / 4)) by field.
    apply Rmult_le_compat_l; [apply Rmult_le_pos; lra|exact Sq]. }
  replace (tm - S / v) with ((v * tm - S) / v) by (field; lra). split.
  - apply Rmult_le_pos; [exact P|apply Rlt_le, Rinv_0_lt_compat; lra].
  - apply Rmult_le_reg_r with v; [lra|]. unfold Rdiv at 1. rewrite Rmult_assoc, Rinv_l by lra. lra.
Qed.

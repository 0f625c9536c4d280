(** Legs of rays as segments of lines (C75). *)
From Coq Require Import ZArith Bool List String Reals Lia Lra Psatz.
From Verif Require Import Base Num VelocityModel SlownessLayer SlownessModel TauModel TauSpec SeismicPhase CurveSpec CurveProofs PathSpec PathProofs
  SlowRealProofs RouteSpec ErrProofs ChordSpec ChordProofs EchoSpec EchoProofs FastSpec.
Import ListNotations.
Local Open Scope list_scope.
Local Open Scope R_scope.

Lemma between_sym : forall r q x, between r q x = between q r x.
Proof.
  intros r q x. destruct (between_sqr r q x) as [N1 E1]. destruct (between_sqr q r x) as [N2 E2]. apply sqr_eq; try assumption. rewrite E1, E2. ring.
Qed.
Lemma between_triangle : forall a b c x y, between a c (x + y) <= between a b x + between b c y.
Proof.
  intros a b c x y. unfold between at 1.
  apply Rle_trans with (1 := triangle a 0 (c * cos (x + y)) (c * sin (x + y)) (b * cos x) (b * sin x)).
  apply Req_le. f_equal. destruct (between_sqr b c y) as [N E]. apply sqr_eq; [unfold dist_euc; apply sqrt_pos|exact N|].
  unfold dist_euc at 1 2. rewrite sqrt_sqrt by (apply Rplus_le_le_0_compat; apply Rle_0_sqr). rewrite E.
  assert (Cy : cos y = cos (x + y) * cos x + sin (x + y) * sin x) by (rewrite <- cos_minus; f_equal; ring). rewrite Cy.
  pose proof (sin2_cos2 x) as P1. pose proof (sin2_cos2 (x + y)) as P2. unfold Rsqr in *.
  replace ((b * cos x - c * cos (x + y)) * (b * cos x - c * cos (x + y)) + (b * sin x - c * sin (x + y)) * (b * sin x - c * sin (x + y)))
    with (b * b * (sin x * sin x + cos x * cos x) + c * c * (sin (x + y) * sin (x + y) + cos (x + y) * cos (x + y)) - 2 * b * c * (cos (x + y) * cos x + sin (x + y) * sin x)) by ring.
  rewrite P1, P2. ring.
Qed.
Lemma straight_between : forall r x, straight r x = between r r x.
Proof. reflexivity. Qed.
Lemma straight_le : forall r q x, 0 <= r <= q -> straight r x <= straight q x.
Proof.
  intros r q x H. rewrite !straight_between. destruct (between_sqr r r x) as [_ E1]. destruct (between_sqr q q x) as [N2 E2]. apply sqr_le; [exact N2|]. rewrite E1, E2.
  pose proof (COS_bound x). assert (0 <= (q * q - r * r) * (1 - cos x)) by (apply Rmult_le_pos; nra). lra.
Qed.
(** where the line is at radius [r], or the point nearest to the centre *)
Definition clip (a r : R) : R := if Rle_dec r a then a else r.
Lemma clip_point : forall a r, 0 <= a -> clip a r * cos (line_angle a r) = a /\ clip a r * sin (line_angle a r) = line_length a r /\ 0 <= line_length a r.
Proof.
  intros a r Ha. unfold clip. destruct (Rle_dec r a) as [L|L].
  - destruct (angle_out a r L) as [-> ->]. rewrite cos_0, sin_0. lra.
  - destruct (angle_straight a r ltac:(lra) ltac:(lra)) as [B [C [D _]]]. split; [exact C|]. split; [symmetry; exact D|].
    rewrite D. apply Rmult_le_pos; [lra|apply sin_ge_0; pose proof PI_RGT_0; lra].
Qed.
Lemma length_mono : forall a r q, 0 <= a -> q <= r -> line_length a q <= line_length a r.
Proof.
  intros a r q Ha L. unfold line_length. destruct (Rle_dec q a) as [X|X]; destruct (Rle_dec r a) as [Y|Y]; try lra; [apply sqrt_pos|apply sqrt_le_1_alt; nra].
Qed.
Lemma leg_segment : forall a r q, 0 <= a -> q <= r ->
  between (clip a r) (clip a q) (line_angle a r - line_angle a q) = line_length a r - line_length a q.
Proof.
  intros a r q Ha L. pose proof (length_mono a r q Ha L).
  destruct (clip_point a r Ha) as [C1 [S1 _]]. destruct (clip_point a q Ha) as [C2 [S2 _]].
  destruct (between_sqr (clip a r) (clip a q) (line_angle a r - line_angle a q)) as [N E]. apply sqr_eq; [exact N|lra|]. rewrite E.
  rewrite cos_minus. pose proof (sin2_cos2 (line_angle a r)) as P1. pose proof (sin2_cos2 (line_angle a q)) as P2. unfold Rsqr in *.
  set (cr := clip a r) in *. set (cq := clip a q) in *. set (A := line_angle a r) in *. set (B := line_angle a q) in *.
  replace (2 * cr * cq * (cos A * cos B + sin A * sin B)) with (2 * ((cr * cos A) * (cq * cos B) + (cr * sin A) * (cq * sin B))) by ring.
  replace (cr * cr) with ((cr * sin A) * (cr * sin A) + (cr * cos A) * (cr * cos A)) by (replace (cr * cr) with (cr * cr * (sin A * sin A + cos A * cos A)) by (rewrite P1; ring); ring).
  replace (cq * cq) with ((cq * sin B) * (cq * sin B) + (cq * cos B) * (cq * cos B)) by (replace (cq * cq) with (cq * cq * (sin B * sin B + cos B * cos B)) by (rewrite P2; ring); ring).
  rewrite C1, C2, S1, S2. ring.
Qed.

Section Walk.
  Variables (t : tmodel R) (w : bool) (v p : R) (i : nat).
  Let r := sm_radius (tm_sMod t).
  Hypothesis Hrdy : rays_ready t.
  Hypothesis Hun : uniform (tm_sMod t) w v.
  Hypothesis Hus : usable (tm_sMod t) w.
  Hypothesis Hpr : proper t w v.
  Hypothesis Hp : nth_error (tm_rayParams t) i = Some p.
  Hypothesis P0 : 0 <= p.

  Lemma walk_time : forall l x y, walk t w x l y -> forall d tm,
    legs_total t tb_dist (Z.of_nat i) l d -> legs_total t tb_time (Z.of_nat i) l tm ->
    between (clip (p * v) (r - x)) (clip (p * v) (r - y)) d <= v * tm.
  Proof.
    assert (Hv : 0 < v) by exact (proj1 Hun). assert (A0 : 0 <= p * v) by (apply Rmult_le_pos; lra).
    assert (K : forall s b d1 t1, sg_isP s = w -> leg_branch t s b -> at_index (tb_dist b) (Z.of_nat i) d1 -> at_index (tb_time b) (Z.of_nat i) t1 ->
      between (clip (p * v) (r - tb_top b)) (clip (p * v) (r - tb_bot b)) d1 = v * t1).
    { intros s b d1 t1 Hw Hb Hd Ht.
      assert (Ib : In b (TauSpec.branches t w)).
      { unfold leg_branch in Hb. rewrite Hw in Hb. destruct w; destruct Hb as [[_ X]|[_ X]]; eapply nth_error_In; exact X. }
      apply at_index_nat in Hd, Ht.
      destruct (uniform_leg t w v b i p d1 t1 Hrdy Hun Hus Hpr Ib Hp Hd Ht) as [E1 E2]. fold r in E1, E2. rewrite E1, E2. apply leg_segment; [exact A0|].
      destruct Hrdy as [[_ [U1 U2]] _].
      assert (Up : tb_top b < tb_bot b) by (destruct w; [apply U1 in Ib|apply U2 in Ib]; apply Rltb_lt in Ib; exact Ib). lra. }
    intros l x y W. induction W as [x|s l b y Hw Hd Hb W IH|s l b y Hw Hd Hb W IH]; intros d tm D T.
    - inversion D; inversion T; subst. apply Req_le. destruct (between_sqr (clip (p * v) (r - x)) (clip (p * v) (r - x)) 0) as [N E].
      apply sqr_eq; [exact N|lra|]. rewrite E, cos_0. ring.
    - inversion D as [|s0 l0 b1 d1 d2 Hb1 Hd1 D2]; subst. inversion T as [|s1 l1 b2 t1 t2 Hb2 Ht1 T2]; subst.
      assert (b1 = b) by exact (at_index_fun _ _ _ _ Hb1 Hb). assert (b2 = b) by exact (at_index_fun _ _ _ _ Hb2 Hb). subst b1 b2.
      pose proof (K s b d1 t1 eq_refl Hb Hd1 Ht1) as E. pose proof (IH d2 t2 D2 T2) as F.
      apply Rle_trans with (1 := between_triangle _ (clip (p * v) (r - tb_bot b)) _ d1 d2). lra.
    - inversion D as [|s0 l0 b1 d1 d2 Hb1 Hd1 D2]; subst. inversion T as [|s1 l1 b2 t1 t2 Hb2 Ht1 T2]; subst.
      assert (b1 = b) by exact (at_index_fun _ _ _ _ Hb1 Hb). assert (b2 = b) by exact (at_index_fun _ _ _ _ Hb2 Hb). subst b1 b2.
      pose proof (K s b d1 t1 eq_refl Hb Hd1 Ht1) as E. rewrite between_sym in E. pose proof (IH d2 t2 D2 T2) as F.
      apply Rle_trans with (1 := between_triangle _ (clip (p * v) (r - tb_top b)) _ d1 d2). lra.
  Qed.
  Lemma walk_surface : forall l d tm, 0 <= r -> walk t w 0 l 0 ->
    legs_total t tb_dist (Z.of_nat i) l d -> legs_total t tb_time (Z.of_nat i) l tm -> straight r d <= v * tm.
  Proof.
    intros l d tm Hr W D T. apply Rle_trans with (2 := walk_time l 0 0 W d tm D T). rewrite Rminus_0_r, <- straight_between.
    unfold clip. destruct (Rle_dec r (p * v)) as [L|L]; [apply straight_le; lra|lra].
  Qed.
End Walk.
(** the distance to a point is at most that to another one and the way between *)
Lemma straight_step : forall r x y, 0 <= r -> straight r x <= straight r y + r * Rabs (x - y).
Proof.
  intros r x y Hr. rewrite !straight_between. replace x with (y + (x - y)) at 1 by ring. apply Rle_trans with (1 := between_triangle r r r y (x - y)).
  apply Rplus_le_compat_l. destruct (between_sqr r r (x - y)) as [N E]. apply sqr_le; [apply Rmult_le_pos; [exact Hr|apply Rabs_pos]|]. rewrite E.
  replace (r * Rabs (x - y) * (r * Rabs (x - y))) with (r * r * (Rabs (x - y) * Rabs (x - y))) by ring.
  replace (Rabs (x - y) * Rabs (x - y)) with ((x - y) * (x - y)) by (rewrite <- Rabs_mult, Rabs_pos_eq by (apply Rle_0_sqr); reflexivity).
  set (z := x - y). assert (C : 1 - z * z / 2 <= cos z).
  { replace (cos z) with (cos (2 * (z / 2))) by (f_equal; field). rewrite cos_2a_sin.
    assert (S : sin (z / 2) * sin (z / 2) <= z / 2 * (z / 2)).
    { assert (Q : Rabs (sin (z / 2)) <= Rabs (z / 2)).
      { destruct (MVT_abs sin cos 0 (z / 2)) as [c [Ec _]]; [intros; apply derivable_pt_lim_sin|]. rewrite sin_0, !Rminus_0_r in Ec. rewrite Ec.
        assert (Rabs (cos c) <= 1) by (apply Rabs_le; pose proof (COS_bound c); lra). pose proof (Rabs_pos (z / 2)). nra. }
      replace (sin (z / 2) * sin (z / 2)) with (Rabs (sin (z / 2)) * Rabs (sin (z / 2))) by (rewrite <- Rabs_mult; apply Rabs_pos_eq; apply Rle_0_sqr).
      replace (z / 2 * (z / 2)) with (Rabs (z / 2) * Rabs (z / 2)) by (rewrite <- Rabs_mult; apply Rabs_pos_eq; apply Rle_0_sqr).
      pose proof (Rabs_pos (sin (z / 2))). nra. }
    nra. }
  assert (0 <= r * r) by nra. nra.
Qed.
Lemma fast_between : forall r v d0 d1 t0 t1 x tm, 0 <= r -> 0 < v -> straight r d0 <= v * t0 -> straight r d1 <= v * t1 ->
  d0 <> d1 -> (d0 <= x <= d1 \/ d1 <= x <= d0) -> (tm - t0) * (d1 - d0) = (t1 - t0) * (x - d0) ->
  straight r x <= v * tm + r * Rabs (d1 - d0) / 2.
Proof.
  assert (Up : forall r v d0 d1 t0 t1 x tm, 0 <= r -> 0 < v -> straight r d0 <= v * t0 -> straight r d1 <= v * t1 -> d0 < d1 -> d0 <= x <= d1 ->
    (tm - t0) * (d1 - d0) = (t1 - t0) * (x - d0) -> straight r x <= v * tm + r * (d1 - d0) / 2).
  { intros r v d0 d1 t0 t1 x tm Hr Hv S0 S1 Hd Hx On.
    pose proof (straight_step r x d0 Hr) as U0. pose proof (straight_step r x d1 Hr) as U1.
    rewrite Rabs_pos_eq in U0 by lra. rewrite Rabs_left1 in U1 by lra.
    assert (V : v * tm * (d1 - d0) = v * t0 * (d1 - x) + v * t1 * (x - d0)).
    { replace (v * tm * (d1 - d0)) with (v * ((tm - t0) * (d1 - d0)) + v * t0 * (d1 - d0)) by ring. rewrite On. ring. }
    assert (M0 : straight r x * (d1 - x) <= (v * t0 + r * (x - d0)) * (d1 - x)) by (apply Rmult_le_compat_r; lra).
    assert (M1 : straight r x * (x - d0) <= (v * t1 + r * - (x - d1)) * (x - d0)) by (apply Rmult_le_compat_r; lra).
    assert (Sq : r * ((x - d0) * (d1 - x)) <= r * ((d1 - d0) * (d1 - d0) / 4)).
    { apply Rmult_le_compat_l; [exact Hr|]. pose proof (Rle_0_sqr ((x - d0) - (d1 - x))) as Z. unfold Rsqr in Z. lra. }
    apply Rmult_le_reg_r with (d1 - d0); [lra|]. replace ((v * tm + r * (d1 - d0) / 2) * (d1 - d0)) with (v * tm * (d1 - d0) + 2 * (r * ((d1 - d0) * (d1 - d0) / 4))) by field.
    rewrite V. lra. }
  intros r v d0 d1 t0 t1 x tm Hr Hv S0 S1 Hd Hx On. destruct (Rtotal_order d0 d1) as [L|[L|L]]; [|contradiction|].
  - rewrite Rabs_pos_eq by lra. apply (Up r v d0 d1 t0 t1 x tm); try assumption. lra.
  - rewrite Rabs_left1 by lra. replace (r * - (d1 - d0) / 2) with (r * (d0 - d1) / 2) by field. apply (Up r v d1 d0 t1 t0 x tm); try assumption; [lra|].
    assert ((tm - t1) * (d0 - d1) = (t0 - t1) * (x - d1)) by (replace ((tm - t1) * (d0 - d1)) with (- ((tm - t0) * (d1 - d0)) + (t0 - t1) * (d0 - d1)) by ring; rewrite On; ring). assumption.
Qed.

(** ** textbook routes are walks *)
Inductive route : Z -> list crossing -> Z -> Prop :=
| rt_end : forall i, route i [] i
| rt_down : forall i w l j, (0 <= i)%Z -> route (i + 1) l j -> route i ((i, true, w) :: l) j
| rt_up : forall i w l j, (0 <= i)%Z -> route i l j -> route (i + 1) ((i, false, w) :: l) j.
Lemma route_app : forall l i j l' k, route i l j -> route j l' k -> route i (l ++ l') k.
Proof. intros l i j l' k H H'. induction H; cbn [app]; [exact H'|constructor; auto..]. Qed.
Lemma route_down : forall w a b, (0 <= a <= b)%Z -> route a (RouteSpec.down w a b) b.
Proof.
  intros w a b H. unfold RouteSpec.down, RouteSpec.branches. replace b with (a + Z.of_nat (Z.to_nat b - Z.to_nat a))%Z at 2 by lia.
  assert (G : forall n s, route (Z.of_nat s) (map (fun i => (i, true, w)) (map Z.of_nat (seq s n))) (Z.of_nat s + Z.of_nat n)).
  { induction n as [|n IH]; intros s; cbn [seq map]; [rewrite Z.add_0_r; constructor|]. constructor; [lia|].
    replace (Z.of_nat s + 1)%Z with (Z.of_nat (S s)) by lia. replace (Z.of_nat s + Z.of_nat (S n))%Z with (Z.of_nat (S s) + Z.of_nat n)%Z by lia. apply IH. }
  pose proof (G (Z.to_nat b - Z.to_nat a)%nat (Z.to_nat a)) as Q. rewrite Z2Nat.id in Q by lia. exact Q.
Qed.
Lemma route_up : forall w a b, (0 <= a <= b)%Z -> route b (RouteSpec.up w a b) a.
Proof.
  intros w a b H. unfold RouteSpec.up, RouteSpec.branches. replace b with (a + Z.of_nat (Z.to_nat b - Z.to_nat a))%Z at 1 by lia.
  assert (G : forall n s, route (Z.of_nat s + Z.of_nat n) (map (fun i => (i, false, w)) (rev (map Z.of_nat (seq s n)))) (Z.of_nat s)).
  { induction n as [|n IH]; intros s; [cbn [seq map rev]; rewrite Z.add_0_r; constructor|].
    rewrite seq_S, map_app, rev_app_distr. cbn [map rev app]. replace (Z.of_nat s + Z.of_nat (S n))%Z with (Z.of_nat (s + n) + 1)%Z by lia.
    constructor; [lia|]. replace (Z.of_nat (s + n)) with (Z.of_nat s + Z.of_nat n)%Z by lia. apply IH. }
  pose proof (G (Z.to_nat b - Z.to_nat a)%nat (Z.to_nat a)) as Q. rewrite Z2Nat.id in Q by lia. exact Q.
Qed.
Section Textbook.
  Variables source moho cmb iocb n : Z.
  Hypothesis Hs : (0 <= source < cmb)%Z.
  Hypothesis Hm : (0 <= moho < cmb)%Z.
  Hypothesis Hi : (cmb < iocb < n)%Z.
  Lemma route_inner : forall l w path, inner_core iocb n l w path -> route iocb path iocb.
  Proof.
    intros l w path H. induction H; repeat (eapply route_app; [apply route_down; lia|]); [apply route_up; lia|].
    eapply route_app; [apply route_up; lia|exact IHinner_core].
  Qed.
  Lemma route_bounce : forall w l w' path, bounce cmb iocb n w l w' path -> route cmb path cmb.
  Proof.
    intros w l w' path H. destruct H as [| |l w' path Hin]; (eapply route_app; [apply route_down; lia|]); [apply route_up; lia..|].
    eapply route_app; [eapply route_inner; exact Hin|apply route_up; lia].
  Qed.
  Lemma route_core : forall w l w' path, core cmb iocb n w l w' path -> route cmb path cmb.
  Proof. intros w l w' path H. induction H; [eapply route_bounce; eassumption|]. eapply route_app; [eapply route_bounce; eassumption|assumption]. Qed.
  (** all but rays along the Moho *)
  Lemma route_ray : forall start l path, (0 <= start <= cmb)%Z -> ray moho cmb iocb n start l path ->
    (exists x, In x l /\ In x boundary_legs) \/ route start path 0.
  Proof.
    intros start l path H0 H. destruct H as [x w Hx|x w y v Hx Hy|x w l w' path y v Hx Hc Hy|x w Hx].
    - right. eapply route_app; [apply route_down; lia|apply route_up; lia].
    - right. eapply route_app; [apply route_down; lia|apply route_up; lia].
    - right. eapply route_app; [apply route_down; lia|]. eapply route_app; [eapply route_core; exact Hc|apply route_up; lia].
    - left. exists (x ++ "n")%string. split; [left; reflexivity|]. destruct Hx; cbn; tauto.
  Qed.
  Lemma route_slow : forall start l path, slow_ray moho cmb start l path -> exists x, In x l /\ In x boundary_legs.
  Proof.
    intros start l path H. destruct H as [x w Hx|x w Hx]; eexists; (split; [left; reflexivity|]); destruct Hx; cbn; tauto.
  Qed.
  Lemma route_rays : forall start l path, (0 <= start <= cmb)%Z -> rays moho cmb iocb n start l path ->
    (exists x, In x l /\ In x boundary_legs) \/ route start path 0.
  Proof.
    intros start l path H0 H. induction H as [start l path H|start l path l' path' H Hr IH]; [eapply route_ray; eassumption|].
    destruct (route_ray start l path H0 H) as [[x [I X]]|R]; [left; exists x; split; [apply in_or_app; left; exact I|exact X]|].
    destruct (IH ltac:(lia)) as [[x [I X]]|R']; [left; exists x; split; [apply in_or_app; right; exact I|exact X]|]. right. eapply route_app; eassumption.
  Qed.
  Lemma route_all : forall start l path, (0 <= start <= cmb)%Z -> all_rays_from moho cmb iocb n start l path ->
    (exists x, In x l /\ In x boundary_legs) \/ route start path 0.
  Proof.
    intros start l path H0 H. destruct H as [start l path H|start l path H|start l path l' path' H Hr]; [eapply route_rays; eassumption|left; eapply route_slow; exact H|].
    left. destruct (route_slow _ _ _ H) as [x [I X]]. exists x. split; [apply in_or_app; left; exact I|exact X].
  Qed.
  Lemma route_textbook : forall l path, textbook source moho cmb iocb n l path ->
    (exists x, In x l /\ In x boundary_legs) \/ route source path 0.
  Proof.
    intros l path H. destruct H as [l path H|x w Hx|x w l path Hx H].
    - apply (route_all source); [lia|exact H].
    - right. apply route_up. lia.
    - destruct (route_all 0 l path ltac:(lia) H) as [[y [I X]]|R]; [left; exists y; split; [right; exact I|exact X]|].
      right. eapply route_app; [apply route_up; lia|exact R].
  Qed.
End Textbook.
(** boundary [i] of the branches is at depth [x] *)
Definition edge (bs : list (tbranch R)) (i : Z) (x : R) : Prop :=
  (exists b, nth_error bs (Z.to_nat i) = Some b /\ tb_top b = x) \/
  (exists b, (0 < i)%Z /\ nth_error bs (Z.to_nat (i - 1)) = Some b /\ tb_bot b = x).
Lemma edge_top : forall bs i x b, b_meet bs -> (0 <= i)%Z -> edge bs i x -> nth_error bs (Z.to_nat i) = Some b -> x = tb_top b.
Proof.
  intros bs i x b M I0 [[b' [Hb' <-]]|[b' [I1 [Hb' <-]]]] Hb; [congruence|].
  replace (Z.to_nat i) with (S (Z.to_nat (i - 1))) in Hb by lia. exact (M _ _ _ Hb' Hb).
Qed.
Lemma edge_bot : forall bs i x b, b_meet bs -> (0 <= i)%Z -> edge bs (i + 1) x -> nth_error bs (Z.to_nat i) = Some b -> x = tb_bot b.
Proof.
  intros bs i x b M I0 [[b' [Hb' <-]]|[b' [I1 [Hb' <-]]]] Hb.
  - replace (Z.to_nat (i + 1)) with (S (Z.to_nat i)) in Hb' by lia. symmetry. exact (M _ _ _ Hb Hb').
  - replace (i + 1 - 1)%Z with i in Hb' by lia. congruence.
Qed.
Lemma route_walk : forall t w i path j, b_meet (TauSpec.branches t w) -> route i path j ->
  forall l x, map (fun s => (sg_branch s, sg_down s, sg_isP s)) l = path -> (forall s, In s l -> sg_isP s = w) ->
  (forall s, In s l -> exists b, leg_branch t s b) -> edge (TauSpec.branches t w) i x ->
  exists y, edge (TauSpec.branches t w) j y /\ walk t w x l y.
Proof.
  intros t w i path j M H. assert (N : forall s b, sg_isP s = w -> (0 <= sg_branch s)%Z -> leg_branch t s b -> nth_error (TauSpec.branches t w) (Z.to_nat (sg_branch s)) = Some b).
  { intros s b Hw Hs Hb. unfold leg_branch in Hb. rewrite Hw in Hb. destruct Hb as [[_ X]|[X _]]; [|lia]. destruct w; exact X. }
  induction H as [i|i v path j I0 H IH|i v path j I0 H IH]; intros l x E Hw Hb He.
  - destruct l; [|discriminate E]. exists x. split; [exact He|constructor].
  - destruct l as [|s l]; [discriminate E|]. cbn [map] in E. injection E as E1 E2 E3 E4.
    destruct (Hb s (or_introl eq_refl)) as [b Lb]. pose proof (Hw s (or_introl eq_refl)) as Ws.
    pose proof (N s b Ws ltac:(lia) Lb) as Nb. rewrite E1 in Nb. rewrite (edge_top _ _ _ _ M I0 He Nb).
    destruct (IH l (tb_bot b) E4 (fun s' I => Hw s' (or_intror I)) (fun s' I => Hb s' (or_intror I))) as [y [Ey W]].
    { right. exists b. split; [lia|]. split; [|reflexivity]. replace (i + 1 - 1)%Z with i by lia. exact Nb. }
    exists y. split; [exact Ey|]. apply wk_down; assumption.
  - destruct l as [|s l]; [discriminate E|]. cbn [map] in E. injection E as E1 E2 E3 E4.
    destruct (Hb s (or_introl eq_refl)) as [b Lb]. pose proof (Hw s (or_introl eq_refl)) as Ws.
    pose proof (N s b Ws ltac:(lia) Lb) as Nb. rewrite E1 in Nb. rewrite (edge_bot _ _ _ _ M I0 He Nb).
    destruct (IH l (tb_top b) E4 (fun s' I => Hw s' (or_intror I)) (fun s' I => Hb s' (or_intror I))) as [y [Ey W]].
    { left. exists b. split; [exact Nb|reflexivity]. }
    exists y. split; [exact Ey|]. apply wk_up; assumption.
Qed.
Lemma total_legs : forall t f i l x, legs_total t f i l x -> forall s, In s l -> exists b, leg_branch t s b.
Proof. intros t f i l x H. induction H as [|s l b x y Hb Hx H IH]; intros s' I; [contradiction|]. destruct I as [<-|I]; [exists b; exact Hb|exact (IH s' I)]. Qed.

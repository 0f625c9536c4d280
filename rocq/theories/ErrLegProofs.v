(** Proofs for C56: from layers to legs and phases. *)
From Coq Require Import ZArith Bool List Reals Lia Lra Psatz.
From Verif Require Import Base Num SlownessLayer SlownessModel SlowSpec SlowProofs TauModel SeismicPhase TauSpec CurveSpec CurveProofs PathSpec PathProofs PathLegProofs PathEndProofs
  BullenProofs ErrSpec ErrProofs ShellProps SlowRealProofs RealRun.
From Verif Require BullenSpec.
Import ListNotations.
Local Open Scope list_scope.
Local Open Scope R_scope.

(** Three rays with parameters p1 < p < p0, with their distances and times: the changes of distance are the sums of
    those in layers that are crossed ([a], [b]) and in layers where the middle ray turns ([c], [d]). *)
Definition tri (p0 p p1 x0 t0 x tm x1 t1 D : R) : Prop :=
  exists a b c d, 0 <= a /\ 0 <= b /\ 0 <= c /\ 0 <= d /\ c + d = D /\
    x0 - x = a - c /\ x - x1 = b - d /\
    p * a - p0 * c <= t0 - tm <= p0 * a - p * c /\
    p1 * b - p * d <= tm - t1 <= p * b - p1 * d.

Lemma tri_nil : forall p0 p p1, tri p0 p p1 0 0 0 0 0 0 0.
Proof. intros. exists 0, 0, 0, 0. repeat split; lra. Qed.
Lemma tri_add : forall p0 p p1 x0 t0 x tm x1 t1 D x0' t0' x' tm' x1' t1' D',
  tri p0 p p1 x0 t0 x tm x1 t1 D -> tri p0 p p1 x0' t0' x' tm' x1' t1' D' ->
  tri p0 p p1 (x0 + x0') (t0 + t0') (x + x') (tm + tm') (x1 + x1') (t1 + t1') (D + D').
Proof.
  intros p0 p p1 x0 t0 x tm x1 t1 D x0' t0' x' tm' x1' t1' D' [a [b [c [d [A1 [A2 [A3 [A4 [A5 [A6 [A7 [A8 A9]]]]]]]]]]]] [a' [b' [c' [d' [B1 [B2 [B3 [B4 [B5 [B6 [B7 [B8 B9]]]]]]]]]]]].
  exists (a + a'), (b + b'), (c + c'), (d + d'). repeat split; lra.
Qed.
(** three crossing rays *)
Lemma tri_cross : forall p0 p p1 x0 t0 x tm x1 t1, p1 < p < p0 ->
  t0 - p0 * x0 <= tm - p0 * x -> tm - p * x <= t0 - p * x0 ->
  tm - p * x <= t1 - p * x1 -> t1 - p1 * x1 <= tm - p1 * x ->
  tri p0 p p1 x0 t0 x tm x1 t1 0.
Proof.
  intros p0 p p1 x0 t0 x tm x1 t1 Hp F1 F2 F3 F4. exists (x0 - x), (x - x1), 0, 0.
  assert (0 <= x0 - x) by nra. assert (0 <= x - x1) by nra. repeat split; lra.
Qed.
(** the middle ray turns; the first one turned at the top of the layer, the last one at its bottom *)
Lemma tri_turn : forall p0 p p1 v B a a1, 0 < B -> 0 < v -> p1 < p <= p0 -> p0 <= v -> 0 <= a <= PI / 2 -> 0 <= a1 <= PI / 2 -> p0 = v ->
  p = v * cos a -> p1 = v * cos a1 ->
  tri p0 p p1 0 0 (a / B) (v * sin a / B) (a1 / B) (v * sin a1 / B) (a1 / B).
Proof.
  intros p0 p p1 v B a a1 HB Hv Hp Hv0 Ha Ha1 E0 E E1. pose proof PI_RGT_0.
  assert (I : 0 < / B) by (apply Rinv_0_lt_compat; exact HB).
  assert (La : a < a1).
  { destruct (Rlt_or_le a a1); [assumption|]. assert (cos a <= cos a1) by (apply cos_decr_1; lra). nra. }
  assert (S1 := sin_concave a 0 ltac:(lra) ltac:(lra)). rewrite sin_0, cos_0 in S1.
  assert (S2 := sin_concave 0 a ltac:(lra) ltac:(lra)). rewrite sin_0 in S2.
  assert (S3 := sin_concave a a1 ltac:(lra) ltac:(lra)). assert (S4 := sin_concave a1 a ltac:(lra) ltac:(lra)).
  exists 0, 0, (a / B), ((a1 - a) / B).
  assert (Q : forall x y, x <= y -> x / B <= y / B) by (intros; apply Rmult_le_compat_r; lra).
  assert (Q0 : forall x, 0 <= x -> 0 <= x / B) by (intros; apply Rmult_le_pos; lra).
  split; [lra|]. split; [lra|]. split; [apply Q0; lra|]. split; [apply Q0; lra|]. split; [field; lra|].
  split; [ring|]. split; [field; lra|]. split.
  - split.
    + replace (p * 0 - p0 * (a / B)) with (- (p0 * a / B)) by (field; lra). replace (0 - v * sin a / B) with (- (v * sin a / B)) by ring.
      apply Ropp_le_contravar. apply Q. rewrite E0. nra.
    + replace (p0 * 0 - p * (a / B)) with (- (p * a / B)) by (field; lra). replace (0 - v * sin a / B) with (- (v * sin a / B)) by ring.
      apply Ropp_le_contravar. apply Q. rewrite E. nra.
  - split.
    + replace (p1 * 0 - p * ((a1 - a) / B)) with (- (p * (a1 - a) / B)) by (field; lra).
      replace (v * sin a / B - v * sin a1 / B) with (- ((v * sin a1 - v * sin a) / B)) by (field; lra).
      apply Ropp_le_contravar. apply Q. rewrite E. nra.
    + replace (p * 0 - p1 * ((a1 - a) / B)) with (- (p1 * (a1 - a) / B)) by (field; lra).
      replace (v * sin a / B - v * sin a1 / B) with (- ((v * sin a1 - v * sin a) / B)) by (field; lra).
      apply Ropp_le_contravar. apply Q. rewrite E1. nra.
Qed.

Lemma total_nil' : forall (f : timedist R -> R), total f [] = 0.
Proof. reflexivity. Qed.
Lemma total_cons' : forall (f : timedist R -> R) x l, total f (x :: l) = f x + total f l.
Proof. reflexivity. Qed.

Section Down.
  Variables (m : smodel R) (w : bool) (j : nat).
  Let ls := sm_layers m w.
  Let rad := sm_radius m.

  Lemma descends_end : forall q k incs, descends m w q k j incs -> (j < k)%nat -> incs = [].
  Proof. intros q k incs [H _] Hk. destruct incs; [reflexivity|]. cbn in H. lia. Qed.
  Lemma descends_cross : forall q k incs y, descends m w q k j incs -> (k <= j)%nat -> nth_error ls k = Some y ->
    q <= sl_topP y -> q <= sl_botP y ->
    exists x rest, incs = x :: rest /\ layerTimeDist m q (Z.of_nat k) w = Ok x /\ descends m w q (S k) j rest.
  Proof.
    intros q k incs y [H1 [H2 [H3 H4]]] Hk Hy Ht Hb. destruct incs as [|x rest].
    - exfalso. cbn in H4. rewrite Nat.add_0_r in H4. destruct H4 as [H4|[z [Hz [Nc _]]]]; [lia|].
      assert (z = y) by (unfold ls in Hy; congruence). subst z. apply Nc. split; apply Rleb_le; assumption.
    - exists x, rest. split; [reflexivity|]. split.
      + specialize (H3 0%nat x eq_refl). rewrite Nat.add_0_r in H3. exact H3.
      + cbn [List.length] in *. split; [lia|]. split; [|split].
        * intros n z Hn Hz. apply (H2 (S n)); [lia|]. rewrite <- plus_n_Sm. exact Hz.
        * intros n z Hz. specialize (H3 (S n) z Hz). rewrite <- plus_n_Sm in H3. exact H3.
        * rewrite <- plus_n_Sm in H4. exact H4.
  Qed.
  Lemma descends_stop : forall q k incs y, descends m w q k j incs -> (k <= j)%nat -> nth_error ls k = Some y ->
    sl_botP y < q -> incs = [] /\ ~ spans y q.
  Proof.
    intros q k incs y [H1 [H2 [H3 H4]]] Hk Hy Hb. destruct incs as [|x rest].
    - split; [reflexivity|]. cbn in H4. rewrite Nat.add_0_r in H4. destruct H4 as [H4|[z [Hz [_ Ns]]]]; [lia|].
      assert (z = y) by (unfold ls in Hy; congruence). subst z. exact Ns.
    - exfalso. cbn [List.length] in H2. specialize (H2 0%nat y ltac:(lia)). rewrite Nat.add_0_r in H2. destruct (H2 Hy) as [_ X]. apply Rleb_le in X. lra.
  Qed.
  Lemma not_spans : forall y q, ~ spans y q -> sl_botP y < q < sl_topP y -> False.
  Proof. intros y q Ns Hq. apply Ns. unfold spans. cbn [n_ltb n_sub n_mul Num_R]. rewrite n_0_R. apply Rltb_lt. nra. Qed.

  Variable i : nat.
  Hypothesis Hfall : falls ls i j.
  Lemma tail_zero : forall q rest k y, descends m w q (S k) j rest -> (i <= k <= j)%nat -> nth_error ls k = Some y -> sl_botP y <= q ->
    total td_dist rest = 0 /\ total td_time rest = 0.
  Proof.
    intros q rest. induction rest as [|x rest IH]; intros k y Hd Hk Hy Hq; [auto|].
    assert (Lk : (S k <= j)%nat) by (destruct Hd as [H _]; cbn in H; lia).
    assert (Hz : exists z, nth_error ls (S k) = Some z).
    { destruct Hd as [_ [_ [H _]]]. specialize (H 0%nat x eq_refl). rewrite Nat.add_0_r in H.
      unfold layerTimeDist in H. inv_as H as y0 H0. exists y0. apply get_iff. assumption. }
    destruct Hz as [z Hz]. destruct (Hfall k y Hk Hy) as [_ [_ Hn]]. specialize (Hn z ltac:(lia) Hz).
    destruct (Hfall (S k) z ltac:(lia) Hz) as [F1 [F2 _]].
    assert (Cr : q <= sl_topP z /\ q <= sl_botP z).
    { destruct Hd as [_ [H _]]. cbn [List.length] in H. specialize (H 0%nat z ltac:(lia)). rewrite Nat.add_0_r in H. destruct (H Hz) as [X Y].
      apply Rleb_le in X. apply Rleb_le in Y. auto. }
    destruct Cr as [C1 C2]. destruct (descends_cross _ _ _ _ Hd Lk Hz C1 C2) as [x' [rest' [E [Hl Hd']]]]. injection E as <- <-.
    destruct (layer_flat m q _ w z x ltac:(apply get_iff; exact Hz) ltac:(apply F2; lra) Hl) as [T0 X0].
    destruct (IH (S k) z Hd' ltac:(lia) Hz ltac:(lra)) as [I1 I2]. rewrite !total_cons', T0, X0, I1, I2. split; ring.
  Qed.
End Down.

Section Leg.
  Variables (m : smodel R) (w : bool) (i j : nat) (p0 p p1 : R).
  Let ls := sm_layers m w.
  Let rad := sm_radius m.
  Hypothesis Hreg : regular m.
  Hypothesis Hp : p1 < p < p0.
  Hypothesis Hp1 : 0 <= p1.
  Hypothesis Hgap : forall y, In y ls -> ~ p1 < sl_topP y < p0 /\ ~ p1 < sl_botP y < p0.
  Hypothesis Hst : falls ls i j \/ rises ls i j.

  Lemma down_tri : forall k x tm D, ray_down m w j p p1 k x tm D -> (i <= k)%nat ->
    forall incs0 incs1, descends m w p0 k j incs0 -> descends m w p1 k j incs1 ->
    tri p0 p p1 (total td_dist incs0) (total td_time incs0) x tm (total td_dist incs1) (total td_time incs1) D.
  Proof.
    intros k x tm D H. induction H as [k Hk|k y x tm d Hk Hy Ht Hb Hf Hr IH|k y u x tm x' tm' d Hk Hy Ht Hb Hth Hu Hpt Hr IH
      |k y u z x tm td Hk Hy Hb Hth Hu Hz Ez Hpt Hl|k y Hk Hy Hb Hf]; intros Hi incs0 incs1 D0 D1.
    - rewrite (descends_end _ _ _ _ _ _ D0 Hk), (descends_end _ _ _ _ _ _ D1 Hk). apply tri_nil.
    - destruct (Hgap y (nth_error_In _ _ Hy)) as [G1 G2].
      destruct (descends_cross _ _ _ _ _ _ _ D0 Hk Hy ltac:(lra) ltac:(lra)) as [x0 [r0 [-> [L0 E0]]]].
      destruct (descends_cross _ _ _ _ _ _ _ D1 Hk Hy ltac:(lra) ltac:(lra)) as [x1 [r1 [-> [L1 E1]]]].
      assert (Hg : getSlownessLayer m (Z.of_nat k) w = Ok y) by (apply get_iff; exact Hy).
      destruct (layer_flat m _ _ w y _ Hg Hf L0) as [Z1 Z2]. destruct (layer_flat m _ _ w y _ Hg Hf L1) as [Z3 Z4].
      rewrite !total_cons', Z1, Z2, Z3, Z4, !Rplus_0_l. apply IH; [lia|assumption..].
    - destruct (Hgap y (nth_error_In _ _ Hy)) as [G1 G2].
      destruct (descends_cross _ _ _ _ _ _ _ D0 Hk Hy ltac:(lra) ltac:(lra)) as [x0 [r0 [-> [L0 E0]]]].
      destruct (descends_cross _ _ _ _ _ _ _ D1 Hk Hy ltac:(lra) ltac:(lra)) as [x1 [r1 [-> [L1 E1]]]].
      assert (Hg : getSlownessLayer m (Z.of_nat k) w = Ok y) by (apply get_iff; exact Hy).
      destruct (Hreg w y (nth_error_In _ _ Hy)) as [Fl|[Pl|Ce]]; [lra| |destruct Ce as [_ [_ [Ce _]]]; lra].
      rewrite !total_cons'. rewrite <- (Rplus_0_l d). apply tri_add; [|apply IH; [lia|assumption..]].
      pose proof (plain_integrals _ _ _ _ _ _ _ Hg Pl Hu L0) as I0. pose proof (plain_integrals _ _ _ _ _ _ _ Hg Pl Hu L1) as I1.
      destruct (plain_law _ _ _ Pl Hu) as [A [B [HP [_ [_ Eu]]]]]. destruct Pl as [[K1 [K2 K3]] [Hs [Hne _]]].
      assert (In : forall q, q <= sl_topP y -> q <= sl_botP y -> forall r, sm_radius m - sl_botDepth y < r < sm_radius m - sl_topDepth y -> q < u r).
      { intros q Q1 Q2 r Hr'. rewrite Eu. pose proof (power_inside _ _ _ _ _ (conj K1 (conj K2 K3)) Hs HP Hne Hr') as S. fold (ys A B r) in S.
        unfold BullenSpec.strictly_between in S. destruct S; lra. }
      assert (V : forall q q', q <= sl_topP y -> q <= sl_botP y -> q' <= sl_topP y -> q' <= sl_botP y -> forall r, sm_radius m - sl_botDepth y < r < sm_radius m - sl_topDepth y -> q < u r /\ q' < u r).
      { intros q q' Q1 Q2 Q3 Q4 r Hr'. split; apply In; assumption. }
      assert (A0 : 0 <= sm_radius m - sl_botDepth y) by lra. assert (A1 : sm_radius m - sl_botDepth y <= sm_radius m - sl_topDepth y) by lra.
      apply tri_cross; [exact Hp|..].
      + apply (fermat u p p0 _ _ _ _ _ _ A0 A1 ltac:(lra) ltac:(lra) ltac:(apply V; lra) Hpt I0).
      + apply (fermat u p0 p _ _ _ _ _ _ A0 A1 ltac:(lra) ltac:(lra) ltac:(apply V; lra) I0 Hpt).
      + apply (fermat u p1 p _ _ _ _ _ _ A0 A1 ltac:(lra) ltac:(lra) ltac:(apply V; lra) I1 Hpt).
      + apply (fermat u p p1 _ _ _ _ _ _ A0 A1 ltac:(lra) ltac:(lra) ltac:(apply V; lra) Hpt I1).
    - destruct (Hgap y (nth_error_In _ _ Hy)) as [G1 G2].
      destruct (descends_stop _ _ _ _ _ _ _ D0 Hk Hy ltac:(lra)) as [-> N0].
      assert (T0 : p0 = sl_topP y) by (destruct (Rle_lt_or_eq_dec p0 (sl_topP y)) as [X|X]; [lra|exfalso; apply (not_spans y p0 N0); lra|exact X]).
      assert (B1 : sl_botP y = p1).
      { destruct (Rtotal_order (sl_botP y) p1) as [X|[X|X]]; [exfalso|exact X|lra].
        destruct (descends_stop _ _ _ _ _ _ _ D1 Hk Hy X) as [_ N1]. apply (not_spans y p1 N1). lra. }
      destruct (descends_cross _ _ _ _ _ _ _ D1 Hk Hy ltac:(lra) ltac:(lra)) as [x1 [r1 [-> [L1 E1]]]].
      assert (x1 = td) by congruence. subst x1.
      assert (Hfall : falls ls i j) by (destruct Hst as [F|F]; [exact F|]; destruct (F k y ltac:(lia) Hy) as [F1 _]; lra).
      destruct (tail_zero m w j i Hfall p1 r1 k y E1 ltac:(lia) Hy ltac:(lra)) as [Z1 Z2].
      rewrite !total_nil', !total_cons', Z1, Z2, !Rplus_0_r.
      assert (Hg : getSlownessLayer m (Z.of_nat k) w = Ok y) by (apply get_iff; exact Hy).
      assert (Hy' : plain_layer m y \/ centre_layer m y) by (destruct (Hreg w y (nth_error_In _ _ Hy)) as [Fl|X]; [lra|exact X]).
      destruct (law_coef m y u Hy' ltac:(lra) Hu) as [A [B [Hc _]]].
      destruct (turn_values m y u p z x tm B Hy' Hu Hb ltac:(lra) Hz Ez Hpt Hc) as [B0 [a [Ha [Ep [-> ->]]]]].
      destruct (turn_sample m _ w y p1 td B Hg Hy' ltac:(lra) B1 Hl Hc) as [a1 [Ha1 [Ep1 [-> ->]]]].
      apply tri_turn; lra.
    - destruct (Hgap y (nth_error_In _ _ Hy)) as [G1 G2].
      destruct (descends_stop _ _ _ _ _ _ _ D0 Hk Hy ltac:(lra)) as [-> N0].
      assert (B1 : sl_botP y = p1).
      { destruct (Rtotal_order (sl_botP y) p1) as [X|[X|X]]; [exfalso|exact X|lra].
        destruct (descends_stop _ _ _ _ _ _ _ D1 Hk Hy X) as [_ N1]. apply (not_spans y p1 N1). lra. }
      destruct (descends_cross _ _ _ _ _ _ _ D1 Hk Hy ltac:(lra) ltac:(lra)) as [x1 [r1 [-> [L1 E1]]]].
      assert (Hfall : falls ls i j) by (destruct Hst as [F|F]; [exact F|]; destruct (F k y ltac:(lia) Hy) as [F1 _]; lra).
      destruct (tail_zero m w j i Hfall p1 r1 k y E1 ltac:(lia) Hy ltac:(lra)) as [Z1 Z2].
      assert (Hg : getSlownessLayer m (Z.of_nat k) w = Ok y) by (apply get_iff; exact Hy).
      destruct (layer_flat m _ _ w y _ Hg Hf L1) as [Z3 Z4].
      rewrite !total_nil', !total_cons', Z1, Z2, Z3, Z4, !Rplus_0_r. apply tri_nil.
  Qed.
End Leg.


Section Legs.
  Variables (t : tmodel R) (p0 p p1 : R) (n n' : nat).
  Let m := tm_sMod t.
  Hypothesis Hrdy : rays_ready t.
  Hypothesis Hreg : regular m.
  Hypothesis Hp : p1 < p < p0.
  Hypothesis Hp1 : 0 <= p1.
  Hypothesis Hgap : nothing_between t p1 p0.
  Hypothesis H0 : nth_error (tm_rayParams t) n = Some p0.
  Hypothesis H1 : nth_error (tm_rayParams t) n' = Some p1.

  Lemma ray_sample : forall b k q, In b (tm_P t) \/ In b (tm_S t) -> nth_error (tm_rayParams t) k = Some q -> q <= tb_maxRP b ->
    forall x tm, nth_error (tb_dist b) k = Some x -> nth_error (tb_time b) k = Some tm ->
    exists i j incs, deepest (sm_layers m (tb_isP b)) (tb_top b) i /\ shallowest (sm_layers m (tb_isP b)) (tb_bot b) j /\
      (descends m (tb_isP b) q i j incs \/ (S j <= i)%nat /\ incs = []) /\ x = total td_dist incs /\ tm = total td_time incs.
  Proof.
    intros b k q Hb Hk Hq x tm Hx Ht. destruct Hrdy as [_ Hr]. destruct (Hr b Hb) as [_ [L1 [L2 [L3 Hv]]]].
    assert (Hu : exists u, nth_error (tb_tau b) k = Some u).
    { destruct (nth_error (tb_tau b) k) eqn:E; [eauto|]. apply nth_error_None in E. assert (k < List.length (tm_rayParams t))%nat by (apply nth_error_Some; congruence). lia. }
    destruct Hu as [u Hu]. destruct (Hv k q x tm u Hk Hx Ht Hu) as [_ [[V _]|[_ [i [j [incs [A [B [C [D E]]]]]]]]]].
    - apply leb_R_false in V. lra.
    - exists i, j, incs. destruct (sum_total incs) as [S1 S2]. rewrite S1 in D. rewrite S2 in E. auto.
  Qed.

  Lemma leg_tri : forall b x tm d x0 t0 x1 t1, In b (tm_P t) \/ In b (tm_S t) -> exact_leg m b p p1 x tm d ->
    nth_error (tb_dist b) n = Some x0 -> nth_error (tb_time b) n = Some t0 ->
    nth_error (tb_dist b) n' = Some x1 -> nth_error (tb_time b) n' = Some t1 ->
    tri p0 p p1 x0 t0 x tm x1 t1 d.
  Proof.
    intros b x tm d x0 t0 x1 t1 Hb [Hm [i [j [Hi [Hj Hd]]]]] X0 T0 X1 T1. destruct Hgap as [G1 G2].
    pose proof (G2 b Hb) as Gb.
    destruct (ray_sample b n p0 Hb H0 ltac:(lra) _ _ X0 T0) as [i0 [j0 [incs0 [I0 [J0 [D0 [-> ->]]]]]]].
    destruct (ray_sample b n' p1 Hb H1 ltac:(lra) _ _ X1 T1) as [i1 [j1 [incs1 [I1 [J1 [D1 [-> ->]]]]]]].
    assert (i0 = i) by exact (deepest_unique _ _ _ _ I0 Hi). assert (j0 = j) by exact (shallowest_unique _ _ _ _ J0 Hj). subst i0 j0.
    assert (i1 = i) by exact (deepest_unique _ _ _ _ I1 Hi). assert (j1 = j) by exact (shallowest_unique _ _ _ _ J1 Hj). subst i1 j1.
    assert (N : forall q incs, (S j <= i)%nat /\ incs = [] -> descends m (tb_isP b) q i j incs \/ (S j < i)%nat /\ incs = []).
    { intros q incs [A ->]. destruct (Nat.eq_dec (S j) i) as [E|E]; [|right; split; [lia|reflexivity]]. left. split; [cbn; lia|]. split; [intros k y Hk; cbn in Hk; lia|].
      split; [intros k y Hk; destruct k; discriminate Hk|]. left. cbn. lia. }
    assert (C : forall q incs, descends m (tb_isP b) q i j incs \/ (S j <= i)%nat /\ incs = [] -> descends m (tb_isP b) q i j incs \/ (S j < i)%nat /\ incs = []).
    { intros q incs [A|A]; [left; exact A|apply N; exact A]. }
    apply C in D0. apply C in D1.
    assert (Big : (S j < i)%nat -> incs0 = [] -> incs1 = [] -> tri p0 p p1 (total td_dist incs0) (total td_time incs0) x tm (total td_dist incs1) (total td_time incs1) d).
    { intros B -> ->. inversion Hd; subst; try lia. apply tri_nil. }
    assert (Nil : forall q incs, (S j < i)%nat -> descends m (tb_isP b) q i j incs -> incs = []).
    { intros q incs B [A _]. destruct incs; [reflexivity|cbn in A; lia]. }
    destruct D0 as [D0|[B0 E0]].
    - destruct D1 as [D1|[B1 E1]].
      + destruct Hrdy as [_ Hr]. destruct (Hr b Hb) as [Hs _].
        apply (down_tri m (tb_isP b) i j p0 p p1 Hreg Hp Hp1 (G1 (tb_isP b)) (Hs i j Hi Hj) i x tm d Hd (le_n i) incs0 incs1 D0 D1).
      + apply Big; [assumption|apply (Nil p0); assumption|assumption].
    - destruct D1 as [D1|[B1 E1]]; apply Big; try assumption. apply (Nil p1); assumption.
  Qed.

  Lemma legs_tri : forall l x tm d, exact_ray t p p1 l x tm d -> forall x0 t0 x1 t1,
    legs_total t tb_dist (Z.of_nat n) l x0 -> legs_total t tb_time (Z.of_nat n) l t0 ->
    legs_total t tb_dist (Z.of_nat n') l x1 -> legs_total t tb_time (Z.of_nat n') l t1 ->
    tri p0 p p1 x0 t0 x tm x1 t1 d.
  Proof.
    intros l x tm d H. induction H as [|s l b x tm d x' tm' d' Hb Hl _ IH]; intros x0 t0 x1 t1 X0 T0 X1 T1.
    - inversion X0; inversion T0; inversion X1; inversion T1; subst. apply tri_nil.
    - inversion X0 as [|s0 l0 b0 u0 v0 Hb0 U0 V0]; subst. inversion T0 as [|s1 l1 b1 u1 v1 Hb1 U1 V1]; subst.
      inversion X1 as [|s2 l2 b2 u2 v2 Hb2 U2 V2]; subst. inversion T1 as [|s3 l3 b3 u3 v3 Hb3 U3 V3]; subst.
      unfold leg_branch in *.
      assert (b0 = b) by exact (at_index_fun _ _ _ _ Hb0 Hb). assert (b1 = b) by exact (at_index_fun _ _ _ _ Hb1 Hb).
      assert (b2 = b) by exact (at_index_fun _ _ _ _ Hb2 Hb). assert (b3 = b) by exact (at_index_fun _ _ _ _ Hb3 Hb). subst b0 b1 b2 b3.
      assert (I : In b (tm_P t) \/ In b (tm_S t)) by (destruct (sg_isP s); [left|right]; exact (nth_error_In _ _ (at_index_pos _ _ _ Hb))).
      apply at_index_nat in U0. apply at_index_nat in U1. apply at_index_nat in U2. apply at_index_nat in U3.
      apply tri_add; [apply (leg_tri b); assumption|apply IH; assumption].
  Qed.
End Legs.

(** ** what this says about a time interpolated between the two samples *)
Lemma tri_error : forall p0 p p1 x0 t0 x tm x1 t1 D v, p1 < p < p0 -> tri p0 p p1 x0 t0 x tm x1 t1 D ->
  x0 <> x1 -> (x0 <= x <= x1 \/ x1 <= x <= x0) -> (v - t0) * (x1 - x0) = (t1 - t0) * (x - x0) ->
  - ((p0 - p1) * D) <= v - tm <= (p0 - p1) * (Rmax 0 (x0 - x1) / 4 + D).
Proof.
  intros p0 p p1 x0 t0 x tm x1 t1 D v Hp [a [b [c [d [Ha [Hb [Hc [Hd [<- [Ex [Ey [[A1 A2] [B1 B2]]]]]]]]]]]]] Hne Hbt Hv.
  set (A := x0 - x) in *. set (B := x - x1) in *.
  assert (E : (v - tm) * (A + B) = B * (t0 - tm) - A * (tm - t1)) by (unfold A, B in *; lra).
  assert (AB : x0 - x1 = A + B) by (unfold A, B; ring). rewrite AB.
  destruct (Rtotal_order x1 x0) as [Lt|[Eq|Gt]]; [|congruence|].
  - assert (SA : 0 <= A) by (unfold A; lra). assert (SB : 0 <= B) by (unfold B; lra). assert (SL : 0 < A + B) by lra.
    rewrite Rmax_right by lra. clear Hbt Hv AB Hne Lt. clearbody A B.
    assert (U : (v - tm) * (A + B) <= (p0 - p1) * (A * B + B * c + A * d)).
    { rewrite E. assert (a = A + c) by lra. assert (b = B + d) by lra. subst a b.
      assert (B * (t0 - tm) <= B * (p0 * (A + c) - p * c)) by (apply Rmult_le_compat_l; assumption).
      assert (A * (p1 * (B + d) - p * d) <= A * (tm - t1)) by (apply Rmult_le_compat_l; assumption).
      assert (0 <= B * c * (p - p1)) by (apply Rmult_le_pos; [apply Rmult_le_pos|]; lra).
      assert (0 <= A * d * (p0 - p)) by (apply Rmult_le_pos; [apply Rmult_le_pos|]; lra). lra. }
    assert (W : - ((p0 - p1) * (B * c + A * d)) <= (v - tm) * (A + B)).
    { rewrite E. assert (a = A + c) by lra. assert (b = B + d) by lra. subst a b.
      assert (B * (p * (A + c) - p0 * c) <= B * (t0 - tm)) by (apply Rmult_le_compat_l; assumption).
      assert (A * (tm - t1) <= A * (p * (B + d) - p1 * d)) by (apply Rmult_le_compat_l; assumption).
      assert (0 <= B * c * (p - p1)) by (apply Rmult_le_pos; [apply Rmult_le_pos|]; lra).
      assert (0 <= A * d * (p0 - p)) by (apply Rmult_le_pos; [apply Rmult_le_pos|]; lra). lra. }
    assert (0 <= A * c) by (apply Rmult_le_pos; assumption). assert (0 <= B * d) by (apply Rmult_le_pos; assumption).
    assert (Q : 4 * (A * B) <= (A + B) * (A + B)) by (pose proof (Rle_0_sqr (A - B)) as Q; unfold Rsqr in Q; lra).
    split; apply (Rmult_le_reg_r (A + B)); try lra.
    + apply Rle_trans with (2 := W).
      assert ((p0 - p1) * (B * c + A * d) <= (p0 - p1) * ((c + d) * (A + B))) by (apply Rmult_le_compat_l; lra). lra.
    + apply Rle_trans with (1 := U).
      assert ((p0 - p1) * (A * B + B * c + A * d) <= (p0 - p1) * ((A + B) * (A + B) / 4 + (c + d) * (A + B))) by (apply Rmult_le_compat_l; lra). lra.
  - assert (SA : A <= 0) by (unfold A; lra). assert (SB : B <= 0) by (unfold B; lra). assert (SL : A + B < 0) by lra.
    rewrite Rmax_left by lra. clear Hbt Hv AB Hne Gt. clearbody A B.
    assert (U : B * a * (p - p0) + A * b * (p1 - p) >= (v - tm) * - (A + B)).
    { replace ((v - tm) * - (A + B)) with (- ((v - tm) * (A + B))) by ring. rewrite E. assert (c = a - A) by lra. assert (d = b - B) by lra. subst c d.
      assert (- B * (t0 - tm) <= - B * (p0 * a - p * (a - A))) by (apply Rmult_le_compat_l; lra).
      assert (- A * (p1 * b - p * (b - B)) <= - A * (tm - t1)) by (apply Rmult_le_compat_l; lra). lra. }
    assert (W : (v - tm) * - (A + B) >= - (A * B * (p0 - p1)) + B * a * (p0 - p) + A * b * (p - p1)).
    { replace ((v - tm) * - (A + B)) with (- ((v - tm) * (A + B))) by ring. rewrite E. assert (c = a - A) by lra. assert (d = b - B) by lra. subst c d.
      assert (- B * (p * a - p0 * (a - A)) <= - B * (t0 - tm)) by (apply Rmult_le_compat_l; lra).
      assert (- A * (tm - t1) <= - A * (p * b - p1 * (b - B))) by (apply Rmult_le_compat_l; lra). lra. }
    assert (Na : 0 <= - A * a) by (apply Rmult_le_pos; lra). assert (Nb : 0 <= - B * b) by (apply Rmult_le_pos; lra).
    assert (Ma : 0 <= - B * a) by (apply Rmult_le_pos; lra). assert (Mb : 0 <= - A * b) by (apply Rmult_le_pos; lra).
    assert (AA : 0 <= A * A) by nra. assert (BB : 0 <= B * B) by nra. assert (AB : 0 <= A * B) by nra.
    assert (c = a - A) by lra. assert (d = b - B) by lra. subst c d.
    split; apply (Rmult_le_reg_r (- (A + B))); try lra.
    + apply Rle_trans with (2 := Rge_le _ _ W).
      assert (0 <= (p0 - p1) * (- A * a + - B * b + A * A + B * B + A * B)) by (apply Rmult_le_pos; lra).
      assert (0 <= (- B * a) * (p - p1)) by (apply Rmult_le_pos; lra). assert (0 <= (- A * b) * (p0 - p)) by (apply Rmult_le_pos; lra). lra.
    + apply Rle_trans with (1 := Rge_le _ _ U).
      assert (0 <= (p0 - p1) * (- A * a + - B * b + A * A + B * B + 2 * (A * B))) by (apply Rmult_le_pos; lra).
      assert (0 <= (- B * a) * (p - p1)) by (apply Rmult_le_pos; lra). assert (0 <= (- A * b) * (p0 - p)) by (apply Rmult_le_pos; lra). lra.
Qed.

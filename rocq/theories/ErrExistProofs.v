(** Proofs for C56: between two samples there is an exact ray for every distance between theirs. *)
From Coq Require Import ZArith Bool List Reals Lia Lra Psatz Ranalysis5.
From Verif Require Import Base Num SlownessLayer SlownessModel SlowSpec SlowProofs TauModel SeismicPhase TauSpec CurveSpec CurveProofs PathSpec PathProofs PathLegProofs PathEndProofs
  BullenSpec BullenProofs ErrSpec ErrProofs ErrLegProofs SlowRealProofs RealRun.
Import ListNotations.
Local Open Scope list_scope.
Local Open Scope R_scope.

(** ** the angle of a ray at slowness [v], as a continuous function of its parameter *)
Definition bend (v q : R) : R := 2 * atan (sqrt ((v - q) / (v + q))).
Lemma bend_angle : forall v a, 0 < v -> 0 <= a <= PI / 2 -> bend v (v * cos a) = a.
Proof.
  intros v a Hv Ha. pose proof PI_RGT_0. unfold bend. set (h := a / 2).
  assert (C : 0 < cos h) by (apply cos_gt_0; unfold h; lra). assert (S : 0 <= sin h) by (apply sin_ge_0; unfold h; lra).
  assert (E : cos a = cos h * cos h - sin h * sin h) by (replace a with (2 * h) by (unfold h; field); apply cos_2a).
  pose proof (sin2_cos2 h) as Q. unfold Rsqr in Q.
  assert (N : (v - v * cos a) = v * (2 * (sin h * sin h))) by (rewrite E; replace v with (v * 1) at 1 by ring; rewrite <- Q; ring).
  assert (M : (v + v * cos a) = v * (2 * (cos h * cos h))) by (rewrite E; replace v with (v * 1) at 1 by ring; rewrite <- Q; ring).
  rewrite N, M. replace (v * (2 * (sin h * sin h)) / (v * (2 * (cos h * cos h)))) with (tan h * tan h).
  - rewrite sqrt_square.
    + rewrite atan_tan by (unfold h; lra). unfold h. field.
    + unfold tan. apply Rle_mult_inv_pos; assumption.
  - unfold tan. field. split; lra.
Qed.
Lemma bend_cont : forall v q, 0 < v -> 0 <= q <= v -> continuity_pt (bend v) q.
Proof.
  intros v q Hv Hq. unfold bend.
  apply (continuity_pt_mult (fun _ => 2) (fun q => atan (sqrt ((v - q) / (v + q))))); [apply continuity_pt_const; intros ? ?; reflexivity|].
  apply (continuity_pt_comp (fun q => sqrt ((v - q) / (v + q))) atan).
  - apply (continuity_pt_comp (fun q => (v - q) / (v + q)) sqrt).
    + apply (continuity_pt_div (fun q => v - q) (fun q => v + q)); [reg|reg|lra].
    + apply continuity_pt_sqrt. apply Rle_mult_inv_pos; lra.
  - apply derivable_continuous_pt. exists (/ (1 + (sqrt ((v - q) / (v + q))) ^ 2)). apply derivable_pt_lim_atan.
Qed.
Lemma bend_atan2 : forall v q, 0 < v -> 0 <= q <= v -> Ratan2 q (sqrt (v * v - q * q)) = PI / 2 - bend v q.
Proof.
  intros v q Hv Hq. pose proof PI_RGT_0. destruct (angle_of q v Hq Hv) as [a [Ha [E ->]]]. rewrite E at 2. rewrite bend_angle by assumption.
  rewrite E. replace (v * cos a) with (v * sin (PI / 2 - a)) by (rewrite sin_shift; reflexivity).
  replace (v * sin a) with (v * cos (PI / 2 - a)) by (rewrite cos_shift; reflexivity). apply Ratan2_polar; lra.
Qed.
Lemma bend_dist : forall y B q, slow_pos y -> B <> 0 -> 0 <= q -> q <= sl_topP y -> q <= sl_botP y ->
  bullen_dist y B q = (bend (sl_topP y) q - bend (sl_botP y) q) / B.
Proof. intros y B q [P1 P2] HB H0 H1 H2. unfold bullen_dist. rewrite !bend_atan2 by lra. field. exact HB. Qed.

(** ** rays in one layer *)
Lemma law_exists : forall m y, plain_layer m y \/ centre_layer m y -> exists u, slow_law y (sm_radius m) u.
Proof.
  intros m y [[Hk [Hs _]]|[_ [C _]]].
  - destruct (thick_exists _ _ Hk Hs) as [A [B H]]. exists (fun r => A * Rpower r B). left. split; [apply Hk|]. exists A, B. auto.
  - exists (fun r => sl_topP y / (sm_radius m - sl_topDepth y) * r). right. auto.
Qed.
Lemma cross_integrals : forall m y u A B q, plain_layer m y -> power_law y (sm_radius m) A B -> B <> 0 -> (forall r, u r = ys A B r) ->
  0 <= q -> q <= sl_topP y -> q <= sl_botP y ->
  ray_part u q (sm_radius m - sl_botDepth y) (sm_radius m - sl_topDepth y) (bullen_dist y B q) (bullen_time y B q).
Proof.
  intros m y u A B p Hpl HP B0 E R1 R2 R3.
  destruct Hpl as [Hk [Hs [Hne _]]]. destruct (rays_pass _ _ _ _ _ Hk Hs HP Hne (conj R1 R2) R3) as [U1 U2]. destruct Hk as [K1 [K2 K3]].
  apply (ray_part_ext (ys A B)); [intros r _; symmetry; apply E|]. unfold bullen_time, bullen_dist. split.
  - pose proof (integral_dist A B p (sm_radius m - sl_botDepth y) (sm_radius m - sl_topDepth y) B0 ltac:(lra) ltac:(lra) R1 U1 U2) as I. unfold leg in I. rewrite (ys_top _ _ _ _ HP), (ys_bot _ _ _ _ HP) in I. exact I.
  - pose proof (integral_time A B p (sm_radius m - sl_botDepth y) (sm_radius m - sl_topDepth y) B0 ltac:(lra) ltac:(lra) U1 U2) as I. unfold leg in I. rewrite (ys_top _ _ _ _ HP), (ys_bot _ _ _ _ HP) in I. exact I.
Qed.
Lemma turn_exists : forall m y u q, plain_layer m y \/ centre_layer m y -> slow_law y (sm_radius m) u -> sl_botP y < q <= sl_topP y -> 0 < q ->
  exists z x tm, sm_radius m - sl_botDepth y <= z <= sm_radius m - sl_topDepth y /\ u z = q /\ ray_part u q z (sm_radius m - sl_topDepth y) x tm.
Proof.
  intros m y u q Hy Hu Hq Q0. destruct (law_coef m y u Hy ltac:(lra) Hu) as [A [B [_ [B0 [A0 [E Et]]]]]].
  set (rt := sm_radius m - sl_topDepth y) in *. set (rb := sm_radius m - sl_botDepth y) in *.
  assert (Hz : exists z, 0 < z /\ rb <= z <= rt /\ u z = q).
  { destruct Hy as [Hpl|C].
    - destruct Hpl as [[K1 [K2 K3]] [Hs _]]. destruct Hu as [[_ [A' [B' [HP Eu]]]]|[X _]]; [|lra].
      assert (Rb : 0 < rb < rt) by (unfold rb, rt; lra).
      destruct (f_interv_is_interv (ys A' B') rb rt q) as [z [Hz Ez]]; [lra|..].
      + unfold rb, rt. rewrite (ys_top _ _ _ _ HP), (ys_bot _ _ _ _ HP). lra.
      + intros r Hr. apply cont_power. lra.
      + exists z. split; [lra|]. split; [exact Hz|]. rewrite Eu. exact Ez.
    - destruct C as [C1 [C2 [C3 C4]]]. destruct Hu as [[X _]|[_ Eu]]; [lra|]. fold rt in Eu.
      assert (R0 : 0 < rt) by (unfold rt; lra). assert (Rb : rb = 0) by (unfold rb; lra).
      exists (q * rt / sl_topP y). split; [|split].
      + apply Rdiv_lt_0_compat; [nra|lra].
      + rewrite Rb. split; [apply Rle_mult_inv_pos; [nra|lra]|]. apply (Rmult_le_reg_r (sl_topP y)); [lra|]. unfold Rdiv. rewrite Rmult_assoc, Rinv_l by lra. nra.
      + rewrite Eu. field. split; lra. }
  destruct Hz as [z [Z0 [Hz Ez]]].
  assert (Ezy : ys A B z = q) by (rewrite <- E by exact Z0; exact Ez).
  assert (Mono : forall r, z < r -> q < ys A B r).
  { intros r Hzr. rewrite <- Ezy. unfold ys. apply Rmult_lt_compat_l; [exact A0|]. apply (Rpower_mono z r B Z0 Hzr). exact B0. }
  assert (U1 : forall r, z <= r <= rt -> q * q <= ys A B r * ys A B r).
  { intros r Hr'. destruct (Req_dec r z) as [->|N]; [rewrite Ezy; lra|]. pose proof (Mono r ltac:(lra)). nra. }
  assert (U2 : forall r, z < r < rt -> q * q < ys A B r * ys A B r).
  { intros r Hr'. pose proof (Mono r ltac:(lra)). nra. }
  pose proof (integral_dist A B q z rt ltac:(lra) Z0 ltac:(lra) ltac:(lra) U1 U2) as I1.
  pose proof (integral_time A B q z rt ltac:(lra) Z0 ltac:(lra) U1 U2) as I2.
  eexists z, _, _. split; [exact Hz|]. split; [exact Ez|].
  apply (ray_part_ext (ys A B)); [intros r Hr; symmetry; apply E; lra|]. split; eassumption.
Qed.

(** ** one leg *)
(** what is wanted of the distances [X] on a leg from layer [k] on *)
Definition course (m : smodel R) (w : bool) (j : nat) (p0 p1 : R) (k : nat) (d0 d1 : R) (X : R -> R) : Prop :=
  (forall q, p1 <= q <= p0 -> continuity_pt X q) /\ X p0 = d0 /\ X p1 = d1 /\
  forall q, p1 < q < p0 -> exists tm d, ray_down m w j q p1 k (X q) tm d.

Section Exist.
  Variables (m : smodel R) (w : bool) (i j : nat) (p0 p1 : R).
  Let ls := sm_layers m w.
  Hypothesis Hreg : regular m.
  Hypothesis Hp : p1 < p0.
  Hypothesis Hp1 : 0 <= p1.
  Hypothesis Hgap : forall y, In y ls -> ~ p1 < sl_topP y < p0 /\ ~ p1 < sl_botP y < p0.
  Hypothesis Hst : falls ls i j \/ rises ls i j.
  Hypothesis Hjoin : s_join ls.
  Hypothesis Hj : (j < List.length ls)%nat.

  Lemma course_end : forall k d0 d1, (j < k)%nat -> d0 = 0 -> d1 = 0 -> course m w j p0 p1 k d0 d1 (fun _ => 0).
  Proof.
    intros k d0 d1 Hk -> ->. split; [intros q _; apply continuity_pt_const; intros ? ?; reflexivity|]. split; [reflexivity|]. split; [reflexivity|].
    intros q _. exists 0, 0. apply rd_end. exact Hk.
  Qed.
  Lemma down_course : forall n k, (k + n = S j)%nat -> (i <= k)%nat -> (forall y, nth_error ls k = Some y -> (k <= j)%nat -> p0 <= sl_topP y) ->
    forall incs0 incs1, descends m w p0 k j incs0 -> descends m w p1 k j incs1 ->
    exists X, course m w j p0 p1 k (total td_dist incs0) (total td_dist incs1) X.
  Proof.
    induction n as [|n IH]; intros k Ek Hi Htop incs0 incs1 D0 D1.
    - exists (fun _ => 0). apply course_end; [lia| |].
      + rewrite (descends_end _ _ _ _ _ _ D0) by lia. reflexivity.
      + rewrite (descends_end _ _ _ _ _ _ D1) by lia. reflexivity.
    - assert (Hk : (k <= j)%nat) by lia.
      destruct (nth_error ls k) as [y|] eqn:Hy; [|apply nth_error_None in Hy; lia].
      specialize (Htop y eq_refl Hk). destruct (Hgap y (nth_error_In _ _ Hy)) as [G1 G2].
      assert (Hg : getSlownessLayer m (Z.of_nat k) w = Ok y) by (apply get_iff; exact Hy).
      destruct (Rle_or_lt p0 (sl_botP y)) as [Hb|Hb].
      + (* all rays cross the layer *)
        destruct (descends_cross _ _ _ _ _ _ _ D0 Hk Hy ltac:(lra) ltac:(lra)) as [x0 [r0 [-> [L0 E0]]]].
        destruct (descends_cross _ _ _ _ _ _ _ D1 Hk Hy ltac:(lra) ltac:(lra)) as [x1 [r1 [-> [L1 E1]]]].
        destruct (IH (S k) ltac:(lia) ltac:(lia)) with (incs0 := r0) (incs1 := r1) as [X [C1 [C2 [C3 C4]]]]; [|assumption..|].
        { intros z Hz _. pose proof (Hjoin k y z Hy Hz) as Ej. apply Reqb_eq in Ej. lra. }
        rewrite !total_cons'. destruct (Hreg w y (nth_error_In _ _ Hy)) as [Fl|[Pl|Ce]]; [| |destruct Ce as [_ [_ [Ce _]]]; lra].
        * destruct (layer_flat m _ _ w y _ Hg Fl L0) as [_ Z0]. destruct (layer_flat m _ _ w y _ Hg Fl L1) as [_ Z1].
          exists X. rewrite Z0, Z1, !Rplus_0_l. split; [exact C1|]. split; [exact C2|]. split; [exact C3|].
          intros q Hq. destruct (C4 q Hq) as [tm [d Hd]]. exists tm, d. apply (rd_flat m w j q p1 k y); try assumption; lra.
        * destruct (law_exists m y (or_introl Pl)) as [u Hu]. destruct (plain_law _ _ _ Pl Hu) as [A [B [HP [B0 [_ Eu]]]]].
          destruct (plain_values _ _ _ _ _ _ _ _ Hg Pl HP L0) as [_ V0]. destruct (plain_values _ _ _ _ _ _ _ _ Hg Pl HP L1) as [_ V1].
          assert (Pl' := Pl). destruct Pl' as [[K1 [K2 K3]] [Hs [Hne _]]]. assert (Hs' := Hs). destruct Hs' as [S1 S2].
          exists (fun q => (bend (sl_topP y) q - bend (sl_botP y) q) / B + X q).
          rewrite V0, V1, !bend_dist by (assumption || lra).
          split; [|split; [rewrite C2; reflexivity|split; [rewrite C3; reflexivity|]]].
          { intros q Hq. apply continuity_pt_plus; [|apply C1; exact Hq].
            apply (continuity_pt_mult (fun q => bend (sl_topP y) q - bend (sl_botP y) q) (fun _ => / B)); [|apply continuity_pt_const; intros ? ?; reflexivity].
            apply continuity_pt_minus; apply bend_cont; lra. }
          intros q Hq. destruct (C4 q Hq) as [tm [d Hd]]. eexists _, d. rewrite <- bend_dist by (assumption || lra).
          apply (rd_cross m w j q p1 k y u _ (bullen_time y B q) _ tm); try assumption; try lra.
          apply (cross_integrals m y u A B q); try assumption; lra.
      + (* the rays turn in it, or are stopped *)
        assert (Hb1 : sl_botP y <= p1) by lra.
        destruct (descends_stop _ _ _ _ _ _ _ D0 Hk Hy Hb) as [-> N0].
        assert (Hfall : falls ls i j) by (destruct Hst as [F|F]; [exact F|]; destruct (F k y ltac:(lia) Hy) as [F1 _]; lra).
        destruct (Hreg w y (nth_error_In _ _ Hy)) as [Fl|Th].
        * exists (fun _ => 0). split; [intros q _; apply continuity_pt_const; intros ? ?; reflexivity|]. split; [reflexivity|]. split.
          -- destruct (Rle_lt_or_eq_dec _ _ Hb1) as [Hlt|E].
             ++ destruct (descends_stop _ _ _ _ _ _ _ D1 Hk Hy Hlt) as [-> _]. reflexivity.
             ++ destruct (descends_cross _ _ _ _ _ _ _ D1 Hk Hy ltac:(lra) ltac:(lra)) as [x1 [r1 [-> [L1 E1]]]].
                destruct (tail_zero m w j i Hfall p1 r1 k y E1 ltac:(lia) Hy ltac:(lra)) as [Z1 _].
                destruct (layer_flat m _ _ w y _ Hg Fl L1) as [_ Z]. rewrite total_cons', Z, Z1. ring.
          -- intros q Hq. exists 0, 0. apply (rd_stop m w j q p1 k y); try assumption. lra.
        * assert (T0 : p0 = sl_topP y) by (destruct (Rle_lt_or_eq_dec p0 (sl_topP y)) as [X|X]; [lra|exfalso; apply (not_spans y p0 N0); lra|exact X]).
          assert (B1 : sl_botP y = p1).
          { destruct (Rle_lt_or_eq_dec _ _ Hb1) as [X|X]; [exfalso|exact X].
            destruct (descends_stop _ _ _ _ _ _ _ D1 Hk Hy X) as [_ N1]. apply (not_spans y p1 N1). lra. }
          destruct (descends_cross _ _ _ _ _ _ _ D1 Hk Hy ltac:(lra) ltac:(lra)) as [x1 [r1 [-> [L1 E1]]]].
          destruct (tail_zero m w j i Hfall p1 r1 k y E1 ltac:(lia) Hy ltac:(lra)) as [Z1 _].
          destruct (law_exists m y Th) as [u Hu]. destruct (law_coef m y u Th ltac:(lra) Hu) as [A [B [Hc [B0 _]]]].
          assert (Hth : sl_topDepth y < sl_botDepth y) by (destruct Th as [[[_ [X _]] _]|[X _]]; exact X).
          destruct (turn_sample m _ w y p1 x1 B Hg Th ltac:(lra) B1 L1 Hc) as [a1 [Ha1 [Ep1 [Ex1 _]]]].
          exists (fun q => bend (sl_topP y) q / B). split; [|split; [|split]].
          -- intros q Hq. apply (continuity_pt_mult (fun q => bend (sl_topP y) q) (fun _ => / B)); [apply bend_cont; lra|apply continuity_pt_const; intros ? ?; reflexivity].
          -- rewrite total_nil'. replace p0 with (sl_topP y * cos 0) by (rewrite cos_0, T0; ring). pose proof PI_RGT_0.
             rewrite bend_angle by lra. field. lra.
          -- rewrite total_cons', Z1, Ex1. rewrite Ep1. rewrite bend_angle by (assumption || lra). field. lra.
          -- intros q Hq. destruct (turn_exists m y u q Th Hu ltac:(lra) ltac:(lra)) as [z [x [tm [Hz [Ez Hr]]]]].
             destruct (turn_values m y u q z x tm B Th Hu ltac:(lra) ltac:(lra) Hz Ez Hr Hc) as [_ [a [Ha [Ea [Ex _]]]]].
             exists tm, (td_dist x1). rewrite Ea. rewrite bend_angle by (assumption || lra). rewrite <- Ea, <- Ex.
             apply (rd_turn m w j q p1 k y u z); try assumption. lra.
  Qed.
End Exist.

(** ** all legs *)
Section Whole.
  Variables (t : tmodel R) (p0 p1 : R) (n n' : nat).
  Let m := tm_sMod t.
  Hypothesis Hrdy : rays_ready t.
  Hypothesis Hreg : regular m.
  Hypothesis Hp : p1 < p0.
  Hypothesis Hp1 : 0 <= p1.
  Hypothesis Hgap : nothing_between t p1 p0.
  Hypothesis H0 : nth_error (tm_rayParams t) n = Some p0.
  Hypothesis H1 : nth_error (tm_rayParams t) n' = Some p1.
  Hypothesis Hjoin : forall w, s_join (sm_layers m w).

  Lemma leg_course : forall b x0 x1, In b (tm_P t) \/ In b (tm_S t) -> p0 <= tb_maxRP b -> limit_at_top m b ->
    nth_error (tb_dist b) n = Some x0 -> nth_error (tb_dist b) n' = Some x1 ->
    exists X, (forall q, p1 <= q <= p0 -> continuity_pt X q) /\ X p0 = x0 /\ X p1 = x1 /\
      forall q, p1 < q < p0 -> exists tm d, exact_leg m b q p1 (X q) tm d.
  Proof.
    intros b x0 x1 Hb Hm Hlim X0 X1. destruct Hgap as [G1 G2].
    assert (Ht : forall k q, nth_error (tm_rayParams t) k = Some q -> exists v, nth_error (tb_time b) k = Some v).
    { intros k q Hk. destruct Hrdy as [_ Hr]. destruct (Hr b Hb) as [_ [_ [L2 _]]].
      destruct (nth_error (tb_time b) k) eqn:E; [eauto|]. apply nth_error_None in E. assert (k < List.length (tm_rayParams t))%nat by (apply nth_error_Some; congruence). lia. }
    destruct (Ht n p0 H0) as [t0 T0]. destruct (Ht n' p1 H1) as [t1 T1].
    destruct (ray_sample t Hrdy b n p0 Hb H0 Hm _ _ X0 T0) as [i [j [incs0 [Hi [Hj [D0 [-> _]]]]]]].
    destruct (ray_sample t Hrdy b n' p1 Hb H1 ltac:(lra) _ _ X1 T1) as [i1 [j1 [incs1 [I1 [J1 [D1 [-> _]]]]]]].
    assert (i1 = i) by exact (deepest_unique _ _ _ _ I1 Hi). assert (j1 = j) by exact (shallowest_unique _ _ _ _ J1 Hj). subst i1 j1.
    assert (Lj : (j < List.length (sm_layers m (tb_isP b)))%nat) by (destruct Hj as [[y [Hy _]] _]; apply nth_error_Some; unfold m in *; congruence).
    destruct (Nat.le_gt_cases i j) as [Hij|Hij].
    - destruct D0 as [D0|[B0 _]]; [|lia]. destruct D1 as [D1|[B1 _]]; [|lia].
      destruct Hrdy as [_ Hr]. destruct (Hr b Hb) as [Hs _].
      destruct (down_course m (tb_isP b) i j p0 p1 Hreg Hp Hp1 (G1 (tb_isP b)) (Hs i j Hi Hj) (Hjoin _) Lj (S j - i) i ltac:(lia) (le_n i)) with (incs0 := incs0) (incs1 := incs1)
        as [X [C1 [C2 [C3 C4]]]]; [|assumption..|].
      + intros y Hy _. pose proof (Hlim i y Hi Hy). lra.
      + exists X. split; [exact C1|]. split; [exact C2|]. split; [exact C3|]. intros q Hq. destruct (C4 q Hq) as [tm [d Hd]].
        exists tm, d. split; [lra|]. exists i, j. auto.
    - assert (Z : forall q incs, descends m (tb_isP b) q i j incs \/ (S j <= i)%nat /\ incs = [] -> total td_dist incs = 0).
      { intros q incs [[D _]|[_ ->]]; [|reflexivity]. destruct incs; [reflexivity|cbn in D; lia]. }
      rewrite (Z _ _ D0), (Z _ _ D1). exists (fun _ => 0). split; [intros q _; apply continuity_pt_const; intros ? ?; reflexivity|]. split; [reflexivity|]. split; [reflexivity|].
      intros q Hq. exists 0, 0. split; [lra|]. exists i, j. split; [exact Hi|]. split; [exact Hj|]. apply rd_end. exact Hij.
  Qed.

  Lemma legs_course : forall l x0 x1, (forall s b, In s l -> leg_branch t s b -> p0 <= tb_maxRP b /\ limit_at_top m b) ->
    legs_total t tb_dist (Z.of_nat n) l x0 -> legs_total t tb_dist (Z.of_nat n') l x1 ->
    exists X, (forall q, p1 <= q <= p0 -> continuity_pt X q) /\ X p0 = x0 /\ X p1 = x1 /\
      forall q, p1 < q < p0 -> exists tm d, exact_ray t q p1 l (X q) tm d.
  Proof.
    induction l as [|s l IH]; intros x0 x1 Hl X0 X1.
    - inversion X0; inversion X1; subst. exists (fun _ => 0). split; [intros q _; apply continuity_pt_const; intros ? ?; reflexivity|]. split; [reflexivity|]. split; [reflexivity|].
      intros q _. exists 0, 0. apply er_nil.
    - inversion X0 as [|s0 l0 b u0 v0 Hb U0 V0]; subst. inversion X1 as [|s2 l2 b2 u2 v2 Hb2 U2 V2]; subst.
      assert (b2 = b) by exact (at_index_fun _ _ _ _ Hb2 Hb). subst b2.
      assert (I : In b (tm_P t) \/ In b (tm_S t)) by (unfold leg_branch in Hb; destruct (sg_isP s); [left|right]; exact (nth_error_In _ _ (at_index_pos _ _ _ Hb))).
      apply at_index_nat in U0. apply at_index_nat in U2.
      destruct (Hl s b (or_introl eq_refl) Hb) as [M1 M2].
      destruct (leg_course b u0 u2 I M1 M2 U0 U2) as [X [A1 [A2 [A3 A4]]]].
      destruct (IH v0 v2) as [Y [B1 [B2 [B3 B4]]]]; [intros s' b' Hs Hb'; apply (Hl s'); [right|]; assumption|assumption..|].
      exists (fun q => X q + Y q). split; [intros q Hq; apply continuity_pt_plus; [apply A1|apply B1]; exact Hq|].
      split; [rewrite A2, B2; reflexivity|]. split; [rewrite A3, B3; reflexivity|].
      intros q Hq. destruct (A4 q Hq) as [ta [da Ha]]. destruct (B4 q Hq) as [tb [db Hb']]. exists (ta + tb), (da + db).
      apply (er_cons t q p1 s l b); assumption.
  Qed.

  (** every distance strictly between those of the samples is reached by a ray between them *)
  Lemma ray_between : forall l x0 x1 x, (forall s b, In s l -> leg_branch t s b -> p0 <= tb_maxRP b /\ limit_at_top m b) ->
    legs_total t tb_dist (Z.of_nat n) l x0 -> legs_total t tb_dist (Z.of_nat n') l x1 -> strictly_between x0 x1 x ->
    exists q tm d, p1 < q < p0 /\ exact_ray t q p1 l x tm d.
  Proof.
    intros l x0 x1 x Hl X0 X1 Hx. destruct (legs_course l x0 x1 Hl X0 X1) as [X [C1 [C2 [C3 C4]]]].
    assert (E : exists q, p1 <= q <= p0 /\ X q = x).
    { destruct Hx as [Hx|Hx].
      - destruct (f_interv_is_interv (fun q => - X q) p1 p0 (- x)) as [q [Hq E]]; [exact Hp|rewrite C2, C3; lra|intros q Hq; apply continuity_pt_opp; apply C1; exact Hq|].
        exists q. split; [exact Hq|lra].
      - destruct (f_interv_is_interv X p1 p0 x) as [q [Hq E]]; [exact Hp|rewrite C2, C3; lra|exact C1|]. exists q. split; [exact Hq|exact E]. }
    destruct E as [q [Hq <-]].
    assert (Hq' : p1 < q < p0).
    { split; (destruct Hq as [Q1 Q2]; apply Rle_lt_or_eq_dec in Q1; apply Rle_lt_or_eq_dec in Q2).
      - destruct Q1 as [Q1| <-]; [exact Q1|]. rewrite C3 in Hx. unfold strictly_between in Hx. lra.
      - destruct Q2 as [Q2| ->]; [exact Q2|]. rewrite C2 in Hx. unfold strictly_between in Hx. lra. }
    destruct (C4 q Hq') as [tm [d Hd]]. exists q, tm, d. auto.
  Qed.
End Whole.

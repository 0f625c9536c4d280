(** Lemmas about Bullen's law over the reals. *)
From Coq Require Import Reals Lra Bool List ZArith String Psatz.
From Verif Require Import Base Num SlownessLayer BullenSpec.
Import ListNotations.
Local Open Scope R_scope.

Lemma Rpow_pos : forall x y, 0 < Rpower x y.
Proof. intros. unfold Rpower. apply exp_pos. Qed.

Lemma Rpower_ln : forall x y, ln (Rpower x y) = y * ln x.
Proof. intros. unfold Rpower. apply ln_exp. Qed.

Lemma ln_inj_pos : forall x y, 0 < x -> 0 < y -> ln x = ln y -> x = y.
Proof. intros. apply ln_inv; assumption. Qed.

(** logarithm of the quotient of the radii *)
Lemma ln_ratio_pos : forall a b, 0 < b < a -> 0 < ln (a / b).
Proof.
  intros a b H. rewrite <- ln_1. apply ln_increasing; [lra|].
  apply Rmult_lt_reg_r with b; [lra|]. unfold Rdiv. rewrite Rmult_assoc, Rinv_l by lra. lra.
Qed.
Lemma ln_quot : forall a b, 0 < a -> 0 < b -> ln (a / b) = ln a - ln b.
Proof. intros. unfold Rdiv. rewrite ln_mult by (auto; apply Rinv_0_lt_compat; assumption).
  rewrite ln_Rinv by assumption. lra. Qed.

(** The power law through two points exists and is unique. *)
Lemma power_law_iff : forall l rad A B, thick l rad -> slow_pos l ->
  power_law l rad A B <->
  B = ln (sl_topP l / sl_botP l) / ln ((rad - sl_topDepth l) / (rad - sl_botDepth l)) /\
  A = sl_topP l / Rpower (rad - sl_topDepth l) B.
Proof.
  intros l rad A B [H1 [H2 H3]] [Ht Hb]. unfold power_law.
  set (a := rad - sl_topDepth l) in *. set (b := rad - sl_botDepth l) in *.
  assert (Hab : 0 < b < a) by (unfold a, b; lra).
  pose proof (ln_ratio_pos _ _ Hab) as Hl.
  pose proof (Rpow_pos a B) as Pa. pose proof (Rpow_pos b B) as Pb.
  assert (Hl' : ln a - ln b <> 0) by (rewrite <- ln_quot by lra; lra).
  split.
  - intros [E1 E2]. assert (HA : 0 < A) by (rewrite E1 in Ht; apply Rmult_lt_reg_r with (Rpower a B); lra).
    split; [|rewrite E1; field; lra].
    rewrite !ln_quot by lra. rewrite E1, E2. rewrite !ln_mult by (assumption || lra). rewrite !Rpower_ln.
    replace (ln A + B * ln a - (ln A + B * ln b)) with (B * (ln a - ln b)) by ring. field. assumption.
  - intros [EB EA]. split; [rewrite EA; field; lra|].
    apply ln_inj_pos; [assumption| |].
    + rewrite EA. apply Rmult_lt_0_compat; [apply Rdiv_lt_0_compat|]; assumption.
    + rewrite EA. rewrite ln_mult by (try apply Rdiv_lt_0_compat; assumption).
      rewrite ln_quot by assumption. rewrite !Rpower_ln. rewrite EB.
      rewrite !ln_quot by lra. field. assumption.
Qed.

Lemma thick_exists : forall l rad, thick l rad -> slow_pos l -> exists A B, power_law l rad A B.
Proof. intros. do 2 eexists. apply power_law_iff; eauto. Qed.

Lemma power_A_pos : forall l rad A B, thick l rad -> slow_pos l -> power_law l rad A B -> 0 < A.
Proof.
  intros l rad A B H H0 H1. apply power_law_iff in H1; [|assumption..]. destruct H1 as [_ ->].
  apply Rdiv_lt_0_compat; [apply H0|apply Rpow_pos].
Qed.

Lemma power_B_sign : forall l rad A B, thick l rad -> slow_pos l -> power_law l rad A B ->
  (sl_botP l < sl_topP l -> 0 < B) /\ (sl_topP l < sl_botP l -> B < 0) /\ (sl_topP l = sl_botP l -> B = 0).
Proof.
  intros l rad A B H [Ht Hb] H1. apply power_law_iff in H1; [|exact H|split; assumption].
  destruct H1 as [-> _]. destruct H as [H1 [H2 H3]].
  pose proof (ln_ratio_pos (rad - sl_topDepth l) (rad - sl_botDepth l) ltac:(lra)).
  split; [|split]; intros.
  - apply Rdiv_lt_0_compat; [|assumption]. apply ln_ratio_pos. lra.
  - assert (0 < ln (sl_botP l / sl_topP l)) by (apply ln_ratio_pos; lra).
    rewrite !ln_quot in * by lra. unfold Rdiv.
    assert (I : 0 < / (ln (rad - sl_topDepth l) - ln (rad - sl_botDepth l))) by (apply Rinv_0_lt_compat; lra).
    pose proof (Rmult_lt_0_compat _ _ H4 I) as J. lra.
  - rewrite H0. replace (sl_botP l / sl_botP l) with 1 by (field; lra). rewrite ln_1. unfold Rdiv. ring.
Qed.

(** the slowness inside lies between those at the ends *)
Lemma Rpower_mono : forall x y B, 0 < x -> x < y ->
  (0 < B -> Rpower x B < Rpower y B) /\ (B < 0 -> Rpower y B < Rpower x B) /\ (B = 0 -> Rpower x B = Rpower y B).
Proof.
  intros x y B Hx Hxy. pose proof (ln_increasing x y Hx Hxy). unfold Rpower.
  split; [|split]; intros HB.
  - apply exp_increasing. nra.
  - apply exp_increasing. nra.
  - subst. f_equal. ring.
Qed.

Lemma power_inside : forall l rad A B r, thick l rad -> slow_pos l -> power_law l rad A B ->
  sl_topP l <> sl_botP l -> rad - sl_botDepth l < r < rad - sl_topDepth l ->
  strictly_between (sl_topP l) (sl_botP l) (A * Rpower r B).
Proof.
  intros l rad A B r Hk Hs HP Hne Hr. pose proof (power_A_pos _ _ _ _ Hk Hs HP) as HA.
  destruct (power_B_sign _ _ _ _ Hk Hs HP) as [S1 [S2 _]]. destruct HP as [E1 E2].
  destruct Hk as [K1 [K2 K3]]. unfold strictly_between.
  destruct (Rpower_mono (rad - sl_botDepth l) r B ltac:(lra) ltac:(lra)) as [M1 [M2 _]].
  destruct (Rpower_mono r (rad - sl_topDepth l) B ltac:(lra) ltac:(lra)) as [N1 [N2 _]].
  destruct (Rtotal_order (sl_topP l) (sl_botP l)) as [Hlt|[He|Hgt]]; [|contradiction|].
  - left. specialize (S2 Hlt). specialize (M2 S2). specialize (N2 S2). rewrite E1, E2. split; nra.
  - right. specialize (S1 Hgt). specialize (M1 S1). specialize (N1 S1). rewrite E1, E2. split; nra.
Qed.

Lemma Ratan2_pos : forall p s, 0 < p -> 0 <= s -> Ratan2 p s = PI / 2 - atan (s / p).
Proof.
  intros p s Hp Hs. unfold Ratan2. destruct (Rltb_spec 0 s).
  - assert (E : p / s = / (s / p)) by (field; lra). rewrite E.
    rewrite atan_inv; [reflexivity|]. apply Rdiv_lt_0_compat; assumption.
  - assert (s = 0) by lra. subst. destruct (Rltb_spec 0 0); [lra|]. destruct (Rltb_spec 0 p); [|lra].
    replace (0 / p) with 0 by (field; lra). rewrite atan_0. ring.
Qed.
Lemma Ratan2_0 : forall s, 0 <= s -> Ratan2 0 s = 0.
Proof.
  intros s Hs. unfold Ratan2. destruct (Rltb_spec 0 s).
  - replace (0 / s) with 0 by (field; lra). apply atan_0.
  - destruct (Rltb_spec s 0); [lra|]. destruct (Rltb_spec 0 0); [lra|]. reflexivity.
Qed.

Lemma deriv_power : forall A B r, 0 < r -> derivable_pt_lim (fun r => A * Rpower r B) r (B * (A * Rpower r B) / r).
Proof.
  intros A B r Hr.
  assert (D : derivable_pt_lim (fun x => Rpower x B) r (B * Rpower r (B - 1))) by (apply derivable_pt_lim_power; assumption).
  assert (E : B * (A * Rpower r B) / r = A * (B * Rpower r (B - 1))).
  { replace (Rpower r (B - 1)) with (Rpower r B / r); [field; lra|].
    unfold Rminus. rewrite Rpower_plus, Rpower_Ropp, Rpower_1 by lra. reflexivity. }
  rewrite E. apply (derivable_pt_lim_scal (fun x => Rpower x B)). assumption.
Qed.

Lemma continuity_pt_ext : forall (f g : R -> R) x, (forall z, f z = g z) -> continuity_pt f x -> continuity_pt g x.
Proof.
  intros f g x E H eps He. destruct (H eps He) as [a [Ha Hb]]. exists a. split; [assumption|].
  intros y Hy. rewrite <- !E. apply Hb. assumption.
Qed.

Definition ys (A B r : R) : R := A * Rpower r B.
Definition leg (A B p r : R) : R := sqrt (ys A B r * ys A B r - p * p).

Lemma deriv_leg : forall A B p r, 0 < r -> p * p < ys A B r * ys A B r ->
  derivable_pt_lim (leg A B p) r (B * (ys A B r * ys A B r) / (r * leg A B p r)).
Proof.
  intros A B p r Hr Hp. unfold leg.
  pose proof (deriv_power A B r Hr) as D. fold (ys A B r) in D.
  change (fun r => A * Rpower r B) with (ys A B) in D.
  pose proof (derivable_pt_lim_mult _ _ _ _ _ D D) as D2.
  pose proof (derivable_pt_lim_minus _ _ _ _ _ D2 (derivable_pt_lim_const (p * p) r)) as D3.
  set (s := ys A B r * ys A B r - p * p). assert (Hs : 0 < s) by (unfold s; lra).
  pose proof (derivable_pt_lim_sqrt s Hs) as D4.
  pose proof (derivable_pt_lim_comp _ sqrt _ _ _ D3 D4) as D5.
  unfold comp in D5.
  replace (B * (ys A B r * ys A B r) / (r * sqrt s))
    with (/ (2 * sqrt s) * (B * ys A B r / r * ys A B r + ys A B r * (B * ys A B r / r) - 0)).
  - exact D5.
  - pose proof (sqrt_lt_R0 s Hs). field. lra.
Qed.

Lemma cont_power : forall A B r, 0 < r -> continuity_pt (ys A B) r.
Proof.
  intros. apply derivable_continuous_pt. eexists. apply deriv_power. assumption.
Qed.

Lemma cont_leg : forall A B p r, 0 < r -> p * p <= ys A B r * ys A B r -> continuity_pt (leg A B p) r.
Proof.
  intros A B p r Hr Hp. unfold leg.
  apply (continuity_pt_comp (fun r => ys A B r * ys A B r - p * p) sqrt).
  - apply continuity_pt_minus.
    + apply continuity_pt_mult; apply cont_power; assumption.
    + apply continuity_pt_const. intros x y. reflexivity.
  - apply continuity_pt_sqrt. lra.
Qed.

(** increments of the antiderivatives *)
Lemma integral_time : forall A B p a b, B <> 0 -> 0 < a -> a <= b ->
  (forall r, a <= r <= b -> p * p <= ys A B r * ys A B r) ->
  (forall r, a < r < b -> p * p < ys A B r * ys A B r) ->
  integral (time_rate (ys A B) p) a b ((leg A B p b - leg A B p a) / B).
Proof.
  intros A B p a b HB Ha Hab Hc Hd. exists (fun r => leg A B p r / B). split; [|split].
  - intros r Hr.
    pose proof (deriv_leg A B p r ltac:(lra) (Hd _ Hr)) as D.
    pose proof (derivable_pt_lim_scal _ (/ B) _ _ D) as D2.
    assert (0 < leg A B p r) by (apply sqrt_lt_R0; specialize (Hd _ Hr); lra).
    unfold time_rate. fold (leg A B p r).
    replace (ys A B r * ys A B r / (r * leg A B p r)) with (/ B * (B * (ys A B r * ys A B r) / (r * leg A B p r)))
      by (field; lra).
    eapply derivable_pt_lim_ext; [|exact D2]. intros z. unfold mult_real_fct, Rdiv. ring.
  - intros r Hr. apply (continuity_pt_ext (mult_real_fct (/ B) (leg A B p))).
    + intros z. unfold mult_real_fct, Rdiv. ring.
    + apply continuity_pt_scal. apply cont_leg; [lra|auto].
  - field. assumption.
Qed.

Lemma integral_dist : forall A B p a b, B <> 0 -> 0 < a -> a <= b -> 0 <= p ->
  (forall r, a <= r <= b -> p * p <= ys A B r * ys A B r) ->
  (forall r, a < r < b -> p * p < ys A B r * ys A B r) ->
  integral (dist_rate (ys A B) p) a b ((Ratan2 p (leg A B p a) - Ratan2 p (leg A B p b)) / B).
Proof.
  intros A B p a b HB Ha Hab Hp Hc Hd.
  assert (L0 : forall r, 0 <= leg A B p r) by (intros; apply sqrt_pos).
  destruct (Req_dec p 0) as [->|Hp0].
  - exists (fun _ => 0). split; [|split].
    + intros x Hx. unfold dist_rate. replace (0 / (x * sqrt (ys A B x * ys A B x - 0 * 0))) with 0 by (unfold Rdiv; ring).
      apply derivable_pt_lim_const.
    + intros x Hx. apply continuity_pt_const. intros u v. reflexivity.
    + rewrite !Ratan2_0 by auto. field. assumption.
  - assert (Pp : 0 < p) by lra.
    exists (fun r => / B * atan (leg A B p r * / p)). split; [|split].
    + intros r Hr.
      pose proof (deriv_leg A B p r ltac:(lra) (Hd _ Hr)) as D.
      pose proof (derivable_pt_lim_scal_right _ _ _ (/ p) D) as D1.
      pose proof (derivable_pt_lim_atan (leg A B p r * / p)) as D2.
      pose proof (derivable_pt_lim_comp _ atan _ _ _ D1 D2) as D3.
      pose proof (derivable_pt_lim_scal _ (/ B) _ _ D3) as D4.
      assert (Hl : 0 < leg A B p r) by (apply sqrt_lt_R0; specialize (Hd _ Hr); lra).
      assert (Hsq : leg A B p r * leg A B p r = ys A B r * ys A B r - p * p)
        by (apply sqrt_sqrt; specialize (Hd _ Hr); lra).
      assert (Hy : ys A B r * ys A B r <> 0) by (specialize (Hd _ Hr); nra).
      eapply derivable_pt_lim_ext; [|].
      2:{ replace (dist_rate (ys A B) p r) with
            (/ B * (/ (1 + (leg A B p r * / p) ^ 2) * (B * (ys A B r * ys A B r) / (r * leg A B p r) * / p))); [exact D4|].
          unfold dist_rate. fold (leg A B p r).
          replace (1 + (leg A B p r * / p) ^ 2) with (ys A B r * ys A B r / (p * p)).
          - field. repeat split; try lra. intros E. apply Hy. rewrite E. ring.
          - replace ((leg A B p r * / p) ^ 2)
              with (leg A B p r * leg A B p r / (p * p)) by (field; lra).
            rewrite Hsq. field. lra. }
      intros z. reflexivity.
    + intros r Hr. apply (continuity_pt_ext (mult_real_fct (/ B) (fun r => atan (leg A B p r * / p)))); [reflexivity|].
      apply continuity_pt_scal. apply (continuity_pt_comp (fun r => leg A B p r * / p) atan).
      * apply continuity_pt_mult; [apply cont_leg; [lra|auto]|]. apply continuity_pt_const. intros u v. reflexivity.
      * apply derivable_continuous_pt. apply derivable_pt_atan.
    + rewrite !Ratan2_pos by auto. unfold Rdiv. ring.
Qed.

(** -- the program ------------------------------------------------------------- *)

Lemma lit_thin : @n_lit R _ 1 (-9) = / 1000000000.
Proof. cbn [n_lit Num_R]. rewrite Rlit_neg. change (Z.pow_pos 10 9) with 1000000000%Z. lra. Qed.

Lemma m_log_R : forall x : R, 0 < x -> m_log x = Ok (ln x).
Proof. intros. cbn [m_log Libm_R]. destruct (Rleb_spec x 0); [lra|reflexivity]. Qed.
Lemma m_sqrt_R : forall x : R, 0 <= x -> m_sqrt x = Ok (sqrt x).
Proof. intros. cbn [m_sqrt Libm_R]. destruct (Rltb_spec x 0); [lra|reflexivity]. Qed.

Lemma ys_top : forall l rad A B, power_law l rad A B -> ys A B (rad - sl_topDepth l) = sl_topP l.
Proof. intros l rad A B [H _]. symmetry. exact H. Qed.
Lemma ys_bot : forall l rad A B, power_law l rad A B -> ys A B (rad - sl_botDepth l) = sl_botP l.
Proof. intros l rad A B [_ H]. symmetry. exact H. Qed.

Lemma rays_pass : forall l rad A B p, thick l rad -> slow_pos l -> power_law l rad A B ->
  sl_topP l <> sl_botP l -> 0 <= p <= sl_topP l -> p <= sl_botP l ->
  (forall r, rad - sl_botDepth l <= r <= rad - sl_topDepth l -> p * p <= ys A B r * ys A B r) /\
  (forall r, rad - sl_botDepth l < r < rad - sl_topDepth l -> p * p < ys A B r * ys A B r).
Proof.
  intros l rad A B p Hk Hs HP Hne Hp Hp'.
  assert (I : forall r, rad - sl_botDepth l < r < rad - sl_topDepth l -> p * p < ys A B r * ys A B r).
  { intros r Hr. pose proof (power_inside _ _ _ _ _ Hk Hs HP Hne Hr) as S. fold (ys A B r) in S.
    unfold strictly_between in S. assert (p < ys A B r) by (destruct S; lra). nra. }
  split; [|assumption]. intros r Hr.
  destruct (Req_dec r (rad - sl_botDepth l)) as [->|N1]; [rewrite (ys_bot _ _ _ _ HP); nra|].
  destruct (Req_dec r (rad - sl_topDepth l)) as [->|N2]; [rewrite (ys_top _ _ _ _ HP); nra|].
  apply Rlt_le, I. lra.
Qed.

(** The values computed *)
Definition bullen_time (l : slayer R) (B p : R) : R :=
  (sqrt (sl_topP l * sl_topP l - p * p) - sqrt (sl_botP l * sl_botP l - p * p)) / B.
Definition bullen_dist (l : slayer R) (B p : R) : R :=
  (Ratan2 p (sqrt (sl_botP l * sl_botP l - p * p)) - Ratan2 p (sqrt (sl_topP l * sl_topP l - p * p))) / B.

Lemma Ratan2_anti : forall p s t, 0 <= p -> 0 <= s <= t -> (0 < p \/ 0 < s) -> Ratan2 p t <= Ratan2 p s.
Proof.
  intros p s t Hp Hs Hor. destruct (Req_dec p 0) as [->|Hne].
  - rewrite !Ratan2_0 by lra. lra.
  - rewrite !Ratan2_pos by lra.
    destruct (Req_dec s t) as [->|Hst]; [lra|].
    assert (s / p < t / p) by (apply Rmult_lt_compat_r; [apply Rinv_0_lt_compat|]; lra).
    pose proof (atan_increasing _ _ H). lra.
Qed.

Lemma bullen_values_nonneg : forall l rad A B p, thick l rad -> slow_pos l -> power_law l rad A B ->
  sl_topP l <> sl_botP l -> 0 <= p <= sl_topP l -> p <= sl_botP l ->
  0 <= bullen_time l B p /\ 0 <= bullen_dist l B p.
Proof.
  intros l rad A B p Hk Hs HP Hne Hp Hp'. destruct (power_B_sign _ _ _ _ Hk Hs HP) as [S1 [S2 _]].
  destruct Hs as [Ht Hb]. unfold bullen_time, bullen_dist.
  set (st := sqrt (sl_topP l * sl_topP l - p * p)). set (sb := sqrt (sl_botP l * sl_botP l - p * p)).
  assert (0 <= st) by apply sqrt_pos. assert (0 <= sb) by apply sqrt_pos.
  destruct (Rtotal_order (sl_topP l) (sl_botP l)) as [Hlt|[He|Hgt]]; [|contradiction|].
  - specialize (S2 Hlt).
    assert (st < sb) by (apply sqrt_lt_1; nra).
    assert (NB : / B < 0) by (apply Rinv_lt_0_compat; assumption).
    assert (Ratan2 p sb <= Ratan2 p st).
    { apply Ratan2_anti; try lra. destruct (Req_dec p 0); [|lra]. right. apply sqrt_lt_R0. nra. }
    split; unfold Rdiv; nra.
  - specialize (S1 Hgt).
    assert (sb < st) by (apply sqrt_lt_1; nra).
    assert (NB : 0 < / B) by (apply Rinv_0_lt_compat; assumption).
    assert (Ratan2 p st <= Ratan2 p sb).
    { apply Ratan2_anti; try lra. destruct (Req_dec p 0); [|lra]. right. apply sqrt_lt_R0. nra. }
    split; unfold Rdiv; nra.
Qed.

Lemma bullen_run : forall l rad A B p, thick l rad -> slow_pos l -> power_law l rad A B ->
  sl_topP l <> sl_botP l -> 0 <= p <= sl_topP l -> p <= sl_botP l ->
  bullenRadialSlowness l p rad = Ok (mkTD p (bullen_time l B p) (bullen_dist l B p) 0).
Proof.
  intros l rad A B p Hk Hs HP Hne Hp Hp'.
  pose proof (bullen_values_nonneg _ _ _ _ _ Hk Hs HP Hne Hp Hp') as [V1 V2].
  destruct (power_B_sign _ _ _ _ Hk Hs HP) as [S1 [S2 _]].
  pose proof (proj1 (power_law_iff _ _ _ _ Hk Hs) HP) as [EB _].
  destruct Hk as [K1 [K2 K3]], Hs as [Ht Hb].
  assert (B0 : B <> 0).
  { destruct (Rtotal_order (sl_topP l) (sl_botP l)) as [Hlt|[He|Hgt]]; [specialize (S2 Hlt); lra|contradiction|specialize (S1 Hgt); lra]. }
  unfold bullenRadialSlowness. cbn [n_eqb n_ltb n_sub n_mul Num_R].
  destruct (Reqb_spec (sl_botDepth l) (sl_topDepth l)); [lra|].
  rewrite lit_thin. destruct (Rltb_spec (sl_botDepth l - sl_topDepth l) (/ 1000000000)); [lra|].
  rewrite py_div_R by lra. cbn [bind]. rewrite m_log_R by (apply Rdiv_lt_0_compat; lra). cbn [bind].
  rewrite py_div_R by lra. cbn [bind]. rewrite m_log_R by (apply Rdiv_lt_0_compat; lra). cbn [bind].
  pose proof (ln_ratio_pos (rad - sl_topDepth l) (rad - sl_botDepth l) ltac:(lra)).
  rewrite py_div_R by lra. cbn [bind]. rewrite <- EB.
  rewrite m_sqrt_R by nra. cbn [bind]. rewrite m_sqrt_R by nra. cbn [bind].
  cbn [m_atan2 Libm_R bind]. rewrite py_div_R by assumption. cbn [bind]. rewrite py_div_R by assumption. cbn [bind].
  fold (bullen_time l B p). fold (bullen_dist l B p).
  rewrite n_0_R. cbn [n_isnan]. rewrite (proj2 (Rltb_false _ _) V1), (proj2 (Rltb_false _ _) V2). cbn [orb].
  reflexivity.
Qed.

(** -- derivatives with respect to the ray parameter ------------------------------ *)

Lemma derivable_pt_lim_local : forall (f g : R -> R) x d v, 0 < d -> (forall z, x - d < z < x + d -> f z = g z) ->
  derivable_pt_lim f x v -> derivable_pt_lim g x v.
Proof.
  intros f g x d v Hd E H eps He. destruct (H eps He) as [del Hdel].
  assert (Hm : 0 < Rmin del d) by (apply Rmin_pos; [apply cond_pos|assumption]).
  exists (mkposreal _ Hm). intros h Hh Hl. simpl in Hl.
  pose proof (Rmin_l del d). pose proof (Rmin_r del d).
  rewrite <- !E.
  - apply Hdel; [assumption|]. lra.
  - lra.
  - apply Rabs_def2 in Hl. lra.
Qed.

Lemma deriv_cos_leg : forall a q, q * q < a * a ->
  derivable_pt_lim (fun q => sqrt (a * a - q * q)) q (- q / sqrt (a * a - q * q)).
Proof.
  intros a q H.
  pose proof (derivable_pt_lim_mult _ _ _ _ _ (derivable_pt_lim_id q) (derivable_pt_lim_id q)) as D2.
  pose proof (derivable_pt_lim_minus _ _ _ _ _ (derivable_pt_lim_const (a * a) q) D2) as D3.
  assert (Hs : 0 < a * a - q * q) by lra.
  pose proof (derivable_pt_lim_comp _ sqrt _ _ _ D3 (derivable_pt_lim_sqrt _ Hs)) as D5.
  replace (- q / sqrt (a * a - q * q)) with (/ (2 * sqrt (a * a - q * q)) * (0 - (1 * id q + id q * 1))).
  - exact D5.
  - unfold id. pose proof (sqrt_lt_R0 _ Hs). field. lra.
Qed.

Lemma deriv_angle : forall a q, 0 < q -> q * q < a * a ->
  derivable_pt_lim (fun q => Ratan2 q (sqrt (a * a - q * q))) q (/ sqrt (a * a - q * q)).
Proof.
  intros a q Hq H.
  set (s := sqrt (a * a - q * q)).
  assert (Hs : 0 < s) by (apply sqrt_lt_R0; lra).
  assert (Hsq : s * s = a * a - q * q) by (apply sqrt_sqrt; lra).
  apply (derivable_pt_lim_local (fun q => PI / 2 - atan (sqrt (a * a - q * q) / q)) _ q q); [assumption| |].
  { intros z Hz. symmetry. apply Ratan2_pos; [lra|apply sqrt_pos]. }
  pose proof (deriv_cos_leg a q H) as D1.
  assert (Nq : id q <> 0) by (unfold id; lra).
  pose proof (derivable_pt_lim_div _ _ _ _ _ D1 (derivable_pt_lim_id q) Nq) as D2.
  pose proof (derivable_pt_lim_comp _ atan _ _ _ D2 (derivable_pt_lim_atan _)) as D3.
  pose proof (derivable_pt_lim_minus _ _ _ _ _ (derivable_pt_lim_const (PI / 2) q) D3) as D4.
  match type of D4 with derivable_pt_lim _ _ ?v => replace (/ s) with v end; [exact D4|].
  unfold div_fct, id. fold s.
  replace (1 + (s / q) ^ 2) with (a * a / (q * q)).
  - unfold Rsqr. replace (a * a) with (s * s + q * q) by lra. field. repeat split; nra.
  - replace ((s / q) ^ 2) with (s * s / (q * q)) by (field; lra). rewrite Hsq. field. lra.
Qed.

Lemma deriv_bullen : forall l B p, slow_pos l -> B <> 0 -> 0 < p < sl_topP l -> p < sl_botP l ->
  exists t' x', derivable_pt_lim (bullen_time l B) p t' /\ derivable_pt_lim (bullen_dist l B) p x' /\ t' = p * x'.
Proof.
  intros l B p [Ht Hb] HB Hp Hp'.
  assert (P1 : p * p < sl_topP l * sl_topP l) by nra. assert (P2 : p * p < sl_botP l * sl_botP l) by nra.
  pose proof (deriv_cos_leg (sl_topP l) p P1) as D1. pose proof (deriv_cos_leg (sl_botP l) p P2) as D2.
  pose proof (deriv_angle (sl_topP l) p ltac:(lra) P1) as A1. pose proof (deriv_angle (sl_botP l) p ltac:(lra) P2) as A2.
  pose proof (derivable_pt_lim_scal_right _ _ _ (/ B) (derivable_pt_lim_minus _ _ _ _ _ D1 D2)) as D3.
  pose proof (derivable_pt_lim_scal_right _ _ _ (/ B) (derivable_pt_lim_minus _ _ _ _ _ A2 A1)) as A3.
  do 2 eexists. split; [exact D3|]. split; [exact A3|].
  assert (0 < sqrt (sl_topP l * sl_topP l - p * p)) by (apply sqrt_lt_R0; lra).
  assert (0 < sqrt (sl_botP l * sl_botP l - p * p)) by (apply sqrt_lt_R0; lra).
  field. lra.
Qed.

(** -- evaluateAtBullen and bullenDepthFor ---------------------------------------- *)

Lemma np_div_R : forall a b : R, b <> 0 -> np_div a b = Ok (a / b).
Proof. intros. cbn [np_div Num_R]. destruct (Reqb_spec b 0); [contradiction|reflexivity]. Qed.

Lemma between_prod : forall a b p, strictly_between a b p <-> 0 < (a - p) * (p - b).
Proof.
  intros. unfold strictly_between. split; [intros [H|H]; nra|]. intros H.
  destruct (Rtotal_order a p) as [L|[E|G]]; [left|subst; lra|right]; nra.
Qed.

Lemma evaluate_run : forall l rad A B d, thick l rad -> slow_pos l -> power_law l rad A B ->
  sl_topDepth l <= d <= sl_botDepth l -> evaluateAtBullen l d rad = Ok (ys A B (rad - d)).
Proof.
  intros l rad A B d Hk Hs HP Hd.
  pose proof (proj1 (power_law_iff _ _ _ _ Hk Hs) HP) as [EB EA].
  pose proof (power_A_pos _ _ _ _ Hk Hs HP) as HA.
  destruct Hk as [K1 [K2 K3]]. pose proof Hs as [Ht Hb].
  unfold evaluateAtBullen, guard. cbn [n_eqb n_ltb n_sub n_mul Num_R].
  destruct (Rltb_spec rad (sl_botDepth l)); [lra|]. cbn [negb bind].
  rewrite n_0_R. destruct (Rltb_spec ((sl_topDepth l - d) * (d - sl_botDepth l)) 0); [nra|]. cbn [negb bind].
  destruct (Reqb_spec d (sl_topDepth l)) as [->|N1]; [rewrite (ys_top _ _ _ _ HP); reflexivity|].
  destruct (Reqb_spec d (sl_botDepth l)) as [->|N2]; [rewrite (ys_bot _ _ _ _ HP); reflexivity|].
  rewrite np_div_R by lra. cbn [bind]. rewrite m_log_R by (apply Rdiv_lt_0_compat; lra). cbn [bind].
  rewrite np_div_R by lra. cbn [bind]. rewrite m_log_R by (apply Rdiv_lt_0_compat; lra). cbn [bind].
  pose proof (ln_ratio_pos (rad - sl_topDepth l) (rad - sl_botDepth l) ltac:(lra)).
  rewrite np_div_R by lra. cbn [bind]. rewrite <- EB.
  assert (PW : forall x, 0 < x -> m_nppow x B = Ok (Rpower x B)).
  { intros. cbn [m_nppow Libm_R]. unfold Rpow_e. destruct (Rltb_spec 0 x); [reflexivity|lra]. }
  rewrite PW by lra. cbn [bind]. rewrite np_div_R by (pose proof (Rpow_pos (rad - sl_topDepth l) B); lra). cbn [bind].
  rewrite PW by lra. cbn [bind]. rewrite <- EA. fold (ys A B (rad - d)).
  assert (0 < ys A B (rad - d)) by (apply Rmult_lt_0_compat; [assumption|apply Rpow_pos]).
  destruct (Rltb_spec (ys A B (rad - d)) 0); [lra|]. cbn [n_isnan n_isinf Num_R orb]. reflexivity.
Qed.

(** the depth at which the power law has the value p *)
Lemma depth_of : forall l rad A B p, thick l rad -> slow_pos l -> power_law l rad A B ->
  strictly_between (sl_topP l) (sl_botP l) p ->
  B <> 0 /\ let r := exp (/ B * ln (p / A)) in
  ys A B r = p /\ rad - sl_botDepth l < r < rad - sl_topDepth l.
Proof.
  intros l rad A B p Hk Hs HP Hb.
  pose proof (power_A_pos _ _ _ _ Hk Hs HP) as HA.
  destruct (power_B_sign _ _ _ _ Hk Hs HP) as [S1 [S2 S3]].
  pose proof (ys_top _ _ _ _ HP) as ET. pose proof (ys_bot _ _ _ _ HP) as EBt.
  destruct Hk as [K1 [K2 K3]]. destruct Hs as [P1 P2].
  assert (Pp : 0 < p) by (destruct Hb; lra).
  assert (HB : B <> 0).
  { destruct Hb as [Hb|Hb]; [specialize (S2 ltac:(lra)); lra|specialize (S1 ltac:(lra)); lra]. }
  split; [assumption|]. cbv zeta. set (r := exp (/ B * ln (p / A))).
  assert (Hr : 0 < r) by apply exp_pos.
  assert (E : ys A B r = p).
  { unfold ys, Rpower, r. rewrite ln_exp. replace (B * (/ B * ln (p / A))) with (ln (p / A)) by (field; assumption).
    rewrite exp_ln by (apply Rdiv_lt_0_compat; assumption). field. lra. }
  split; [assumption|].
  assert (M : forall x y, 0 < x -> x < y -> (0 < B -> ys A B x < ys A B y) /\ (B < 0 -> ys A B y < ys A B x)).
  { intros x y Hx Hxy. destruct (Rpower_mono x y B Hx Hxy) as [M1 [M2 _]]. unfold ys.
    split; intros F; [specialize (M1 F)|specialize (M2 F)]; nra. }
  set (b := rad - sl_botDepth l) in *. set (a := rad - sl_topDepth l) in *.
  assert (0 < b < a) by (unfold a, b; lra).
  split.
  - destruct (Rtotal_order b r) as [L|[Eq|G]]; [assumption| |]; exfalso.
    + rewrite <- Eq in E. destruct Hb; lra.
    + destruct (M r b Hr G) as [M1 M2]. destruct Hb as [Hb|Hb].
      * specialize (M2 (S2 ltac:(lra))). lra.
      * specialize (M1 (S1 ltac:(lra))). lra.
  - destruct (Rtotal_order r a) as [L|[Eq|G]]; [assumption| |]; exfalso.
    + rewrite Eq in E. destruct Hb; lra.
    + destruct (M a r ltac:(lra) G) as [M1 M2]. destruct Hb as [Hb|Hb].
      * specialize (M2 (S2 ltac:(lra))). lra.
      * specialize (M1 (S1 ltac:(lra))). lra.
Qed.

Lemma depthFor_run : forall l rad A B p, thick l rad -> slow_pos l -> power_law l rad A B ->
  strictly_between (sl_topP l) (sl_botP l) p -> 0 <= sl_topDepth l ->
  bullenDepthFor l p rad = Ok (rad - exp (/ B * ln (p / A))).
Proof.
  intros l rad A B p Hk Hs HP Hb Htop.
  destruct (depth_of _ _ _ _ _ Hk Hs HP Hb) as [HB [Er Rr]]. set (r := exp (/ B * ln (p / A))) in *.
  pose proof (proj1 (power_law_iff _ _ _ _ Hk Hs) HP) as [EB EA].
  pose proof (power_A_pos _ _ _ _ Hk Hs HP) as HA.
  destruct Hk as [K1 [K2 K3]]. destruct Hs as [P1 P2].
  assert (Pp : 0 < p) by (destruct Hb; lra).
  unfold bullenDepthFor. cbn [n_eqb n_ltb n_leb n_sub n_mul n_add Num_R]. rewrite n_0_R.
  pose proof (proj1 (between_prod _ _ _) Hb) as Hpr.
  destruct (Rleb_spec 0 ((sl_topP l - p) * (p - sl_botP l))); [|lra].
  destruct (Reqb_spec (sl_topDepth l) (sl_botDepth l)); [lra|].
  destruct (Reqb_spec (sl_topP l) p); [destruct Hb; lra|].
  destruct (Reqb_spec (sl_botP l) p); [destruct Hb; lra|].
  destruct (Reqb_spec (sl_botP l) 0); [lra|]. destruct (Reqb_spec (sl_botDepth l) rad); [lra|]. cbn [negb andb].
  assert (T : bullen_tempDepth np_inf l p rad = Ok (rad - r)).
  { unfold bullen_tempDepth. cbn [n_sub n_mul Num_R].
    rewrite py_div_R by lra. cbn [bind]. rewrite m_log_R by (apply Rdiv_lt_0_compat; lra). cbn [bind].
    rewrite py_div_R by lra. cbn [bind]. rewrite m_log_R by (apply Rdiv_lt_0_compat; lra). cbn [bind].
    pose proof (ln_ratio_pos (rad - sl_topDepth l) (rad - sl_botDepth l) ltac:(lra)).
    rewrite np_div_R by lra. cbn [bind]. rewrite <- EB.
    cbn [m_pow Libm_R]. unfold Rpow_e. destruct (Rltb_spec 0 (rad - sl_topDepth l)); [|lra]. cbn [bind].
    pose proof (Rpow_pos (rad - sl_topDepth l) B).
    rewrite np_div_R by lra. cbn [bind]. rewrite <- EA. rewrite np_div_R by assumption. cbn [bind].
    rewrite np_div_R by lra. cbn [bind]. rewrite m_log_R by (apply Rdiv_lt_0_compat; lra). cbn [bind].
    cbn [m_exp Libm_R bind]. rewrite n_1_R. unfold r. repeat f_equal. unfold Rdiv. ring. }
  rewrite T. cbn [bind n_isnan n_isinf Num_R].
  destruct (Rltb_spec (rad - r) (sl_topDepth l)); [lra|]. cbn [andb].
  destruct (Rltb_spec (sl_botDepth l) (rad - r)); [lra|]. cbn [andb orb].
  destruct (Rltb_spec (rad - r) (sl_topDepth l)); [lra|].
  destruct (Rltb_spec (sl_botDepth l) (rad - r)); [lra|].
  destruct (Rltb_spec (rad - r) 0); [lra|]. reflexivity.
Qed.

(** -- splitting a layer ----------------------------------------------------------- *)

Lemma split_power : forall l rad A B d i j, power_law l rad A B ->
  power_law (mkSL i (sl_topP l) (sl_topDepth l) (ys A B (rad - d)) d) rad A B /\
  power_law (mkSL j (ys A B (rad - d)) d (sl_botP l) (sl_botDepth l)) rad A B.
Proof. intros l rad A B d i j [H1 H2]. split; split; cbn; auto; reflexivity. Qed.

(** -- constant velocity ------------------------------------------------------------ *)

(** sine and cosine of the angle of incidence *)
Lemma asin_cos : forall a r, 0 <= a <= r -> 0 < r -> cos (asin (a / r)) = sqrt (r * r - a * a) / r.
Proof.
  intros a r Ha Hr.
  assert (0 <= a / r <= 1).
  { split; [apply Rmult_le_pos; [lra|apply Rlt_le, Rinv_0_lt_compat; lra]|].
    apply Rmult_le_reg_r with r; [lra|]. unfold Rdiv. rewrite Rmult_assoc, Rinv_l by lra. lra. }
  rewrite cos_asin by lra.
  replace (1 - (a / r)²) with ((r * r - a * a) / (r * r)) by (unfold Rsqr; field; lra).
  rewrite sqrt_div by nra. rewrite sqrt_square by lra. reflexivity.
Qed.

Lemma asin_le : forall x y, -1 <= x -> y <= 1 -> x <= y -> asin x <= asin y.
Proof.
  intros x y Hx Hy Hxy. pose proof (asin_bound x). pose proof (asin_bound y).
  destruct (Rle_dec (asin x) (asin y)) as [|Hn]; [assumption|]. exfalso.
  pose proof (sin_increasing_1 (asin y) (asin x) ltac:(lra) ltac:(lra) ltac:(lra) ltac:(lra) ltac:(lra)) as S.
  rewrite !sin_asin in S by lra. lra.
Qed.

Lemma asin_diff : forall a rt rb, 0 <= a <= rb -> 0 < rb < rt ->
  let b := sqrt (rt * rt - a * a) - sqrt (rb * rb - a * a) in
  let x := b * a / (rt * rb) in
  0 <= x <= 1 /\ asin x = asin (a / rb) - asin (a / rt).
Proof.
  intros a rt rb Ha Hr b x.
  assert (Q : forall r, rb <= r -> 0 <= a / r <= 1).
  { intros r Hr'. split; [apply Rmult_le_pos; [lra|apply Rlt_le, Rinv_0_lt_compat; lra]|].
    apply Rmult_le_reg_r with r; [lra|]. unfold Rdiv. rewrite Rmult_assoc, Rinv_l by lra. lra. }
  pose proof (Q rb ltac:(lra)) as Qb. pose proof (Q rt ltac:(lra)) as Qt.
  assert (Le : a / rt <= a / rb).
  { unfold Rdiv. apply Rmult_le_compat_l; [lra|]. apply Rinv_le_contravar; lra. }
  pose proof (asin_bound (a / rb)) as Bb. pose proof (asin_bound (a / rt)) as Bt.
  assert (Pt : 0 <= asin (a / rt)).
  { rewrite <- asin_0. apply asin_le; lra. }
  assert (Pd : asin (a / rt) <= asin (a / rb)).
  { apply asin_le; lra. }
  assert (S : sin (asin (a / rb) - asin (a / rt)) = x).
  { rewrite sin_minus, !sin_asin by lra. rewrite !asin_cos by lra. unfold x, b. field. lra. }
  assert (R1 : 0 <= x <= 1).
  { rewrite <- S. split; [apply sin_ge_0; lra|apply SIN_bound]. }
  split; [assumption|]. rewrite <- S. apply asin_sin. lra.
Qed.

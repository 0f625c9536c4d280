(** Proofs for C56: inequalities between neighbouring rays in one layer. *)
From Coq Require Import ZArith Bool List Reals Lia Lra Psatz.
From Verif Require Import Base Num SlownessLayer SlownessModel SlowSpec TauModel SeismicPhase TauSpec CurveSpec BullenSpec BullenProofs BullenProps ErrSpec ShellProps SlowRealProofs RealRun.
Import ListNotations.
Local Open Scope list_scope.
Local Open Scope R_scope.

(** ** Fermat: crossing rays *)
Lemma rate_ineq : forall (u : R -> R) p q r, 0 < r -> 0 <= p < u r -> 0 <= q < u r ->
  time_rate u q r - q * dist_rate u q r <= time_rate u p r - q * dist_rate u p r.
Proof.
  intros u p q r Hr Hp Hq. unfold time_rate, dist_rate. set (v := u r) in *.
  assert (Pp : 0 < v * v - p * p) by nra. assert (Pq : 0 < v * v - q * q) by nra.
  set (sp := sqrt (v * v - p * p)). set (sq := sqrt (v * v - q * q)).
  assert (Sp : 0 < sp) by (apply sqrt_lt_R0; exact Pp). assert (Sq : 0 < sq) by (apply sqrt_lt_R0; exact Pq).
  assert (Ep : sp * sp = v * v - p * p) by (apply sqrt_sqrt; lra). assert (Eq : sq * sq = v * v - q * q) by (apply sqrt_sqrt; lra).
  assert (K : sq * sp <= v * v - q * p).
  { apply Rsqr_incr_0; [|nra|nra]. unfold Rsqr.
    replace (sq * sp * (sq * sp)) with ((sq * sq) * (sp * sp)) by ring. rewrite Ep, Eq.
    pose proof (Rle_0_sqr (v * (p - q))) as G. unfold Rsqr in G. lra. }
  replace (v * v / (r * sq) - q * (q / (r * sq))) with ((sq * sq) / (r * sq)) by (rewrite Eq; field; lra).
  replace (v * v / (r * sp) - q * (p / (r * sp))) with ((v * v - q * p) / (r * sp)) by (field; lra).
  replace (sq * sq / (r * sq)) with ((sq * sp) / (r * sp)) by (field; lra).
  apply Rmult_le_compat_r; [|exact K]. left. apply Rinv_0_lt_compat. nra.
Qed.

Lemma never_rises : forall (F f : R -> R) a b, a <= b ->
  (forall x, a < x < b -> derivable_pt_lim F x (f x)) -> (forall x, a <= x <= b -> continuity_pt F x) ->
  (forall x, a < x < b -> f x <= 0) -> F b <= F a.
Proof.
  intros F f a b Hab D C Hf. destruct (Req_dec a b) as [->|Ne]; [lra|]. assert (Lt : a < b) by lra.
  assert (pr : forall c, a < c < b -> derivable_pt F c) by (intros c Hc; exists (f c); apply D; exact Hc).
  assert (pi : forall c, a < c < b -> derivable_pt id c) by (intros c Hc; apply derivable_pt_id).
  destruct (MVT F id a b pr pi Lt C) as [c [P E]].
  { intros c _. apply derivable_continuous_pt, derivable_pt_id. }
  assert (E1 : derive_pt F c (pr c P) = f c) by (apply derive_pt_eq_0; apply D; exact P).
  assert (E2 : derive_pt id c (pi c P) = 1) by (apply derive_pt_eq_0; apply derivable_pt_lim_id).
  rewrite E1, E2 in E. unfold id in E. pose proof (Hf c P). nra.
Qed.

Lemma fermat : forall (u : R -> R) p q a b xp tp xq tq, 0 <= a -> a <= b -> 0 <= p -> 0 <= q ->
  (forall r, a < r < b -> p < u r /\ q < u r) ->
  ray_part u p a b xp tp -> ray_part u q a b xq tq -> tq - q * xq <= tp - q * xp.
Proof.
  intros u p q a b xp tp xq tq Ha Hab Hp Hq Hu [[Xp [X1 [X2 X3]]] [Tp [T1 [T2 T3]]]] [[Xq [Y1 [Y2 Y3]]] [Tq [S1 [S2 S3]]]].
  set (F := ((Tq - mult_real_fct q Xq) - (Tp - mult_real_fct q Xp))%F).
  assert (K : F b <= F a).
  { apply (never_rises F (fun r => (time_rate u q r - q * dist_rate u q r) - (time_rate u p r - q * dist_rate u p r)) a b Hab).
    - intros r Hr. apply derivable_pt_lim_minus; apply derivable_pt_lim_minus; auto; apply derivable_pt_lim_scal; auto.
    - intros r Hr. apply continuity_pt_minus; apply continuity_pt_minus; auto; apply continuity_pt_scal; auto.
    - intros r Hr. destruct (Hu r Hr) as [U1 U2]. pose proof (rate_ineq u p q r ltac:(lra) (conj Hp U1) (conj Hq U2)). lra. }
  unfold F, minus_fct, mult_real_fct in K. subst. lra.
Qed.

(** ** turning rays *)
Lemma sin_concave : forall a b, 0 <= a <= PI -> 0 <= b <= PI -> sin a - sin b <= cos b * (a - b).
Proof.
  intros a b Ha Hb. destruct (Rtotal_order a b) as [H|[->|H]]; [|lra|].
  - destruct (MVT_cor2 sin cos a b H) as [c [E Hc]]; [intros; apply derivable_pt_lim_sin|].
    assert (cos b <= cos c) by (apply cos_decr_1; lra). nra.
  - destruct (MVT_cor2 sin cos b a H) as [c [E Hc]]; [intros; apply derivable_pt_lim_sin|].
    assert (cos c <= cos b) by (apply cos_decr_1; lra). nra.
Qed.
Lemma Ratan2_polar : forall v i, 0 < v -> 0 <= i <= PI / 2 -> Ratan2 (v * sin i) (v * cos i) = i.
Proof.
  intros v i Hv Hi. pose proof PI_RGT_0.
  destruct (Req_dec i 0) as [->|N].
  - rewrite sin_0, cos_0. replace (v * 0) with 0 by ring. apply Ratan2_0. lra.
  - assert (Si : 0 < sin i) by (apply sin_gt_0; lra). assert (Ci : 0 <= cos i) by (apply cos_ge_0; lra).
    rewrite Ratan2_pos by nra. replace (v * cos i / (v * sin i)) with (tan (PI / 2 - i)).
    + rewrite atan_tan by lra. ring.
    + unfold tan. rewrite sin_shift, cos_shift. field. lra.
Qed.
Lemma angle_of : forall p v, 0 <= p <= v -> 0 < v -> exists a, 0 <= a <= PI / 2 /\ p = v * cos a /\ sqrt (v * v - p * p) = v * sin a.
Proof.
  intros p v Hp Hv. pose proof PI_RGT_0. exists (acos (p / v)).
  assert (B : 0 <= p / v <= 1).
  { split; [apply Rle_mult_inv_pos; lra|]. apply Rmult_le_reg_r with v; [lra|]. unfold Rdiv. rewrite Rmult_assoc, Rinv_l by lra. lra. }
  assert (C : cos (acos (p / v)) = p / v) by (apply cos_acos; lra).
  assert (A : 0 <= acos (p / v) <= PI) by apply acos_bound.
  assert (A' : acos (p / v) <= PI / 2).
  { destruct (Rle_or_lt (acos (p / v)) (PI / 2)); [assumption|]. assert (cos (acos (p / v)) < 0) by (apply cos_lt_0; lra). lra. }
  repeat split; try lra.
  - rewrite C. field. lra.
  - assert (S0 : 0 <= sin (acos (p / v))) by (apply sin_ge_0; lra).
    replace (v * v - p * p) with ((v * sin (acos (p / v))) * (v * sin (acos (p / v)))).
    + apply sqrt_square. nra.
    + pose proof (sin2_cos2 (acos (p / v))) as E. unfold Rsqr in E. rewrite C in E.
      assert (Ep : p * p = v * v * (p / v * (p / v))) by (field; lra). rewrite Ep. nra.
Qed.

(** ** the law of a layer *)
Lemma integral_ext : forall (f g : R -> R) a b v, (forall x, a < x < b -> f x = g x) -> integral f a b v -> integral g a b v.
Proof. intros f g a b v E [F [D [C V]]]. exists F. split; [|split; assumption]. intros x Hx. rewrite <- E by exact Hx. apply D. exact Hx. Qed.
Lemma ray_part_ext : forall (u u' : R -> R) p a b x tm, (forall r, a < r < b -> u r = u' r) -> ray_part u p a b x tm -> ray_part u' p a b x tm.
Proof.
  intros u u' p a b x tm E [H1 H2]. split; (eapply integral_ext; [|eassumption]); intros r Hr; cbv beta; unfold dist_rate, time_rate; rewrite (E r Hr); reflexivity.
Qed.
Lemma ray_part_unique : forall u p a b x tm x' tm', a <= b -> ray_part u p a b x tm -> ray_part u p a b x' tm' -> x' = x /\ tm' = tm.
Proof. intros u p a b x tm x' tm' Hab [H1 H2] [H3 H4]. split; eapply integral_unique; eassumption. Qed.

Lemma ys_1 : forall A r, 0 < r -> ys A 1 r = A * r.
Proof. intros A r Hr. unfold ys. rewrite Rpower_1 by exact Hr. reflexivity. Qed.

Lemma plain_law : forall m y u, plain_layer m y -> slow_law y (sm_radius m) u ->
  exists A B, power_law y (sm_radius m) A B /\ B <> 0 /\ (sl_botP y < sl_topP y -> 0 < B) /\ forall r, u r = ys A B r.
Proof.
  intros m y u [Hk [Hs [Hne _]]] [[_ [A [B [HP E]]]]|[E _]]; [|destruct Hk; lra].
  exists A, B. destruct (power_B_sign _ _ _ _ Hk Hs HP) as [S1 [S2 _]]. split; [exact HP|]. split; [|split; [|exact E]].
  - intros ->. destruct (Rtotal_order (sl_topP y) (sl_botP y)) as [Hlt|[He|Hgt]]; [specialize (S2 Hlt)|contradiction|specialize (S1 Hgt)]; lra.
  - intros H. apply S1. lra.
Qed.
Lemma power_law_unique : forall y rad A B A' B', thick y rad -> slow_pos y -> power_law y rad A B -> power_law y rad A' B' -> A' = A /\ B' = B.
Proof.
  intros y rad A B A' B' Hk Hs H H'. apply (power_law_iff _ _ _ _ Hk Hs) in H, H'. destruct H as [-> ->], H' as [-> ->]. auto.
Qed.

(** ** what the code computes for a layer *)
Lemma layer_range : forall (m : smodel R) p k w y td, getSlownessLayer m k w = Ok y -> layerTimeDist m p k w = Ok td ->
  0 <= p /\ p <= sl_topP y /\ p <= sl_botP y.
Proof.
  intros m p k w y td Hy H. unfold layerTimeDist in H. rewrite Hy in H. cbn [bind] in H.
  unfold py_max, py_min in H. cbn [n_ltb Num_R] in H. rewrite n_0_R in H.
  destruct (Rltb_spec (sl_topP y) (sl_botP y)), (Rltb_spec (sl_botP y) (sl_topP y)); try lra;
    destruct (Rltb_spec (sl_topP y) p), (Rltb_spec (sl_botP y) p), (Rltb_spec p 0); try discriminate; lra.
Qed.
Lemma layer_flat : forall (m : smodel R) p k w y td, getSlownessLayer m k w = Ok y -> sl_topDepth y = sl_botDepth y ->
  layerTimeDist m p k w = Ok td -> td_time td = 0 /\ td_dist td = 0.
Proof.
  intros m p k w y td Hy E H. unfold layerTimeDist in H. rewrite Hy in H. cbn [bind] in H.
  do 3 (match type of H with (if ?c then _ else _) = _ => destruct c; [discriminate|] end).
  rewrite (proj2 (Reqb_eq _ _) E) in H. injection H as <-. unfold td_new. cbn [td_time td_dist]. rewrite n_0_R. auto.
Qed.
Lemma layer_bullen : forall (m : smodel R) p k w y td, getSlownessLayer m k w = Ok y -> plain_layer m y ->
  ~ Rabs ((sm_radius m - sl_topDepth y) / sl_topP y - (sm_radius m - sl_botDepth y) / sl_botP y) < sm_tolerance m ->
  layerTimeDist m p k w = Ok td -> bullenRadialSlowness y p (sm_radius m) = Ok td.
Proof.
  intros m p k w y td Hy [[K1 [K2 K3]] [[P1 P2] _]] Hn H. unfold layerTimeDist in H. rewrite Hy in H. cbn [bind] in H.
  do 3 (match type of H with (if ?c then _ else _) = _ => destruct c; [discriminate|] end).
  cbn [n_eqb n_sub n_ltb n_abs Num_R] in H.
  destruct (Reqb_spec (sl_topDepth y) (sl_botDepth y)); [lra|]. destruct (Reqb_spec (sl_botDepth y) (sm_radius m)); [lra|].
  rewrite andb_false_r in H. rewrite py_div_R in H by lra. cbn [bind] in H. rewrite py_div_R in H by lra. cbn [bind] in H.
  rewrite (proj2 (Rltb_false _ _)) in H; [exact H|]. apply Rnot_lt_le. exact Hn.
Qed.
Lemma chord_values : forall a rt rb v x len, 0 < v -> 0 < rb < rt -> chord a rt rb x len ->
  len / v = sqrt (rt / v * (rt / v) - a / v * (a / v)) - sqrt (rb / v * (rb / v) - a / v * (a / v)) /\
  x = Ratan2 (a / v) (sqrt (rb / v * (rb / v) - a / v * (a / v))) - Ratan2 (a / v) (sqrt (rt / v * (rt / v) - a / v * (a / v))).
Proof.
  intros a rt rb v x len Hv Hr [[it [ib [H0 [H1 [H2 [Et [Eb Ex]]]]]]] Hd]. pose proof PI_RGT_0.
  assert (Sq : forall r i, 0 < r -> 0 <= i <= PI / 2 -> r * sin i = a -> sqrt (r / v * (r / v) - a / v * (a / v)) = r / v * cos i).
  { intros r i Hr0 Hi E. assert (Ci : 0 <= cos i) by (apply cos_ge_0; lra).
    replace (r / v * (r / v) - a / v * (a / v)) with ((r / v * cos i) * (r / v * cos i)).
    - apply sqrt_square. apply Rmult_le_pos; [|exact Ci]. apply Rlt_le. apply Rdiv_lt_0_compat; lra.
    - rewrite <- E. pose proof (sin2_cos2 i) as S. unfold Rsqr in S.
      replace (r / v * (r / v) - r * sin i / v * (r * sin i / v)) with (r / v * (r / v) * (1 - sin i * sin i)) by (field; lra).
      replace (1 - sin i * sin i) with (cos i * cos i) by lra. ring. }
  rewrite (Sq rt it), (Sq rb ib) by (try assumption; lra). split.
  - replace (rt / v * cos it - rb / v * cos ib) with ((rt * cos it - rb * cos ib) / v) by (field; lra). f_equal. rewrite <- Hd.
    apply dist_euc_polar.
    + assert (cos ib <= cos it) by (apply cos_decr_1; lra). assert (0 <= cos ib) by (apply cos_ge_0; lra). nra.
    + subst x. rewrite cos_minus. pose proof (sin2_cos2 it) as S1. pose proof (sin2_cos2 ib) as S2. unfold Rsqr in S1, S2.
      assert (E : rt * sin it = rb * sin ib) by lra.
      assert (E2 : (rt * sin it - rb * sin ib) * (rt * sin it - rb * sin ib) = 0) by (rewrite E; ring). nra.
  - replace (a / v) with (rb / v * sin ib) at 1 by (rewrite <- Eb; field; lra).
    replace (a / v) with (rt / v * sin it) by (rewrite <- Et; field; lra).
    rewrite !Ratan2_polar by (try (apply Rdiv_lt_0_compat; lra); lra). lra.
Qed.
Lemma plain_values : forall (m : smodel R) p k w y A B td, getSlownessLayer m k w = Ok y -> plain_layer m y ->
  power_law y (sm_radius m) A B -> layerTimeDist m p k w = Ok td ->
  td_time td = bullen_time y B p /\ td_dist td = bullen_dist y B p.
Proof.
  intros m p k w y A B td Hy Hpl HP H. destruct (layer_range _ _ _ _ _ _ Hy H) as [R1 [R2 R3]].
  destruct (Rlt_dec (Rabs ((sm_radius m - sl_topDepth y) / sl_topP y - (sm_radius m - sl_botDepth y) / sl_botP y)) (sm_tolerance m)) as [Hc|Hc].
  - destruct Hpl as [Hk [Hs [Hne Ht]]]. destruct (Ht Hc) as [E Tol]. destruct Hk as [K1 [K2 K3]]. destruct Hs as [P1 P2].
    set (rt := sm_radius m - sl_topDepth y) in *. set (rb := sm_radius m - sl_botDepth y) in *.
    assert (Hr : 0 < rb < rt) by (unfold rt, rb; lra). set (v := rb / sl_botP y).
    assert (V0 : 0 < v) by (unfold v; apply Rdiv_lt_0_compat; lra).
    destruct (proj1 (C19_straight_ray m k w y p Hy (conj P1 P2) Hr Hc Tol) (conj (conj R1 R2) R3)) as [td' [E' [_ [_ [_ [_ Ch]]]]]].
    assert (td' = td) by congruence. subst td'. fold rb v in Ch.
    destruct (chord_values _ _ _ v _ _ V0 Hr Ch) as [C1 C2].
    assert (Ep : p * v / v = p) by (field; lra). rewrite Ep in C1, C2.
    assert (Eb : rb / v = sl_botP y) by (unfold v; field; lra).
    assert (Et : rt / v = sl_topP y) by (unfold v; rewrite <- E; field; lra). rewrite Eb, Et in C1, C2.
    assert (PL : power_law y (sm_radius m) (/ v) 1).
    { split; rewrite Rpower_1 by (unfold rt, rb in Hr; lra); fold rt rb; [rewrite <- Et|rewrite <- Eb]; field; lra. }
    destruct (power_law_unique y (sm_radius m) _ _ _ _ (conj K1 (conj K2 K3)) (conj P1 P2) PL HP) as [_ ->].
    unfold bullen_time, bullen_dist. split.
    + replace (td_time td) with (v * td_time td / v) by (field; lra). rewrite C1. field.
    + rewrite C2. field.
  - pose proof (layer_bullen _ _ _ _ _ _ Hy Hpl Hc H) as Hb. destruct Hpl as [Hk [Hs [Hne _]]].
    rewrite (bullen_run _ _ _ _ _ Hk Hs HP Hne (conj R1 R2) R3) in Hb. injection Hb as <-. auto.
Qed.
(** the same as integrals *)
Lemma plain_integrals : forall (m : smodel R) p k w y u td, getSlownessLayer m k w = Ok y -> plain_layer m y ->
  slow_law y (sm_radius m) u -> layerTimeDist m p k w = Ok td ->
  ray_part u p (sm_radius m - sl_botDepth y) (sm_radius m - sl_topDepth y) (td_dist td) (td_time td).
Proof.
  intros m p k w y u td Hy Hpl Hu H. destruct (layer_range _ _ _ _ _ _ Hy H) as [R1 [R2 R3]].
  destruct (plain_law _ _ _ Hpl Hu) as [A [B [HP [B0 [_ E]]]]]. destruct (plain_values _ _ _ _ _ _ _ _ Hy Hpl HP H) as [-> ->].
  destruct Hpl as [Hk [Hs [Hne _]]]. destruct (rays_pass _ _ _ _ _ Hk Hs HP Hne (conj R1 R2) R3) as [U1 U2]. destruct Hk as [K1 [K2 K3]].
  apply (ray_part_ext (ys A B)); [intros r _; symmetry; apply E|]. unfold bullen_time, bullen_dist. split.
  - pose proof (integral_dist A B p (sm_radius m - sl_botDepth y) (sm_radius m - sl_topDepth y) B0 ltac:(lra) ltac:(lra) R1 U1 U2) as I. unfold leg in I. rewrite (ys_top _ _ _ _ HP), (ys_bot _ _ _ _ HP) in I. exact I.
  - pose proof (integral_time A B p (sm_radius m - sl_botDepth y) (sm_radius m - sl_topDepth y) B0 ltac:(lra) ltac:(lra) U1 U2) as I. unfold leg in I. rewrite (ys_top _ _ _ _ HP), (ys_bot _ _ _ _ HP) in I. exact I.
Qed.

(** ** the layer in which a ray turns *)
Definition coef (y : slayer R) (rad B : R) : Prop :=
  (sl_botDepth y < rad /\ exists A, power_law y rad A B) \/ (sl_botDepth y = rad /\ B = 1).
Lemma law_coef : forall m y u, plain_layer m y \/ centre_layer m y -> sl_botP y < sl_topP y -> slow_law y (sm_radius m) u ->
  exists A B, coef y (sm_radius m) B /\ 0 < B /\ 0 < A /\ (forall r, 0 < r -> u r = ys A B r) /\
    ys A B (sm_radius m - sl_topDepth y) = sl_topP y.
Proof.
  intros m y u [Hpl|[C1 [C2 [C3 C4]]]] Hf Hu.
  - destruct (plain_law _ _ _ Hpl Hu) as [A [B [HP [B0 [Bp E]]]]]. destruct Hpl as [Hk [Hs _]]. exists A, B.
    split; [left; split; [apply Hk|eauto]|]. split; [auto|]. split; [eapply power_A_pos; eassumption|]. split; [intros r _; apply E|].
    apply (ys_top _ _ _ _ HP).
  - destruct Hu as [[Hu _]|[_ E]]; [lra|]. exists (sl_topP y / (sm_radius m - sl_topDepth y)), 1.
    split; [right; auto|]. split; [lra|]. split; [apply Rdiv_lt_0_compat; lra|]. split.
    + intros r Hr. rewrite E, ys_1 by exact Hr. reflexivity.
    + rewrite ys_1 by lra. field. lra.
Qed.
Lemma coef_unique : forall m y B B', plain_layer m y \/ centre_layer m y -> coef y (sm_radius m) B -> coef y (sm_radius m) B' -> B' = B.
Proof.
  intros m y B B' Hy [[H1 [A HP]]|[H1 ->]] [[H2 [A' HP']]|[H2 ->]]; try lra.
  destruct Hy as [[Hk [Hs _]]|[_ [C _]]]; [|lra]. destruct (power_law_unique _ _ _ _ _ _ Hk Hs HP HP'). assumption.
Qed.
Lemma turn_values : forall m y u p z x tm B, plain_layer m y \/ centre_layer m y -> slow_law y (sm_radius m) u ->
  sl_botP y < p <= sl_topP y -> 0 < p -> sm_radius m - sl_botDepth y <= z <= sm_radius m - sl_topDepth y -> u z = p ->
  ray_part u p z (sm_radius m - sl_topDepth y) x tm -> coef y (sm_radius m) B ->
  0 < B /\ exists a, 0 <= a <= PI / 2 /\ p = sl_topP y * cos a /\ x = a / B /\ tm = sl_topP y * sin a / B.
Proof.
  intros m y u p z x tm B Hy Hu Hp P0 Hz Ez Hr Hc. set (rt := sm_radius m - sl_topDepth y) in *.
  destruct (law_coef m y u Hy ltac:(lra) Hu) as [A [B' [Hc' [B0 [A0 [E Et]]]]]]. fold rt in Et.
  rewrite (coef_unique _ _ _ _ Hy Hc' Hc). clear B Hc. rename B' into B. split; [exact B0|].
  assert (Z0 : 0 < z).
  { destruct Hy as [[[K1 _] _]|C]; [lra|]. destruct Hu as [[Hu _]|[_ Eu]]; [destruct C as [_ [C _]]; lra|].
    rewrite Eu in Ez. destruct C as [C1 [C2 [C3 C4]]].
    assert (K : 0 < sl_topP y / (sm_radius m - sl_topDepth y)) by (apply Rdiv_lt_0_compat; lra).
    destruct (Rle_or_lt z 0); [|assumption]. assert (sl_topP y / (sm_radius m - sl_topDepth y) * z <= 0) by nra. lra. }
  assert (Ezy : ys A B z = p) by (rewrite <- E by exact Z0; exact Ez).
  assert (Mono : forall r, z < r -> p < ys A B r).
  { intros r Hzr. rewrite <- Ezy. unfold ys. apply Rmult_lt_compat_l; [exact A0|]. apply (Rpower_mono z r B Z0 Hzr). exact B0. }
  assert (U1 : forall r, z <= r <= rt -> p * p <= ys A B r * ys A B r).
  { intros r Hr'. destruct (Req_dec r z) as [->|N]; [rewrite Ezy; lra|]. pose proof (Mono r ltac:(lra)). nra. }
  assert (U2 : forall r, z < r < rt -> p * p < ys A B r * ys A B r).
  { intros r Hr'. pose proof (Mono r ltac:(lra)). nra. }
  apply (ray_part_ext u (ys A B)) in Hr; [|intros r Hr'; apply E; lra].
  pose proof (integral_dist A B p z rt ltac:(lra) Z0 ltac:(lra) ltac:(lra) U1 U2) as I1.
  pose proof (integral_time A B p z rt ltac:(lra) Z0 ltac:(lra) U1 U2) as I2.
  destruct (ray_part_unique (ys A B) p z rt _ _ x tm ltac:(lra) (conj I1 I2) Hr) as [Ex Etm].
  unfold leg in Ex, Etm. rewrite Ezy, Et in Ex, Etm. replace (p * p - p * p) with 0 in Ex, Etm by ring. rewrite sqrt_0 in Ex, Etm.
  destruct (angle_of p (sl_topP y) ltac:(lra) ltac:(lra)) as [a [Ha [Ep Es]]]. exists a. split; [exact Ha|]. split; [exact Ep|].
  rewrite Es in Ex, Etm. split; [|rewrite Etm; field; lra].
  rewrite Ex. rewrite (Ratan2_pos p 0) by lra. replace (0 / p) with 0 by (field; lra). rewrite atan_0.
  rewrite Ep. replace (sl_topP y * cos a) with (sl_topP y * sin (PI / 2 - a)) by (rewrite sin_shift; reflexivity).
  replace (sl_topP y * sin a) with (sl_topP y * cos (PI / 2 - a)) by (rewrite cos_shift; reflexivity).
  rewrite Ratan2_polar by lra. field. lra.
Qed.
Lemma turn_sample : forall m k w y q td B, getSlownessLayer m k w = Ok y -> plain_layer m y \/ centre_layer m y ->
  sl_botP y < sl_topP y -> sl_botP y = q -> layerTimeDist m q k w = Ok td -> coef y (sm_radius m) B ->
  exists a, 0 <= a <= PI / 2 /\ q = sl_topP y * cos a /\ td_dist td = a / B /\ td_time td = sl_topP y * sin a / B.
Proof.
  intros m k w y q td B Hg Hy Hf Eq H Hc. destruct Hy as [Hpl|C].
  - destruct Hc as [[_ [A HP]]|[Hc _]]; [|destruct Hpl as [[K _] _]; lra].
    destruct (plain_values _ _ _ _ _ _ _ _ Hg Hpl HP H) as [-> ->]. destruct Hpl as [Hk [[P1 P2] _]].
    destruct (power_B_sign _ _ _ _ Hk (conj P1 P2) HP) as [S1 _]. specialize (S1 Hf).
    destruct (angle_of q (sl_topP y) ltac:(lra) ltac:(lra)) as [a [Ha [Ep Es]]]. exists a. split; [exact Ha|]. split; [exact Ep|].
    unfold bullen_time, bullen_dist. rewrite Es. replace (sl_botP y * sl_botP y - q * q) with 0 by (rewrite Eq; ring). rewrite sqrt_0.
    split; [|field; lra]. rewrite (Ratan2_pos q 0) by lra. replace (0 / q) with 0 by (field; lra). rewrite atan_0.
    rewrite Ep. replace (sl_topP y * cos a) with (sl_topP y * sin (PI / 2 - a)) by (rewrite sin_shift; reflexivity).
    replace (sl_topP y * sin a) with (sl_topP y * cos (PI / 2 - a)) by (rewrite cos_shift; reflexivity).
    rewrite Ratan2_polar by lra. field. lra.
  - destruct C as [C1 [C2 [C3 C4]]]. destruct Hc as [[Hc _]|[_ ->]]; [lra|].
    destruct (C19_centre m k w y q Hg C1 C2 C3 C4) as [X1 X2].
    assert (Q0 : q = 0) by lra.
    assert (K : k = (sm_numLayers m w - 1)%Z).
    { destruct (Z.eq_dec k (sm_numLayers m w - 1)); [assumption|]. rewrite (X2 (or_intror n)) in H. discriminate. }
    rewrite (X1 Q0 K) in H. injection H as <-. cbn [td_time td_dist]. exists (PI / 2). pose proof PI_RGT_0.
    rewrite cos_PI2, sin_PI2. repeat split; lra.
Qed.

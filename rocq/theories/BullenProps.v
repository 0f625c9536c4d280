(** Properties C15-C18: rays in a layer whose slowness follows Bullen's law. *)
From Coq Require Import Reals Lra Bool List ZArith String Psatz.
From Verif Require Import Base Num SlownessLayer BullenSpec BullenProofs.
Import ListNotations.
Local Open Scope R_scope.

(** the integral of the specification is unique *)
Lemma integral_unique : forall f a b v w, a <= b -> integral f a b v -> integral f a b w -> v = w.
Proof.
  intros f a b v w Hab [F [F1 [F2 ->]]] [G [G1 [G2 ->]]].
  set (H := fun x => F x - G x).
  assert (pr : forall x, a < x < b -> derivable_pt H x).
  { intros x Hx. exists (f x - f x). apply derivable_pt_lim_minus; auto. }
  assert (K : constant_D_eq H (fun x => a <= x <= b) (H a)).
  { apply (null_derivative_loc H a b pr).
    - intros x Hx. apply continuity_pt_minus; auto.
    - intros x P. apply derive_pt_eq_0. replace 0 with (f x - f x) by ring. apply derivable_pt_lim_minus; auto. }
  specialize (K b ltac:(lra)). unfold H in K. lra.
Qed.

Lemma bullen_negative : forall l rad p, thick l rad -> slow_pos l -> sl_topP l <> sl_botP l -> p < 0 ->
  exists e, bullenRadialSlowness l p rad = Raise e.
Proof.
  intros l rad p Hk Hs Hne Hp.
  destruct (thick_exists _ _ Hk Hs) as [A [B HP]].
  destruct (power_B_sign _ _ _ _ Hk Hs HP) as [S1 [S2 _]].
  pose proof (proj1 (power_law_iff _ _ _ _ Hk Hs) HP) as [EB _].
  destruct Hk as [K1 [K2 K3]], Hs as [Ht Hb].
  assert (B0 : B <> 0).
  { destruct (Rtotal_order (sl_topP l) (sl_botP l)) as [Hlt|[He|Hgt]]; [specialize (S2 Hlt); lra|contradiction|specialize (S1 Hgt); lra]. }
  unfold bullenRadialSlowness. cbn [n_eqb n_ltb n_sub n_mul Num_R].
  destruct (Reqb_spec (sl_botDepth l) (sl_topDepth l)); [lra|].
  rewrite lit_thin. destruct (Rltb_spec (sl_botDepth l - sl_topDepth l) (/ 1000000000)); [lra|].
  rewrite py_div_R by lra. cbn [bind]. rewrite m_log_R by (apply Rdiv_lt_0_compat; lra). cbn [bind].
  rewrite py_div_R by lra. cbn [bind]. rewrite m_log_R by (apply Rdiv_lt_0_compat; lra). cbn [bind].
  pose proof (ln_ratio_pos (rad - sl_topDepth l) (rad - sl_botDepth l) ltac:(lra)).
  rewrite py_div_R by lra. cbn [bind]. rewrite <- EB.
  destruct (Rlt_dec (sl_topP l * sl_topP l - p * p) 0) as [L|L].
  { cbn [m_sqrt Libm_R]. destruct (Rltb_spec (sl_topP l * sl_topP l - p * p) 0); [|lra]. cbn [bind]. eauto. }
  rewrite (m_sqrt_R (sl_topP l * sl_topP l - p * p)) by lra. cbn [bind].
  destruct (Rlt_dec (sl_botP l * sl_botP l - p * p) 0) as [L'|L'].
  { cbn [m_sqrt Libm_R]. destruct (Rltb_spec (sl_botP l * sl_botP l - p * p) 0); [|lra]. cbn [bind]. eauto. }
  rewrite (m_sqrt_R (sl_botP l * sl_botP l - p * p)) by lra. cbn [bind].
  cbn [m_atan2 Libm_R bind]. rewrite py_div_R by assumption. cbn [bind]. rewrite py_div_R by assumption. cbn [bind].
  set (st := sqrt (sl_topP l * sl_topP l - p * p)). set (sb := sqrt (sl_botP l * sl_botP l - p * p)).
  assert (N : forall s, 0 <= s -> Ratan2 p s = - Ratan2 (- p) s).
  { intros s Hs. unfold Ratan2. destruct (Rltb_spec 0 s).
    - rewrite <- atan_opp. f_equal. field. lra.
    - destruct (Rltb_spec s 0); [lra|]. destruct (Rltb_spec 0 p); [lra|]. destruct (Rltb_spec p 0); [|lra].
      destruct (Rltb_spec 0 (- p)); [|lra]. reflexivity. }
  assert (0 <= st) by apply sqrt_pos. assert (0 <= sb) by apply sqrt_pos.
  rewrite (N sb), (N st) by assumption. rewrite !Ratan2_pos by lra.
  assert (D : (- (PI / 2 - atan (sb / - p)) - - (PI / 2 - atan (st / - p))) / B < 0).
  { assert (IP : 0 < / - p) by (apply Rinv_0_lt_compat; lra).
    destruct (Rtotal_order (sl_topP l) (sl_botP l)) as [Hlt|[He|Hgt]]; [|contradiction|].
    - assert (st < sb) by (apply sqrt_lt_1; nra). pose proof (Rinv_lt_0_compat _ (S2 Hlt)).
      assert (st / - p < sb / - p) by (apply Rmult_lt_compat_r; lra).
      pose proof (atan_increasing _ _ H4). unfold Rdiv at 1. nra.
    - assert (sb < st) by (apply sqrt_lt_1; nra). pose proof (Rinv_0_lt_compat _ (S1 Hgt)).
      assert (sb / - p < st / - p) by (apply Rmult_lt_compat_r; lra).
      pose proof (atan_increasing _ _ H4). unfold Rdiv at 1. nra. }
  rewrite n_0_R. rewrite (proj2 (Rltb_true _ _) D). cbn [orb]. eauto.
Qed.

(** ** C15 *)
(** In a layer thicker than 1e-9 km with positive radii and different positive slownesses there is
    one power law through the two ends; a ray parameter is accepted exactly if it is non-negative and
    not larger than the slownesses, and the result are the ray integrals of that law, which are
    non-negative. *)
Theorem C15_ray_integrals : forall l rad p, thick l rad -> slow_pos l -> sl_topP l <> sl_botP l ->
  (0 <= p <= sl_topP l /\ p <= sl_botP l ->
   exists td A B, bullenRadialSlowness l p rad = Ok td /\ td_p td = p /\
     0 <= td_time td /\ 0 <= td_dist td /\
     (forall A' B', power_law l rad A' B' <-> A' = A /\ B' = B) /\
     integral (time_rate (fun r => A * Rpower r B) p) (rad - sl_botDepth l) (rad - sl_topDepth l) (td_time td) /\
     integral (dist_rate (fun r => A * Rpower r B) p) (rad - sl_botDepth l) (rad - sl_topDepth l) (td_dist td)) /\
  (~ (0 <= p <= sl_topP l /\ p <= sl_botP l) -> exists e, bullenRadialSlowness l p rad = Raise e).
Proof.
  intros l rad p Hk Hs Hne. split.
  - intros [Hp Hp'].
    destruct (thick_exists _ _ Hk Hs) as [A [B HP]].
    pose proof (bullen_run _ _ _ _ _ Hk Hs HP Hne Hp Hp') as E.
    destruct (bullen_values_nonneg _ _ _ _ _ Hk Hs HP Hne Hp Hp') as [V1 V2].
    destruct (rays_pass _ _ _ _ _ Hk Hs HP Hne Hp Hp') as [R1 R2].
    assert (B0 : B <> 0).
    { destruct (power_B_sign _ _ _ _ Hk Hs HP) as [S1 [S2 _]].
      destruct (Rtotal_order (sl_topP l) (sl_botP l)) as [Hlt|[He|Hgt]]; [specialize (S2 Hlt); lra|contradiction|specialize (S1 Hgt); lra]. }
    exists (mkTD p (bullen_time l B p) (bullen_dist l B p) 0), A, B. cbn [td_p td_time td_dist].
    do 4 (split; [assumption||reflexivity|]).
    destruct Hk as [K1 [K2 K3]].
    split; [|split].
    + intros A' B'. split; [|intros [-> ->]; assumption].
      intros HP'. assert (Hk : thick l rad) by (unfold thick; auto).
      apply power_law_iff in HP'; [|assumption..]. apply power_law_iff in HP; [|assumption..].
      destruct HP' as [-> ->], HP as [-> ->]. auto.
    + pose proof (integral_time A B p (rad - sl_botDepth l) (rad - sl_topDepth l) B0 ltac:(lra) ltac:(lra) R1 R2) as I.
      unfold leg in I. rewrite (ys_top _ _ _ _ HP), (ys_bot _ _ _ _ HP) in I. exact I.
    + pose proof (integral_dist A B p (rad - sl_botDepth l) (rad - sl_topDepth l) B0 ltac:(lra) ltac:(lra) (proj1 Hp) R1 R2) as I.
      unfold leg in I. rewrite (ys_top _ _ _ _ HP), (ys_bot _ _ _ _ HP) in I. exact I.
  - intros Hn. destruct (Rlt_dec p 0) as [L|L]; [apply bullen_negative; assumption|].
    destruct (thick_exists _ _ Hk Hs) as [A [B HP]].
    pose proof (proj1 (power_law_iff _ _ _ _ Hk Hs) HP) as [EB _].
    destruct Hk as [K1 [K2 K3]], Hs as [Ht Hb].
    unfold bullenRadialSlowness. cbn [n_eqb n_ltb n_sub n_mul Num_R].
    destruct (Reqb_spec (sl_botDepth l) (sl_topDepth l)); [lra|].
    rewrite lit_thin. destruct (Rltb_spec (sl_botDepth l - sl_topDepth l) (/ 1000000000)); [lra|].
    rewrite py_div_R by lra. cbn [bind]. rewrite m_log_R by (apply Rdiv_lt_0_compat; lra). cbn [bind].
    rewrite py_div_R by lra. cbn [bind]. rewrite m_log_R by (apply Rdiv_lt_0_compat; lra). cbn [bind].
    pose proof (ln_ratio_pos (rad - sl_topDepth l) (rad - sl_botDepth l) ltac:(lra)).
    rewrite py_div_R by lra. cbn [bind].
    cbn [m_sqrt Libm_R]. destruct (Rltb_spec (sl_topP l * sl_topP l - p * p) 0); cbn [bind]; [eauto|].
    destruct (Rltb_spec (sl_botP l * sl_botP l - p * p) 0); cbn [bind]; [eauto|].
    exfalso. apply Hn. split; [split|]; try lra; apply Rnot_lt_le; intros F; nra.
Qed.

(** upper crust of a planet of radius 6371: P slowness at 0 and 20 km *)
Definition crust : slayer R := mkSL 0 1100 0 1050 20.
Lemma crust_thick : thick crust 6371. Proof. unfold thick, crust; cbn; lra. Qed.
Lemma crust_pos : slow_pos crust. Proof. unfold slow_pos, crust; cbn; lra. Qed.
Example C15_ray_integrals_ex :
  (exists td, bullenRadialSlowness crust 500 6371 = Ok td) /\ (exists td, bullenRadialSlowness crust 1050 6371 = Ok td)
  /\ (exists e, bullenRadialSlowness crust 1060 6371 = Raise e).
Proof.
  pose proof crust_thick as K. pose proof crust_pos as P.
  assert (N : sl_topP crust <> sl_botP crust) by (unfold crust; cbn; lra).
  split; [|split].
  - destruct (proj1 (C15_ray_integrals _ _ 500 K P N)) as [td [A [B [E _]]]]; [unfold crust; cbn; lra|eauto].
  - destruct (proj1 (C15_ray_integrals _ _ 1050 K P N)) as [td [A [B [E _]]]]; [unfold crust; cbn; lra|eauto].
  - apply (C15_ray_integrals _ _ 1060 K P N). unfold crust; cbn; lra.
Qed.

(** Layers with no thickness, or less than 1e-9 km, take no time; equal slownesses divide by zero. *)
Theorem C15_degenerate : forall l rad p,
  (sl_botDepth l = sl_topDepth l \/ sl_botDepth l - sl_topDepth l < / 1000000000 ->
     bullenRadialSlowness l p rad = Ok (mkTD p 0 0 0)) /\
  (thick l rad -> slow_pos l -> sl_topP l = sl_botP l -> 0 <= p <= sl_topP l ->
     bullenRadialSlowness l p rad = Raise ZeroDivisionError).
Proof.
  intros l rad p. split.
  - intros H. unfold bullenRadialSlowness. rewrite lit_thin. cbn [n_eqb n_ltb n_sub Num_R].
    destruct (Reqb_spec (sl_botDepth l) (sl_topDepth l)); [unfold td_new; rewrite n_0_R; reflexivity|].
    destruct (Rltb_spec (sl_botDepth l - sl_topDepth l) (/ 1000000000)); [unfold td_new; rewrite n_0_R; reflexivity|].
    destruct H; contradiction.
  - intros [K1 [K2 K3]] [Ht Hb] He Hp. unfold bullenRadialSlowness. cbn [n_eqb n_ltb n_sub n_mul Num_R].
    destruct (Reqb_spec (sl_botDepth l) (sl_topDepth l)); [lra|].
    rewrite lit_thin. destruct (Rltb_spec (sl_botDepth l - sl_topDepth l) (/ 1000000000)); [lra|].
    rewrite py_div_R by lra. cbn [bind]. rewrite m_log_R by (apply Rdiv_lt_0_compat; lra). cbn [bind].
    rewrite py_div_R by lra. cbn [bind]. rewrite m_log_R by (apply Rdiv_lt_0_compat; lra). cbn [bind].
    pose proof (ln_ratio_pos (rad - sl_topDepth l) (rad - sl_botDepth l) ltac:(lra)).
    rewrite py_div_R by lra. cbn [bind].
    rewrite m_sqrt_R by nra. cbn [bind]. rewrite m_sqrt_R by nra. cbn [bind m_atan2 Libm_R].
    rewrite He. replace (sl_botP l / sl_botP l) with 1 by (field; lra). rewrite ln_1.
    replace (0 / ln ((rad - sl_topDepth l) / (rad - sl_botDepth l))) with 0 by (unfold Rdiv; ring).
    rewrite py_div_R_0. reflexivity.
Qed.
Example C15_degenerate_ex :
  bullenRadialSlowness (mkSL 0 1100 35 1050 35) 7 6371 = Ok (mkTD 7 0 0 0) /\
  bullenRadialSlowness (mkSL 0 1100 35 1100 40) 7 6371 = Raise ZeroDivisionError.
Proof.
  split; apply C15_degenerate; cbn; unfold thick, slow_pos; cbn; lra || (repeat split; lra) || auto.
Qed.

(** ** C16 *)
(** dT/dp = p dX/dp, and tau = T - pX has derivative -X. *)
Theorem C16_slope : forall l rad (tm di : R -> R), thick l rad -> slow_pos l -> sl_topP l <> sl_botP l ->
  (forall q, 0 < q < sl_topP l /\ q < sl_botP l ->
     exists td, bullenRadialSlowness l q rad = Ok td /\ tm q = td_time td /\ di q = td_dist td) ->
  forall p, 0 < p < sl_topP l -> p < sl_botP l ->
  exists t' x', derivable_pt_lim tm p t' /\ derivable_pt_lim di p x' /\ t' = p * x' /\
    derivable_pt_lim (fun q => tm q - q * di q) p (- di p).
Proof.
  intros l rad tm di Hk Hs Hne H p Hp Hp'.
  destruct (thick_exists _ _ Hk Hs) as [A [B HP]].
  assert (B0 : B <> 0).
  { destruct (power_B_sign _ _ _ _ Hk Hs HP) as [S1 [S2 _]].
    destruct (Rtotal_order (sl_topP l) (sl_botP l)) as [Hlt|[He|Hgt]]; [specialize (S2 Hlt); lra|contradiction|specialize (S1 Hgt); lra]. }
  assert (V : forall q, 0 < q < sl_topP l /\ q < sl_botP l -> bullen_time l B q = tm q /\ bullen_dist l B q = di q).
  { intros q [Hq Hq']. destruct (H q (conj Hq Hq')) as [td [E [-> ->]]].
    rewrite (bullen_run _ _ _ _ _ Hk Hs HP Hne) in E by lra. inversion E. auto. }
  set (d := Rmin p (Rmin (sl_topP l - p) (sl_botP l - p))).
  assert (Hd : 0 < d) by (unfold d; repeat apply Rmin_pos; lra).
  assert (Hd' : d <= p /\ d <= sl_topP l - p /\ d <= sl_botP l - p).
  { unfold d. pose proof (Rmin_l p (Rmin (sl_topP l - p) (sl_botP l - p))).
    pose proof (Rmin_r p (Rmin (sl_topP l - p) (sl_botP l - p))).
    pose proof (Rmin_l (sl_topP l - p) (sl_botP l - p)). pose proof (Rmin_r (sl_topP l - p) (sl_botP l - p)). lra. }
  destruct (deriv_bullen l B p Hs B0 Hp Hp') as [t' [x' [D1 [D2 E]]]].
  assert (D1' : derivable_pt_lim tm p t').
  { apply (derivable_pt_lim_local (bullen_time l B) tm p d t' Hd); [|assumption]. intros z Hz. apply V. lra. }
  assert (D2' : derivable_pt_lim di p x').
  { apply (derivable_pt_lim_local (bullen_dist l B) di p d x' Hd); [|assumption]. intros z Hz. apply V. lra. }
  exists t', x'. split; [assumption|]. split; [assumption|]. split; [assumption|].
  pose proof (derivable_pt_lim_minus _ _ _ _ _ D1' (derivable_pt_lim_mult _ _ _ _ _ (derivable_pt_lim_id p) D2')) as D.
  replace (- di p) with (t' - (1 * di p + id p * x')) by (rewrite E; unfold id; ring). exact D.
Qed.

(** the functions exist: read off the results *)
Example C16_slope_ex : exists tm di : R -> R,
  (forall q, 0 < q < sl_topP crust /\ q < sl_botP crust ->
     exists td, bullenRadialSlowness crust q 6371 = Ok td /\ tm q = td_time td /\ di q = td_dist td) /\
  exists t' x', derivable_pt_lim tm 700 t' /\ derivable_pt_lim di 700 x' /\ t' = 700 * x'.
Proof.
  pose proof crust_thick as K. pose proof crust_pos as P.
  assert (N : sl_topP crust <> sl_botP crust) by (unfold crust; cbn; lra).
  set (get := fun f q => match bullenRadialSlowness crust q 6371 with Ok td => f td | _ => 0 end).
  exists (get td_time), (get td_dist).
  assert (H : forall q, 0 < q < sl_topP crust /\ q < sl_botP crust ->
     exists td, bullenRadialSlowness crust q 6371 = Ok td /\ get td_time q = td_time td /\ get td_dist q = td_dist td).
  { intros q Hq. destruct (proj1 (C15_ray_integrals _ _ q K P N)) as [td [A [B [E _]]]]; [lra|].
    exists td. unfold get. rewrite E. auto. }
  split; [assumption|].
  destruct (C16_slope crust 6371 _ _ K P N H 700) as [t' [x' [A1 [A2 [A3 _]]]]]; [unfold crust; cbn; lra..|].
  exists t', x'. auto.
Qed.

(** ** C17 *)
(** Cutting a layer at an inner depth, with the slowness evaluateAtBullen gives there, does not change
    the time and distance of any ray that passes. *)
Theorem C17_split_additive : forall l rad p d v i j top bot, thick l rad -> slow_pos l -> sl_topP l <> sl_botP l ->
  0 <= p <= sl_topP l -> p <= sl_botP l ->
  evaluateAtBullen l d rad = Ok v ->
  top = mkSL i (sl_topP l) (sl_topDepth l) v d -> bot = mkSL j v d (sl_botP l) (sl_botDepth l) ->
  thick top rad -> thick bot rad ->
  exists t t1 t2, bullenRadialSlowness l p rad = Ok t /\ bullenRadialSlowness top p rad = Ok t1 /\
    bullenRadialSlowness bot p rad = Ok t2 /\
    td_time t = td_time t1 + td_time t2 /\ td_dist t = td_dist t1 + td_dist t2.
Proof.
  intros l rad p d v i j top bot Hk Hs Hne Hp Hp' Ev Et Eb Kt Kb.
  destruct (thick_exists _ _ Hk Hs) as [A [B HP]].
  assert (Hd : sl_topDepth l < d < sl_botDepth l).
  { subst. destruct Kt as [_ [X _]], Kb as [_ [Y _]]. cbn in X, Y. lra. }
  rewrite (evaluate_run _ _ _ _ _ Hk Hs HP) in Ev by lra. inversion Ev; subst v. clear Ev.
  destruct (split_power l rad A B d i j HP) as [HPt HPb]. rewrite <- Et in HPt. rewrite <- Eb in HPb.
  pose proof (power_inside _ _ _ _ (rad - d) Hk Hs HP Hne ltac:(lra)) as Hin. fold (ys A B (rad - d)) in Hin.
  pose proof Hs as [P1 P2].
  assert (B0 : B <> 0).
  { destruct (power_B_sign _ _ _ _ Hk Hs HP) as [S1 [S2 _]].
    destruct (Rtotal_order (sl_topP l) (sl_botP l)) as [Hlt|[He|Hgt]]; [specialize (S2 Hlt); lra|contradiction|specialize (S1 Hgt); lra]. }
  set (v := ys A B (rad - d)) in *.
  assert (Hv : p <= v /\ 0 < v /\ v <> sl_topP l /\ v <> sl_botP l) by (destruct Hin; lra).
  exists (mkTD p (bullen_time l B p) (bullen_dist l B p) 0), (mkTD p (bullen_time top B p) (bullen_dist top B p) 0),
         (mkTD p (bullen_time bot B p) (bullen_dist bot B p) 0).
  split; [eapply bullen_run; eassumption|].
  split; [apply (bullen_run top rad A B); [assumption|subst top; split; cbn; lra|assumption|subst top; cbn; lra..]|].
  split; [apply (bullen_run bot rad A B); [assumption|subst bot; split; cbn; lra|assumption|subst bot; cbn; lra..]|].
  subst top bot. cbn [td_time td_dist]. unfold bullen_time, bullen_dist. cbn [sl_topP sl_botP]. split; field; assumption.
Qed.

Example C17_split_additive_ex : exists v,
  evaluateAtBullen crust 7 6371 = Ok v /\
  exists t t1 t2, bullenRadialSlowness crust 900 6371 = Ok t /\ bullenRadialSlowness (mkSL 1 1100 0 v 7) 900 6371 = Ok t1 /\
    bullenRadialSlowness (mkSL 2 v 7 1050 20) 900 6371 = Ok t2 /\ td_time t = td_time t1 + td_time t2.
Proof.
  pose proof crust_thick as K. pose proof crust_pos as P.
  destruct (thick_exists _ _ K P) as [A [B HP]].
  exists (ys A B (6371 - 7)).
  assert (E : evaluateAtBullen crust 7 6371 = Ok (ys A B (6371 - 7)))
    by (apply (evaluate_run _ _ _ _ _ K P HP); unfold crust; cbn; lra).
  split; [assumption|].
  destruct (C17_split_additive crust 6371 900 7 _ 1 2 _ _ K P ltac:(unfold crust; cbn; lra) ltac:(unfold crust; cbn; lra)
    ltac:(unfold crust; cbn; lra) E eq_refl eq_refl) as [t [t1 [t2 [E0 [E1 [E2 [E3 _]]]]]]];
    [unfold thick, crust; cbn; lra..|].
  exists t, t1, t2. auto.
Qed.

(** ** C18 *)
(** Depth for a slowness and slowness at a depth are inverse to each other; a slowness outside the range
    of the layer is refused. *)
Theorem C18_inverse : forall l rad, thick l rad -> slow_pos l -> 0 <= sl_topDepth l ->
  (forall p, strictly_between (sl_topP l) (sl_botP l) p ->
     exists d, bullenDepthFor l p rad = Ok d /\ sl_topDepth l < d < sl_botDepth l /\ evaluateAtBullen l d rad = Ok p) /\
  (forall d, sl_topP l <> sl_botP l -> sl_topDepth l < d < sl_botDepth l ->
     exists p, evaluateAtBullen l d rad = Ok p /\ strictly_between (sl_topP l) (sl_botP l) p /\ bullenDepthFor l p rad = Ok d) /\
  bullenDepthFor l (sl_topP l) rad = Ok (sl_topDepth l) /\
  evaluateAtBullen l (sl_topDepth l) rad = Ok (sl_topP l) /\
  (sl_topP l <> sl_botP l -> bullenDepthFor l (sl_botP l) rad = Ok (sl_botDepth l)) /\
  evaluateAtBullen l (sl_botDepth l) rad = Ok (sl_botP l).
Proof.
  intros l rad Hk Hs H0. destruct (thick_exists _ _ Hk Hs) as [A [B HP]].
  assert (Hd : sl_topDepth l < sl_botDepth l) by apply Hk.
  split; [|split; [|split; [|split; [|split]]]].
  - intros p Hp. destruct (depth_of _ _ _ _ _ Hk Hs HP Hp) as [HB [Er Rr]].
    exists (rad - exp (/ B * ln (p / A))). split; [apply depthFor_run; assumption|]. split; [lra|].
    rewrite (evaluate_run _ _ _ _ _ Hk Hs HP) by lra. f_equal.
    replace (rad - (rad - exp (/ B * ln (p / A)))) with (exp (/ B * ln (p / A))) by ring. exact Er.
  - intros d Hne Hd'. exists (ys A B (rad - d)). split; [apply evaluate_run; try assumption; lra|].
    pose proof (power_inside _ _ _ _ (rad - d) Hk Hs HP Hne ltac:(lra)) as Hin. fold (ys A B (rad - d)) in Hin.
    split; [assumption|]. rewrite (depthFor_run _ _ _ _ _ Hk Hs HP Hin H0). f_equal.
    assert (HA := power_A_pos _ _ _ _ Hk Hs HP).
    destruct (depth_of _ _ _ _ _ Hk Hs HP Hin) as [HB _].
    unfold ys. replace (A * Rpower (rad - d) B / A) with (Rpower (rad - d) B) by (field; lra).
    rewrite Rpower_ln. replace (/ B * (B * ln (rad - d))) with (ln (rad - d)) by (field; assumption).
    rewrite exp_ln by (destruct Hk; lra). ring.
  - unfold bullenDepthFor. cbn [n_eqb n_leb n_sub n_mul Num_R]. rewrite n_0_R.
    destruct (Rleb_spec 0 ((sl_topP l - sl_topP l) * (sl_topP l - sl_botP l))); [|lra].
    destruct (Reqb_spec (sl_topDepth l) (sl_botDepth l)); [lra|]. destruct (Reqb_spec (sl_topP l) (sl_topP l)); [reflexivity|lra].
  - rewrite (evaluate_run _ _ _ _ _ Hk Hs HP) by lra. rewrite (ys_top _ _ _ _ HP). reflexivity.
  - intros Hne. unfold bullenDepthFor. cbn [n_eqb n_leb n_sub n_mul Num_R]. rewrite n_0_R.
    destruct (Rleb_spec 0 ((sl_topP l - sl_botP l) * (sl_botP l - sl_botP l))); [|lra].
    destruct (Reqb_spec (sl_topDepth l) (sl_botDepth l)); [lra|]. destruct (Reqb_spec (sl_topP l) (sl_botP l)); [contradiction|].
    destruct (Reqb_spec (sl_botP l) (sl_botP l)); [reflexivity|lra].
  - rewrite (evaluate_run _ _ _ _ _ Hk Hs HP) by lra. rewrite (ys_bot _ _ _ _ HP). reflexivity.
Qed.

Theorem C18_out_of_range : forall l rad p,
  (p < Rmin (sl_topP l) (sl_botP l) \/ Rmax (sl_topP l) (sl_botP l) < p ->
     bullenDepthFor l p rad = Raise SlownessModelError) /\
  (forall d, thick l rad -> d < sl_topDepth l \/ sl_botDepth l < d -> evaluateAtBullen l d rad = Raise AssertionError).
Proof.
  intros l rad p. split.
  - intros H. unfold bullenDepthFor. cbn [n_leb n_sub n_mul Num_R]. rewrite n_0_R.
    destruct (Rleb_spec 0 ((sl_topP l - p) * (p - sl_botP l))) as [F|F]; [exfalso|reflexivity].
    unfold Rmin, Rmax in H. destruct (Rle_dec (sl_topP l) (sl_botP l)); destruct H; nra.
  - intros d [K1 [K2 K3]] H. unfold evaluateAtBullen, guard. cbn [n_ltb n_sub n_mul Num_R]. rewrite n_0_R.
    destruct (Rltb_spec rad (sl_botDepth l)); [lra|]. cbn [negb bind].
    destruct (Rltb_spec ((sl_topDepth l - d) * (d - sl_botDepth l)) 0) as [F|F]; [reflexivity|].
    exfalso. destruct H; nra.
Qed.

Example C18_ex : (exists d, bullenDepthFor crust 1080 6371 = Ok d /\ 0 < d < 20 /\ evaluateAtBullen crust d 6371 = Ok 1080)
  /\ bullenDepthFor crust 1000 6371 = Raise SlownessModelError.
Proof.
  split.
  - destruct (proj1 (C18_inverse crust 6371 crust_thick crust_pos ltac:(unfold crust; cbn; lra)) 1080) as [d H].
    + right. unfold crust; cbn; lra.
    + exists d. exact H.
  - apply C18_out_of_range. left. unfold crust; cbn. rewrite Rmin_right; lra.
Qed.

Print Assumptions C15_ray_integrals.
Print Assumptions C15_degenerate.
Print Assumptions C16_slope.
Print Assumptions C17_split_additive.
Print Assumptions C18_inverse.
Print Assumptions C18_out_of_range.

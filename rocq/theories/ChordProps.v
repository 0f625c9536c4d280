(** Property C73: where waves have one velocity everywhere, they travel along straight lines. *)
From Coq Require Import ZArith Bool List String Reals Lia Lra Psatz.
From Verif Require Import Base Num PyStr VelocityModel VelSpec SlownessLayer SlownessModel SlowSpec SlowProofs SlowAddProofs SlowBuildProofs SlowProps SlowRealProofs SampleProofs StackSpec StackProofs TauModel SeismicPhase
  TauSpec TauProofs TauBuildProofs TauProps CurveSpec CurveProofs CurveProps TimeSpec TimeProps PathSpec PathProofs PathWholeProofs PathLegProofs
  CritSpec CritProofs CritProps MonoSpec MonoProofs MonoProps LimitSpec LimitProofs LimitProps
  BullenSpec BullenProofs ShellProps ErrSpec ErrProofs ErrLegProofs ErrProps AngleSpec AngleProofs AngleProps NameSpec NameProofs CalcTimeProofs RealRun PierceProps BuildRun TwoRun SourceProps ChordSpec ChordProofs.
Import ListNotations.
Local Open Scope string_scope.
Local Open Scope list_scope.
Local Open Scope R_scope.

(** What a branch stores for a sample is the part of the straight line between its two spheres. *)
Theorem C73_branch : forall t w v b k p x tm, rays_ready t -> uniform (tm_sMod t) w v -> usable (tm_sMod t) w -> proper t w v ->
  In b (TauSpec.branches t w) -> nth_error (tm_rayParams t) k = Some p -> nth_error (tb_dist b) k = Some x -> nth_error (tb_time b) k = Some tm ->
  let r := sm_radius (tm_sMod t) in
  x = line_angle (p * v) (r - tb_top b) - line_angle (p * v) (r - tb_bot b) /\
  v * tm = line_length (p * v) (r - tb_top b) - line_length (p * v) (r - tb_bot b).
Proof. exact uniform_leg. Qed.
Print Assumptions C73_branch.

(** what these two functions mean: a point of the line at radius [r], the line coming as near to the centre as [a] *)
Theorem C73_line : forall a r, 0 <= a <= r -> 0 < r ->
  0 <= line_angle a r <= PI / 2 /\ r * cos (line_angle a r) = a /\ line_length a r = r * sin (line_angle a r) /\
  straight r (2 * line_angle a r) = 2 * line_length a r.
Proof. exact angle_straight. Qed.
Print Assumptions C73_line.

Section Phase.
  Variables (show : R -> string) (ws : list R) (t : tmodel R) (tid : Z) (name : string) (ph : phase R) (w : bool) (v : R) (n : nat) (b0 b : tbranch R).
  Hypothesis H : newPhase show ws t tid name = Ok ph.
  Hypothesis Hlen : List.length (tm_S t) = List.length (tm_P t).
  Hypothesis Hr : exists r, In r (tm_rayParams t) /\ ph_max ph <= r.
  Hypothesis Nd : ~ diffracted name.
  Hypothesis Nh : ~ head_wave name.
  Hypothesis Hz : forall z, In z (sm_hiP (tm_sMod t)) \/ In z (sm_hiS (tm_sMod t)) -> ~ ph_min ph < dr_rayParam z < ph_max ph.
  Hypothesis Hrdy : rays_ready t.
  Hypothesis Hun : uniform (tm_sMod t) w v.
  Hypothesis Hus : usable (tm_sMod t) w.
  Hypothesis Hpr : proper t w v.
  Hypothesis Hme : b_meet (TauSpec.branches t w).
  Hypothesis H0 : nth_error (TauSpec.branches t w) 0 = Some b0.
  Hypothesis T0 : tb_top b0 = 0.
  Hypothesis Hb : nth_error (TauSpec.branches t w) n = Some b.
  Hypothesis Hseq : down_up w (S n) (ph_seq ph).

  (** Every sample of a phase that goes down to the bottom of branch [n] and up again, with at least two ray parameters. *)
  Theorem C73_phase : forall k p d tm, nth_error (curve_of ph) k = Some (p, d, tm) -> (exists q, In q (ph_rayParams ph) /\ q <> p) ->
    let r := sm_radius (tm_sMod t) in
    In p (tm_rayParams t) /\
    d = 2 * (line_angle (p * v) r - line_angle (p * v) (r - tb_bot b)) /\
    v * tm = 2 * (line_length (p * v) r - line_length (p * v) (r - tb_bot b)).
  Proof.
    intros k p d tm Hk [q [Hq Nq]] r.
    assert (Hne : ph_rayParams ph <> []) by (intros E; rewrite E in Hq; contradiction).
    destruct (C33_sum_of_legs_no_zone show ws t tid name ph H Hne Hlen Hr Nd Nh Hz) as [lo [hi [[L0 _] [_ [[_ [_ C]]|[_ [d' [tm' [Ec _]]]]]]]]].
    - destruct (C _ _ _ _ Hk) as [A [B F]].
      replace (lo + Z.of_nat k)%Z with (Z.of_nat (Z.to_nat (lo + Z.of_nat k))) in A, B, F by lia. apply at_index_nat in A.
      split; [eapply nth_error_In; exact A|].
      exact (down_up_values t w v p _ Hrdy Hun Hus Hpr A Hme n (ph_seq ph) d tm b0 b Hseq H0 T0 Hb B F).
    - exfalso. apply Nq. assert (Ep : p = ph_min ph).
      { rewrite Ec in Hk. destruct k as [|[|k]]; [injection Hk as <- _ _; reflexivity|injection Hk as <- _ _; reflexivity|destruct k; discriminate Hk]. }
      rewrite Ep. assert (Lc : List.length (ph_dist ph) = List.length (ph_rayParams ph) /\ List.length (ph_time ph) = List.length (ph_rayParams ph)).
      { destruct (C33_sum_of_legs show ws t tid name ph H Hne Hlen Hr Nd Nh) as [? [? [? [? [? [? [_ [_ [_ [_ [_ [_ [_ A]]]]]]]]]]]]]. exact A. }
      destruct Lc as [Ld Lt]. apply In_nth_error in Hq. destruct Hq as [j Hj].
      assert (Lj : (j < List.length (ph_rayParams ph))%nat) by (apply nth_error_Some; congruence).
      destruct (nth_error (ph_dist ph) j) as [dj|] eqn:Ed; [|apply nth_error_None in Ed; lia].
      destruct (nth_error (ph_time ph) j) as [tj|] eqn:Et; [|apply nth_error_None in Et; lia].
      assert (Cj : nth_error (curve_of ph) j = Some (q, dj, tj)) by (apply nth_error_combine; split; [apply nth_error_combine; split|]; assumption).
      rewrite Ec in Cj. destruct j as [|[|j]]; [injection Cj as <- _ _; reflexivity|injection Cj as <- _ _; reflexivity|destruct j; discriminate Cj].
  Qed.

  (** If its rays turn above that depth, a sample takes the time that the straight way to its distance needs. *)
  Theorem C73_direct : forall k p d tm, nth_error (curve_of ph) k = Some (p, d, tm) -> (exists q, In q (ph_rayParams ph) /\ q <> p) ->
    let r := sm_radius (tm_sMod t) in
    0 <= p * v <= r -> r - tb_bot b <= p * v -> 0 < r ->
    tm = straight r d / v /\ 0 <= d <= PI /\ r * cos (d / 2) = p * v.
  Proof.
    intros k p d tm Hk Hq r Ha Ht R0. destruct (C73_phase k p d tm Hk Hq) as [_ [Ed Et]]. fold r in Ed, Et. pose proof (proj1 Hun) as Hv.
    destruct (angle_out (p * v) (r - tb_bot b) Ht) as [Z1 Z2]. rewrite Z1 in Ed. rewrite Z2 in Et.
    destruct (angle_straight (p * v) r Ha R0) as [A [B [_ D]]].
    assert (E : d = 2 * line_angle (p * v) r) by lra. rewrite E, D. replace (2 * line_angle (p * v) r / 2) with (line_angle (p * v) r) by field.
    split; [|split; [lra|exact B]]. replace (2 * line_length (p * v) r) with (v * tm) by lra. field. lra.
  Qed.

  (** So the time of an arrival is never later than along the straight line, and earlier by at most the difference of the ray parameters
      of its two samples times a quarter of the difference of their distances. *)
  Theorem C73_arrival : forall fuel deg l a, decreasing (tm_rayParams t) ->
    let r := sm_radius (tm_sMod t) in
    0 < r -> (forall p, In p (ph_rayParams ph) -> 0 <= p /\ r - tb_bot b <= p * v) ->
    ph_calcTime fuel ph deg = Ok l -> In a l ->
    exists k p0 p1 d0 d1, ar_index a = Z.of_nat k /\
      nth_error (ph_rayParams ph) k = Some p0 /\ nth_error (ph_rayParams ph) (S k) = Some p1 /\
      nth_error (ph_dist ph) k = Some d0 /\ nth_error (ph_dist ph) (S k) = Some d1 /\ d0 <= ar_dist a <= d1 /\ p1 < p0 /\
      0 <= straight r (ar_dist a) / v - ar_time a <= (p0 - p1) * (d1 - d0) / 4.
  Proof.
    intros fuel deg l a Dec r R0 Hp Hc Ha.
    destruct (C08_interpolation fuel ph deg l a Hc Ha) as [k [d0 [d1 [u0 [u1 [p0 [p1 [Ei [D0 [D1 [U0 [U1 [P0 [P1 _]]]]]]]]]]]]]].
    assert (Hne : ph_rayParams ph <> []) by (intros E; rewrite E in P0; destruct k; discriminate).
    destruct (neighbours show ws t tid name ph fuel deg l a k p0 p1 d0 d1 H Hne Hlen Hr Nd Nh Hz Dec Hc Ha Ei P0 P1 D0 D1)
      as [i [t0 [t1 [Q0 [Q1 [Lt [X0 [Y0 [X1 [Y1 [[Hd On] B]]]]]]]]]]].
    destruct (down_up_values t w v p0 i Hrdy Hun Hus Hpr Q0 Hme n (ph_seq ph) d0 t0 b0 b Hseq H0 T0 Hb X0 Y0) as [E0 F0].
    destruct (down_up_values t w v p1 (S i) Hrdy Hun Hus Hpr Q1 Hme n (ph_seq ph) d1 t1 b0 b Hseq H0 T0 Hb X1 Y1) as [E1 F1]. fold r in E0, F0, E1, F1.
    destruct (Hp p0 (nth_error_In _ _ P0)) as [N0 M0]. destruct (Hp p1 (nth_error_In _ _ P1)) as [N1 M1].
    destruct (angle_out (p0 * v) (r - tb_bot b) M0) as [Z1 Z2]. rewrite Z1 in E0. rewrite Z2 in F0.
    destruct (angle_out (p1 * v) (r - tb_bot b) M1) as [Z3 Z4]. rewrite Z3 in E1. rewrite Z4 in F1. rewrite Rminus_0_r in E0, F0, E1, F1.
    destruct (between_samples r v p0 p1 d0 d1 t0 t1 (ar_dist a) (ar_time a) R0 (proj1 Hun) (conj N1 Lt) E0 F0 E1 F1 Hd B On) as [Ld G].
    exists k, p0, p1, d0, d1. do 5 (split; [assumption|]). split; [destruct B; lra|]. split; [exact Lt|exact G].
  Qed.
End Phase.
Print Assumptions C73_phase.
Print Assumptions C73_direct.
Print Assumptions C73_arrival.

(** ** constructed models *)
Theorem C73_constructed : forall fuel fuel' vm dp Dp dz dx err innerS tol (m : smodel R) t w v,
  newSlownessModel fuel vm dp Dp dz dx err innerS tol = Ok m -> newTauModel fuel' m = Ok t ->
  VelSpec.thick (vm_layers vm) -> vm_radius vm = 6371 -> no_flat vm innerS -> fluid_above_inner_core vm innerS ->
  one_velocity vm innerS w v ->
  tm_sMod t = m /\ sm_radius m = 6371 /\ uniform m w v /\ proper t w v /\ b_meet (TauSpec.branches t w) /\
  exists b0, nth_error (TauSpec.branches t w) 0 = Some b0 /\ tb_top b0 = 0.
Proof.
  intros fuel fuel' vm dp Dp dz dx err innerS tol m t w v H HT Ht Hr Hnf Hfi [Hv Ho].
  assert (Em : tm_sMod t = m) by (apply newTauModel_inv in HT; tauto).
  destruct (C23_constructed_valid _ _ _ _ _ _ _ _ _ _ H (R_ok _)) as [_ [Er _]]. rewrite Hr in Er.
  destruct (g_good _ _ _ _ _ _ _ _ _ _ H Ht Hr w) as [Gm [Gu [Gj [Gq [G0 [l [e [El Ee]]]]]]]].
  destruct (C22_constructed_on_model _ _ _ _ _ _ _ _ _ _ H Ht Hr) as [OP OS].
  assert (Fat : forall y, In y (sm_layers m w) -> sl_topDepth y < sl_botDepth y ->
    sl_topP y = (6371 - sl_topDepth y) / v /\ sl_botP y = (6371 - sl_botDepth y) / v).
  { intros y Hy Ty.
    assert (Q : exists x (pv : bool), In x (vm_layers vm) /\ on_layer 6371 pv x y /\ (pv = true <-> follows_P vm innerS w x)).
    { destruct w; cbn [sm_layers] in Hy.
      - destruct (OP y Hy Ty) as [x [Hx Ox]]. rewrite Hr in Ox. exists x, true. split; [exact Hx|]. split; [exact Ox|].
        split; [intros _; left; reflexivity|reflexivity].
      - destruct (OS y Hy Ty) as [x [pv [Hx [Ox U]]]]. rewrite Hr in Ox. exists x, pv. split; [exact Hx|]. split; [exact Ox|].
        unfold follows_P. rewrite U. split; [intros X; right; exact X|intros [X|X]; [discriminate X|exact X]]. }
    destruct Q as [x [pv [Hx [[_ [_ [Ot Ob]]] U]]]]. rewrite (Ho x _ pv Hx U) in Ot. rewrite (Ho x _ pv Hx U) in Ob. rewrite <- Ot, <- Ob. split; field; lra. }
  assert (Un : forall y, In y (sm_layers m w) -> sl_topP y = (6371 - sl_topDepth y) / v /\ sl_botP y = (6371 - sl_botDepth y) / v).
  { intros y Hy. destruct (Rle_lt_or_eq_dec _ _ (upr _ Gu y Hy)) as [Ty|Ty]; [exact (Fat y Hy Ty)|].
    destruct (Gq y Hy Ty) as [a [c [Ia [Ic [Fa [Fc [Ea [Ec [B1 B2]]]]]]]]].
    destruct (Fat a Ia Fa) as [_ Pa]. destruct (Fat c Ic Fc) as [Pc _]. rewrite Ea in Pa. rewrite Ec in Pc. rewrite Pa, Pc in B1, B2. rewrite <- Ty.
    unfold btw in B1, B2. split; [destruct B1; lra|destruct B2; lra]. }
  destruct (C25_branches_tile_exact _ _ _ _ _ _ _ _ _ _ _ _ H HT Ht w) as [Ti [Me [Bu Is]]].
  assert (Cr : forall n b, nth_error (TauSpec.branches t w) n = Some b -> exists c c', nth_error (sm_crit m) n = Some c /\
      nth_error (sm_crit m) (S n) = Some c' /\ tb_top b = cd_depth c /\ tb_bot b = cd_depth c' /\ cd_depth c < cd_depth c').
  { intros n b Hb. destruct Ti as [Tl Ti]. assert (X : (n < List.length (TauSpec.branches t w))%nat) by (apply nth_error_Some; congruence).
    destruct (nth_error (sm_crit m) n) as [c|] eqn:Ec; [|apply nth_error_None in Ec; lia].
    destruct (nth_error (sm_crit m) (S n)) as [c'|] eqn:Ec'; [|apply nth_error_None in Ec'; lia].
    exists c, c'. destruct (Ti n b c c' Hb Ec Ec') as [A B]. split; [reflexivity|]. split; [reflexivity|]. split; [exact A|]. split; [exact B|].
    rewrite <- A, <- B. apply Rltb_lt. exact (Bu b (nth_error_In _ _ Hb)). }
  split; [exact Em|]. split; [exact Er|]. split; [split; [exact Hv|rewrite Er; exact Un]|]. split; [|split; [exact Me|]].
  - intros b Hb. rewrite Em, Er. destruct (Is b Hb) as [Ew _]. split; [exact Ew|].
    pose proof (In_nth_error _ _ Hb) as [n Hn]. destruct (Cr n b Hn) as [c [c' [Ec [Ec' [Tb [Bb Lc]]]]]].
    pose proof (g_bot _ _ _ _ _ _ _ _ _ _ H Hr w c' (nth_error_In _ _ Ec')) as B6.
    destruct (g_below _ _ _ _ _ _ _ _ _ _ H Ht Hr w c (nth_error_In _ _ Ec) ltac:(lra)) as [i [y [Di [Hy [Ty _]]]]].
    split; [|split].
    + destruct (C52_greatest _ _ _ _ _ _ _ _ _ _ _ _ H HT Ht Hr Hnf Hfi w b Hb) as [F1 F2].
      apply Rle_antisym.
      * rewrite Tb, <- Ty, <- (proj1 (Un y (nth_error_In _ _ Hy))). apply F2. exists y. split; [eapply nth_error_In; exact Hy|]. left. split; [lra|reflexivity].
      * destruct F1 as [z [Iz X]]. destruct (Un z Iz) as [Z1 Z2].
        destruct X as [[X ->]|[X ->]]; rewrite ?Z1, ?Z2; unfold Rdiv; (apply Rmult_le_compat_r; [apply Rlt_le, Rinv_0_lt_compat; exact Hv|lra]).
    + exists y. split; [eapply nth_error_In; exact Hy|lra].
    + destruct (g_bnd _ _ _ _ _ _ _ _ _ _ H w c' (nth_error_In _ _ Ec')) as [z [Iz X]].
      destruct X as [X|X]; apply Reqb_eq in X; [|exists z; split; [exact Iz|lra]].
      pose proof (In_nth_error _ _ Iz) as [q Hq]. destruct q as [|q].
      * exfalso. rewrite (G0 z Hq) in X. assert (0 <= sl_topDepth y) by (eapply top_pos; try eassumption; exact (nth_error_In _ _ Hy)). lra.
      * destruct (nth_error (sm_layers m w) q) as [u|] eqn:Eu.
        { pose proof (Gm q u z Eu Hq) as M. apply Reqb_eq in M. exists u. split; [eapply nth_error_In; exact Eu|lra]. }
        { apply nth_error_None in Eu. assert (S q < List.length (sm_layers m w))%nat by (apply nth_error_Some; congruence). lia. }
  - pose proof (createSample_built _ _ _ H (R_ok _)) as [_ [_ [_ [_ [_ [[c0 [lc [cn [E [E0 _]]]]] _]]]]]].
    destruct (TauSpec.branches t w) as [|b0 bs] eqn:Eb.
    + exfalso. destruct Ti as [Tl _]. cbn [List.length] in Tl. rewrite E in Tl. cbn [List.length] in Tl. rewrite app_length in Tl. cbn [List.length] in Tl. lia.
    + exists b0. split; [reflexivity|]. destruct (Cr 0%nat b0 eq_refl) as [c [c' [Ec [_ [-> _]]]]]. rewrite E in Ec. cbn [nth_error] in Ec.
      assert (c0 = c) by congruence. subst c0. rewrite n_0_R in E0. exact E0.
Qed.
Print Assumptions C73_constructed.

(** In such models no ray that is allowed to turn in a branch reaches below it: this is the condition of [C73_arrival]. *)
Theorem C73_turning : forall fuel fuel' vm dp Dp dz dx err innerS tol (m : smodel R) t w v b,
  newSlownessModel fuel vm dp Dp dz dx err innerS tol = Ok m -> newTauModel fuel' m = Ok t ->
  VelSpec.thick (vm_layers vm) -> vm_radius vm = 6371 -> no_flat vm innerS -> fluid_above_inner_core vm innerS ->
  one_velocity vm innerS w v -> 6371 / v <= n_lit 1 300 -> In b (TauSpec.branches t w) ->
  6371 - tb_bot b <= tb_minTurnRP b * v.
Proof.
  intros fuel fuel' vm dp Dp dz dx err innerS tol m t w v b H HT Ht Hr Hnf Hfi Ho Hbig Hb.
  destruct (C73_constructed _ _ _ _ _ _ _ _ _ _ _ _ w v H HT Ht Hr Hnf Hfi Ho) as [Em [Er [[Hv Un] [Pr _]]]]. rewrite Er in Un.
  destruct (g_good _ _ _ _ _ _ _ _ _ _ H Ht Hr w) as [Gm [Gu [Gj [Gq [G0 _]]]]].
  destruct (Pr b Hb) as [_ [_ [[yt [It Yt]] [yb [Ib Yb]]]]]. rewrite Em in It, Ib.
  assert (K : forall y, In y (sm_layers m w) -> sl_botDepth y <= tb_bot b -> (6371 - tb_bot b) / v <= sl_botP y).
  { intros y Iy Ly. rewrite (proj2 (Un y Iy)). unfold Rdiv. apply Rmult_le_compat_r; [apply Rlt_le, Rinv_0_lt_compat; exact Hv|lra]. }
  assert (U : forall s, upper_side (sm_layers m w) (tb_bot b) s -> (6371 - tb_bot b) / v <= s).
  { intros s [i [y [[_ Sh] [Hy ->]]]]. apply K; [eapply nth_error_In; exact Hy|].
    apply In_nth_error in Ib. destruct Ib as [j Hj].
    assert (Uj := upr _ Gu yb (nth_error_In _ _ Hj)).
    assert (Lij : (i <= j)%nat). { apply (Sh j yb Hj). split; apply Rleb_le; lra. }
    destruct (Nat.eq_dec i j) as [E|E]; [subst j; assert (y = yb) by congruence; subst y; lra|].
    pose proof (srt _ Gm Gu i j y yb ltac:(lia) Hy Hj). lra. }
  assert (M : (6371 - tb_bot b) / v <= tb_minTurnRP b).
  { destruct (C52_least _ _ _ _ _ _ _ _ _ _ _ _ H HT Ht Hr w b Hb) as [A [B _]].
    destruct (Classical_Prop.classic (in_hi_zone m w (tb_bot b))) as [Z|Z]; [|exact (U _ (B Z))].
    destruct (A Z) as [[X|[X|X]] _]; [|destruct X as [y [Iy [Ly ->]]]; apply Rltb_lt in Ly; apply K; [exact Iy|lra]|exact (U _ X)].
    rewrite X. apply Rle_trans with (2 := Hbig). unfold Rdiv. apply Rmult_le_compat_r; [apply Rlt_le, Rinv_0_lt_compat; exact Hv|].
    assert (0 <= sl_topDepth yb) by (eapply top_pos; try eassumption). pose proof (upr _ Gu yb Ib). lra. }
  apply (Rmult_le_compat_r v) in M; [|lra]. replace ((6371 - tb_bot b) / v * v) with (6371 - tb_bot b) in M by (field; lra). exact M.
Qed.
Print Assumptions C73_turning.

(** ** Hypotheses met: P at 60 degrees in a planet of radius 2 whose waves have velocity 1 *)
Example C73_ex : forall s, s = 2 * sin (PI / 3) -> exists ph fuel l a b0,
  newPhase x_show [] (e_t s) 0 "P" = Ok ph /\ ph_calcTime fuel ph 60 = Ok l /\ In a l /\ ar_dist a = PI / 3 /\
  uniform e_s true 1 /\ usable e_s true /\ proper (e_t s) true 1 /\ b_meet (TauSpec.branches (e_t s) true) /\
  nth_error (TauSpec.branches (e_t s) true) 0 = Some b0 /\ tb_top b0 = 0 /\ tb_bot b0 = 1 /\ down_up true 1 (ph_seq ph) /\
  (forall p, In p (ph_rayParams ph) -> 0 <= p /\ 2 - tb_bot b0 <= p * 1) /\
  0 <= straight 2 (PI / 3) - ar_time a <= PI / 6.
Proof.
  intros s Es. pose proof PI_RGT_0 as HP.
  eassert (Hp : newPhase x_show [] (e_t s) 0 "P" = Ok _) by run.
  match type of Hp with _ = Ok ?p => set (ph := p) in * end. exists ph.
  destruct e_vlayers as [Hc Ht].
  edestruct (C37_defined ph 60) as [fuel Hf];
    [exact Hc|exact Ht| | |reflexivity|reflexivity| |reflexivity|reflexivity| |reflexivity|exact e_speed|exact e_speed| |].
  { cbn. lra. }
  { intros Hk; apply is_kmps_iff in Hk; discriminate. }
  { intros i Hi. cbn in Hi. assert (i = 0)%nat by lia. subst i. cbn. intros E. injection E as E. lra. }
  { exact (eq_refl : ph_legs ph = [] ++ ["P"; "END"]). }
  { cbn. intros p [<-|[<-|[]]]; split; apply Rabs_le; lra. }
  destruct (Hf fuel ltac:(lia)) as [l Hl]. exists fuel, l.
  assert (Hdeg : rad 60 = PI / 3) by (unfold rad; field).
  destruct (calcTime_complete fuel ph 60 l 0 (PI / 3) Hl) as [a [Ha [Ed Ei]]].
  { cbn. rewrite (proj2 (Rltb_true _ _)) by lra. lra. } { rewrite Hdeg. reflexivity. }
  { exists 0, (0 + 2 * (PI / 3)), 2, 1. do 4 (split; [reflexivity|]). split; [left; lra|]. split; [intros; lra|]. intros; lra. }
  exists a. eexists.
  assert (Un : uniform e_s true 1).
  { split; [lra|]. intros y [<-|[<-|[]]]; cbn; split; field. }
  assert (Us : usable e_s true).
  { split; [cbn; lra|]. intros y [<-|[<-|[]]]; cbn; (split; [lra|]); [right; right; lra|right; left; lra]. }
  assert (Pr : proper (e_t s) true 1).
  { intros b [<-|[<-|[]]]; cbn; (split; [reflexivity|]; split; [field|]; split; eexists; first [split; [left; reflexivity|reflexivity]|split; [right; left; reflexivity|reflexivity]]). }
  assert (Me : b_meet (TauSpec.branches (e_t s) true)).
  { intros [|[|k]] x y Hx Hy; cbn in Hx, Hy; try discriminate Hy; try (destruct k; discriminate Hy). injection Hx as <-. injection Hy as <-. reflexivity. }
  assert (Du : down_up true 1 (ph_seq ph)).
  { split; [reflexivity|]. intros g [<-|[<-|[]]]; reflexivity. }
  assert (Tu : forall p, In p (ph_rayParams ph) -> 0 <= p /\ 2 - 1 <= p * 1) by (intros p [<-|[<-|[]]]; lra).
  destruct (C73_arrival x_show [] (e_t s) 0 "P" ph true 1 0 _ _ Hp eq_refl
    ltac:(exists 2; split; [left; reflexivity|cbn; lra]) ltac:(intros [X|X]; not_in X) ltac:(intros [X|X]; not_in X) ltac:(intros z [[]|[]])
    (e_rays s Es) Un Us Pr Me eq_refl eq_refl eq_refl Du fuel 60 l a (e_decreasing s) ltac:(cbn; lra) Tu Hl Ha)
    as [k [p0 [p1 [d0 [d1 [Ek [P0 [P1 [D0 [D1 [_ [_ G]]]]]]]]]]]].
  assert (k = 0%nat) by (rewrite Ei in Ek; lia). subst k. cbn in P0, P1, D0, D1.
  injection P0 as <-. injection P1 as <-. injection D0 as <-. injection D1 as <-. rewrite Ed in G. cbn [sm_radius tm_sMod e_t e_s] in G.
  split; [exact Hp|]. split; [exact Hl|]. split; [exact Ha|]. split; [exact Ed|]. split; [exact Un|]. split; [exact Us|]. split; [exact Pr|].
  split; [exact Me|]. split; [reflexivity|]. split; [reflexivity|]. split; [reflexivity|]. split; [exact Du|]. split; [exact Tu|].
  lra.
Qed.
(** two layers of velocity 1 *)
Example C73_ex_constructed : exists e tA xA tB xB,
  let m := two_sm e two_c' in let t := two_t e tA xA tB xB in
  newSlownessModel 20 two_vm 1 7000 7000 10 e true 1 = Ok m /\ newTauModel 20 m = Ok t /\
  VelSpec.thick (vm_layers two_vm) /\ vm_radius two_vm = 6371 /\ no_flat two_vm true /\ fluid_above_inner_core two_vm true /\
  one_velocity two_vm true true 1 /\ one_velocity two_vm true false 1 /\ 6371 / 1 <= n_lit 1 300 /\ usable m true /\ usable m false /\
  exists b, In b (TauSpec.branches t true) /\ tb_bot b = 6371.
Proof.
  destruct C53_ex as [e [tA [xA [tB [xB [A [B [Q1 [Q2 [Q3 [Q4 _]]]]]]]]]]]. exists e, tA, xA, tB, xB. cbv zeta.
  assert (Ov : forall w, one_velocity two_vm true w 1).
  { intros w. split; [lra|]. intros y x pv [<-|[<-|[]]] _; unfold wvel, line; destruct pv; cbn; field; lra. }
  assert (Us : forall w, usable (two_sm e two_c') w).
  { intros w. split; [cbn; lra|]. intros y Hy. assert (Hy' : In y (two_l 6) \/ In y (two_l 7)) by (destruct w; [left|right]; exact Hy).
    cbn [sm_radius sm_tolerance two_sm]. destruct Hy' as [[<-|[<-|[]]]|[<-|[<-|[]]]]; cbn; (split; [lra|]); first [right; left; lra|right; right; lra]. }
  split; [exact A|]. split; [exact B|]. split; [exact Q1|]. split; [exact Q2|]. split; [exact Q3|]. split; [exact Q4|].
  split; [apply Ov|]. split; [apply Ov|]. split; [replace (6371 / 1) with 6371 by field; apply big_300; lia|]. split; [apply Us|]. split; [apply Us|].
  eexists. split; [left; reflexivity|reflexivity].
Qed.

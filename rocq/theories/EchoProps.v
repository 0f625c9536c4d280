(** Property C74: waves of constant velocity that are reflected go along straight lines to the reflector and back. *)
From Coq Require Import ZArith Bool List String Reals Lia Lra Psatz.
From Verif Require Import Base Num PyStr VelocityModel VelSpec SlownessLayer SlownessModel SlowSpec SlowProofs SlowAddProofs SlowBuildProofs SlowProps SlowRealProofs SampleProofs StackSpec StackProofs TauModel SeismicPhase
  TauSpec TauProofs TauBuildProofs TauProps CurveSpec CurveProofs CurveProps TimeSpec TimeProps PathSpec PathProofs PathWholeProofs PathLegProofs
  CritSpec CritProofs CritProps MonoSpec MonoProofs MonoProps LimitSpec LimitProofs LimitProps
  BullenSpec BullenProofs ShellProps ErrSpec ErrProofs ErrLegProofs ErrProps AngleSpec AngleProofs AngleProps NameSpec NameProofs CalcTimeProofs RealRun PierceProps BuildRun TwoRun SourceProps ChordSpec ChordProofs SourceProofs ChordProps EchoSpec EchoProofs.
Import ListNotations.
Local Open Scope string_scope.
Local Open Scope list_scope.
Local Open Scope R_scope.

(** what is between two spheres of a line that comes as near to the centre as [a] *)
Theorem C74_line : forall a q r, 0 <= a <= q -> 0 < q -> q < r ->
  let x := line_angle a r - line_angle a q in
  0 <= x <= PI / 2 /\ q <= r * cos x /\ between r q x = line_length a r - line_length a q.
Proof. exact echo_ok. Qed.
Print Assumptions C74_line.
(** such lines join all pairs of points that see each other *)
Theorem C74_seen : forall q r y, 0 < q -> q < r -> 0 <= y <= PI -> q <= r * cos y ->
  exists a, 0 <= a <= q /\ line_angle a r - line_angle a q = y.
Proof. exact echo_find. Qed.
Print Assumptions C74_seen.

Section Phase.
  Variables (show : R -> string) (ws : list R) (t : tmodel R) (tid : Z) (name : string) (ph : phase R) (w : bool) (v : R) (n : nat) (b0 b : tbranch R).
  Hypothesis H : newPhase show ws t tid name = Ok ph.
  Hypothesis Hlen : List.length (tm_S t) = List.length (tm_P t).
  Hypothesis Hr : exists r, In r (tm_rayParams t) /\ ph_max ph <= r.
  Hypothesis Nd : ~ diffracted name.
  Hypothesis Nh : ~ head_wave name.
  Hypothesis Hz : forall z, In z (sm_hiP (tm_sMod t)) \/ In z (sm_hiS (tm_sMod t)) -> ~ ph_min ph < dr_rayParam z < ph_max ph.
  Hypothesis Hrdy : rays_ready t.
  Hypothesis Hun : uniform (tm_sMod t) w v.
  Hypothesis Hus : usable (tm_sMod t) w.
  Hypothesis Hpr : proper t w v.
  Hypothesis Hme : b_meet (TauSpec.branches t w).
  Hypothesis H0 : nth_error (TauSpec.branches t w) 0 = Some b0.
  Hypothesis T0 : tb_top b0 = 0.
  Hypothesis Hb : nth_error (TauSpec.branches t w) n = Some b.
  Hypothesis Hseq : down_up w (S n) (ph_seq ph).


  (** A sample whose ray does not turn above the reflector takes the time of the straight way there and back. *)
  Theorem C74_reflected : forall k p d tm, nth_error (curve_of ph) k = Some (p, d, tm) -> (exists q, In q (ph_rayParams ph) /\ q <> p) ->
    let r := sm_radius (tm_sMod t) in
    0 <= p * v <= r - tb_bot b -> 0 < r - tb_bot b -> 0 < tb_bot b ->
    tm = 2 * between r (r - tb_bot b) (d / 2) / v /\ 0 <= d <= PI /\ r - tb_bot b <= r * cos (d / 2).
  Proof.
    intros k p d tm Hk Hq r Ha R0 B0.
    destruct (C73_phase show ws t tid name ph w v n b0 b H Hlen Hr Nd Nh Hz Hrdy Hun Hus Hpr Hme H0 T0 Hb Hseq k p d tm Hk Hq) as [_ [Ed Et]].
    fold r in Ed, Et. pose proof (proj1 Hun) as Hv.
    destruct (echo_ok (p * v) (r - tb_bot b) r Ha R0 ltac:(lra)) as [A [B C]]. cbv zeta in A, B, C.
    replace (d / 2) with (line_angle (p * v) r - line_angle (p * v) (r - tb_bot b)) by lra.
    split; [|split; [lra|exact B]]. rewrite C, <- Et. field. lra.
  Qed.

  (** The time of an arrival is never earlier than along that way, and later by at most the difference of the ray parameters of its two
      samples times a quarter of the difference of their distances. *)
  Theorem C74_arrival : forall fuel deg l a, decreasing (tm_rayParams t) ->
    let r := sm_radius (tm_sMod t) in
    tb_bot b < r -> 0 <= tb_bot b -> (forall p, In p (ph_rayParams ph) -> 0 <= p /\ p * v <= r - tb_bot b) ->
    ph_calcTime fuel ph deg = Ok l -> In a l ->
    exists k p0 p1 d0 d1, ar_index a = Z.of_nat k /\
      nth_error (ph_rayParams ph) k = Some p0 /\ nth_error (ph_rayParams ph) (S k) = Some p1 /\
      nth_error (ph_dist ph) k = Some d0 /\ nth_error (ph_dist ph) (S k) = Some d1 /\ d1 <= ar_dist a <= d0 /\ p1 < p0 /\
      0 <= ar_time a - 2 * between r (r - tb_bot b) (ar_dist a / 2) / v <= (p0 - p1) * (d0 - d1) / 4.
  Proof.
    intros fuel deg l a Dec r R0 B0 Hp Hc Ha.
    destruct (C08_interpolation fuel ph deg l a Hc Ha) as [k [d0 [d1 [u0 [u1 [p0 [p1 [Ei [D0 [D1 [U0 [U1 [P0 [P1 _]]]]]]]]]]]]]].
    assert (Hne : ph_rayParams ph <> []) by (intros E; rewrite E in P0; destruct k; discriminate).
    destruct (neighbours show ws t tid name ph fuel deg l a k p0 p1 d0 d1 H Hne Hlen Hr Nd Nh Hz Dec Hc Ha Ei P0 P1 D0 D1)
      as [i [t0 [t1 [Q0 [Q1 [Lt [X0 [Y0 [X1 [Y1 [[Hd On] B]]]]]]]]]]].
    destruct (down_up_values t w v p0 i Hrdy Hun Hus Hpr Q0 Hme n (ph_seq ph) d0 t0 b0 b Hseq H0 T0 Hb X0 Y0) as [E0 F0].
    destruct (down_up_values t w v p1 (S i) Hrdy Hun Hus Hpr Q1 Hme n (ph_seq ph) d1 t1 b0 b Hseq H0 T0 Hb X1 Y1) as [E1 F1]. fold r in E0, F0, E1, F1.
    destruct (Hp p0 (nth_error_In _ _ P0)) as [N0 M0]. destruct (Hp p1 (nth_error_In _ _ P1)) as [N1 M1].
    destruct (between_echoes r (r - tb_bot b) v p0 p1 d0 d1 t0 t1 (ar_dist a) (ar_time a) ltac:(lra) ltac:(lra) (proj1 Hun) (conj N1 Lt) M0 E0 F0 E1 F1 Hd B On) as [Ld G].
    exists k, p0, p1, d0, d1. do 5 (split; [assumption|]). split; [destruct B; lra|]. split; [exact Lt|exact G].
  Qed.
End Phase.
Print Assumptions C74_reflected.
Print Assumptions C74_arrival.

(** In constructed models the rays that are reflected at the bottom of a branch are exactly those that come near enough to the centre. *)
Theorem C74_limit : forall fuel fuel' vm dp Dp dz dx err innerS tol (m : smodel R) t w v b,
  newSlownessModel fuel vm dp Dp dz dx err innerS tol = Ok m -> newTauModel fuel' m = Ok t ->
  VelSpec.thick (vm_layers vm) -> vm_radius vm = 6371 -> no_flat vm innerS -> fluid_above_inner_core vm innerS ->
  one_velocity vm innerS w v -> 6371 / v <= n_lit 1 300 -> In b (TauSpec.branches t w) ->
  tb_minTurnRP b * v = 6371 - tb_bot b.
Proof.
  intros fuel fuel' vm dp Dp dz dx err innerS tol m t w v b H HT Ht Hr Hnf Hfi Ho Hbig Hb.
  apply Rle_antisym; [|exact (C73_turning _ _ _ _ _ _ _ _ _ _ _ _ w v b H HT Ht Hr Hnf Hfi Ho Hbig Hb)].
  destruct (C73_constructed _ _ _ _ _ _ _ _ _ _ _ _ w v H HT Ht Hr Hnf Hfi Ho) as [Em [Er [[Hv Un] [Pr _]]]]. rewrite Er in Un.
  destruct (g_good _ _ _ _ _ _ _ _ _ _ H Ht Hr w) as [Gm [Gu _]].
  destruct (Pr b Hb) as [_ [_ [_ [yb [Ib Yb]]]]]. rewrite Em in Ib.
  assert (U : forall s, upper_side (sm_layers m w) (tb_bot b) s -> s <= (6371 - tb_bot b) / v).
  { intros s [i [y [[[z [Hz [_ Hh]]] _] [Hy ->]]]]. assert (z = y) by congruence. subst z. apply Rleb_le in Hh.
    rewrite (proj2 (Un y (nth_error_In _ _ Hy))). unfold Rdiv. apply Rmult_le_compat_r; [apply Rlt_le, Rinv_0_lt_compat; exact Hv|lra]. }
  assert (M : tb_minTurnRP b <= (6371 - tb_bot b) / v).
  { destruct (C52_least _ _ _ _ _ _ _ _ _ _ _ _ H HT Ht Hr w b Hb) as [A [B _]].
    destruct (Classical_Prop.classic (in_hi_zone m w (tb_bot b))) as [Z|Z]; [|exact (U _ (B Z))].
    destruct (has_shallowest (sm_layers m w) (tb_bot b) Gu) as [i Hi]; [exists yb; split; [exact Ib|right; apply Reqb_eq; exact Yb]|].
    destruct (proj1 Hi) as [y [Hy _]].
    assert (V : upper_side (sm_layers m w) (tb_bot b) (sl_botP y)) by (exists i, y; auto).
    apply Rle_trans with (2 := U _ V). apply Rleb_le. apply (proj2 (A Z)). right. right. exact V. }
  apply (Rmult_le_compat_r v) in M; [|lra]. replace ((6371 - tb_bot b) / v * v) with (6371 - tb_bot b) in M by (field; lra). exact M.
Qed.
Print Assumptions C74_limit.

(** ** Hypotheses met: PcP at 60 degrees in a planet of radius 2 with a core of radius 1 *)
Example C74_ex_line : between 2 1 (PI / 3) = sqrt 3.
Proof.
  pose proof (between_sqr 2 1 (PI / 3)) as [N E]. rewrite cos_PI3 in E. symmetry. rewrite <- (sqrt_square _ N), E. f_equal. field.
Qed.
Example C74_ex : forall s, s = 2 * sin (PI / 3) -> exists ph fuel l a,
  newPhase x_show [] (e_t s) 0 "PcP" = Ok ph /\ ph_calcTime fuel ph 60 = Ok l /\ In a l /\ ar_dist a = PI / 3 /\
  (forall p, In p (ph_rayParams ph) -> 0 <= p /\ p * 1 <= 2 - 1) /\ down_up true 1 (ph_seq ph) /\
  0 <= ar_time a - 2 * between 2 1 (PI / 6) <= PI / 6.
Proof.
  intros s Es. pose proof PI_RGT_0 as HP. destruct (C73_ex s Es) as [_ [_ [_ [_ [_ [_ [_ [_ [_ [Un [Us [Pr [Me _]]]]]]]]]]]]].
  eassert (Hp : newPhase x_show [] (e_t s) 0 "PcP" = Ok _) by run.
  match type of Hp with _ = Ok ?p => set (ph := p) in * end. exists ph.
  destruct e_vlayers as [Hc Ht].
  edestruct (C37_defined ph 60) as [fuel Hf];
    [exact Hc|exact Ht| | |reflexivity|reflexivity| |reflexivity|reflexivity| |reflexivity|exact e_speed|exact e_speed| |].
  { cbn. lra. }
  { intros Hk; apply is_kmps_iff in Hk; discriminate. }
  { intros i Hi. cbn in Hi. assert (i = 0)%nat by lia. subst i. cbn. intros E. injection E as E. lra. }
  { exact (eq_refl : ph_legs ph = ["P"; "c"] ++ ["P"; "END"]). }
  { cbn. intros p [<-|[<-|[]]]; split; apply Rabs_le; lra. }
  destruct (Hf fuel ltac:(lia)) as [l Hl]. exists fuel, l.
  assert (Hdeg : rad 60 = PI / 3) by (unfold rad; field).
  destruct (calcTime_complete fuel ph 60 l 0 (PI / 3) Hl) as [a [Ha [Ed Ei]]].
  { cbn. rewrite (proj2 (Rltb_false _ _)) by lra. lra. } { rewrite Hdeg. reflexivity. }
  { exists (0 + 2 * (PI / 3)), 0, 1, 0. do 4 (split; [reflexivity|]). split; [right; lra|]. split; [intros; lra|]. intros; lra. }
  exists a.
  assert (Du : down_up true 1 (ph_seq ph)) by (split; [reflexivity|]; intros g [<-|[<-|[]]]; reflexivity).
  assert (Tu : forall p, In p (ph_rayParams ph) -> 0 <= p /\ p * 1 <= 2 - 1) by (intros p [<-|[<-|[]]]; lra).
  destruct (C74_arrival x_show [] (e_t s) 0 "PcP" ph true 1 0 _ _ Hp eq_refl
    ltac:(exists 2; split; [left; reflexivity|cbn; lra]) ltac:(intros [X|X]; not_in X) ltac:(intros [X|X]; not_in X) ltac:(intros z [[]|[]])
    (e_rays s Es) Un Us Pr Me eq_refl eq_refl eq_refl Du fuel 60 l a (e_decreasing s) ltac:(cbn; lra) ltac:(cbn; lra) Tu Hl Ha)
    as [k [p0 [p1 [d0 [d1 [Ek [P0 [P1 [D0 [D1 [_ [_ G]]]]]]]]]]]].
  assert (k = 0%nat) by (rewrite Ei in Ek; lia). subst k. cbn in P0, P1, D0, D1.
  injection P0 as <-. injection P1 as <-. injection D0 as <-. injection D1 as <-. rewrite Ed in G. cbn [sm_radius tm_sMod e_t e_s tb_bot] in G.
  replace (PI / 3 / 2) with (PI / 6) in G by field. replace (2 - 1) with 1 in G by ring.
  split; [exact Hp|]. split; [exact Hl|]. split; [exact Ha|]. split; [exact Ed|]. split; [exact Tu|]. split; [exact Du|]. lra.
Qed.
(** the models of C73_ex_constructed also meet the hypotheses of C74_limit *)
Example C74_ex_limit : exists e tA xA tB xB b, In b (TauSpec.branches (two_t e tA xA tB xB) true) /\ tb_minTurnRP b * 1 = 6371 - tb_bot b.
Proof.
  destruct C73_ex_constructed as [e [tA [xA [tB [xB [A [B [C [D [E [F [G [_ [H [_ [_ [b [Hb _]]]]]]]]]]]]]]]]]].
  exists e, tA, xA, tB, xB, b. split; [exact Hb|]. exact (C74_limit _ _ _ _ _ _ _ _ _ _ _ _ true 1 b A B C D E F G H Hb).
Qed.

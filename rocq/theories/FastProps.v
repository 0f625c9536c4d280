(** Property C75: where waves have one velocity everywhere, no phase is faster than the straight line. *)
From Coq Require Import ZArith Bool List String Reals Lia Lra Psatz.
From Verif Require Import Base Num PyStr VelocityModel VelSpec SlownessLayer SlownessModel SlowSpec SlowProofs SlowRealProofs StackSpec StackProofs TauModel SeismicPhase
  TauSpec TauProofs CurveSpec CurveProofs CurveMainProofs CurveProps TimeSpec TimeProps PathSpec PathProofs PathLegProofs
  NameSpec NameProofs RouteSpec RouteProofs RouteProps BullenSpec BullenProofs ErrSpec ErrProofs ErrLegProofs ErrProps CalcTimeProofs RealRun
  ChordSpec ChordProofs ChordProps EchoSpec EchoProofs EchoProps FastSpec FastProofs.
Import ListNotations.
Local Open Scope string_scope.
Local Open Scope list_scope.
Local Open Scope R_scope.

(** Legs that lead from one depth to another take at least as long as the straight way between their ends. *)
Theorem C75_legs : forall t w v p i l x y d tm, rays_ready t -> uniform (tm_sMod t) w v -> usable (tm_sMod t) w -> proper t w v ->
  nth_error (tm_rayParams t) i = Some p -> 0 <= p -> walk t w x l y ->
  legs_total t tb_dist (Z.of_nat i) l d -> legs_total t tb_time (Z.of_nat i) l tm ->
  let r := sm_radius (tm_sMod t) in
  p * v < r - x -> p * v < r - y -> between (r - x) (r - y) d <= v * tm.
Proof.
  intros t w v p i l x y d tm Hrdy Hun Hus Hpr Hp P0 W D T r Lx Ly.
  pose proof (walk_time t w v p i Hrdy Hun Hus Hpr Hp P0 l x y W d tm D T) as G. fold r in G. unfold clip in G.
  destruct (Rle_dec (r - x) (p * v)); [lra|]. destruct (Rle_dec (r - y) (p * v)); [lra|]. exact G.
Qed.
Print Assumptions C75_legs.

Section Phase.
  Variables (show : R -> string) (ws : list R) (t : tmodel R) (tid : Z) (name : string) (ph : phase R) (w : bool) (v : R).
  Hypothesis H : newPhase show ws t tid name = Ok ph.
  Hypothesis Hlen : List.length (tm_S t) = List.length (tm_P t).
  Hypothesis Hr : exists r, In r (tm_rayParams t) /\ ph_max ph <= r.
  Hypothesis Nd : ~ diffracted name.
  Hypothesis Nh : ~ head_wave name.
  Hypothesis Hz : forall z, In z (sm_hiP (tm_sMod t)) \/ In z (sm_hiS (tm_sMod t)) -> ~ ph_min ph < dr_rayParam z < ph_max ph.
  Hypothesis Hrdy : rays_ready t.
  Hypothesis Hun : uniform (tm_sMod t) w v.
  Hypothesis Hus : usable (tm_sMod t) w.
  Hypothesis Hpr : proper t w v.
  Hypothesis Pos : forall p, In p (tm_rayParams t) -> 0 <= p.
  Let r := sm_radius (tm_sMod t).
  Hypothesis R0 : 0 <= r.

  Section Given.
    Hypothesis Hseq : walk t w 0 (ph_seq ph) 0.
    (** No sample of a phase from the surface to the surface is earlier than along the straight line, *)
    Theorem C75_sample : forall k p d tm, nth_error (curve_of ph) k = Some (p, d, tm) -> straight r d <= v * tm.
    Proof.
      intros k p d tm Hk.
      assert (Hne : ph_rayParams ph <> []) by (intros E; unfold curve_of in Hk; rewrite E in Hk; destruct k; discriminate).
      assert (One : forall i d' tm', (0 <= i)%Z -> (exists q, at_index (tm_rayParams t) i q) -> legs_total t tb_dist i (ph_seq ph) d' -> legs_total t tb_time i (ph_seq ph) tm' ->
        straight r d' <= v * tm').
      { intros i d' tm' I0 [q Q] D T. replace i with (Z.of_nat (Z.to_nat i)) in Q, D, T by lia. apply at_index_nat in Q.
        exact (walk_surface t w v q _ Hrdy Hun Hus Hpr Q (Pos q (nth_error_In _ _ Q)) (ph_seq ph) d' tm' R0 Hseq D T). }
      destruct (C33_sum_of_legs_no_zone show ws t tid name ph H Hne Hlen Hr Nd Nh Hz) as [lo [hi [[L0 [[q [Q _]] _]] [_ [[_ [_ C]]|[_ [d' [tm' [Ec [D T]]]]]]]]]].
      - destruct (C _ _ _ _ Hk) as [A [B F]]. apply (One (lo + Z.of_nat k)%Z d tm ltac:(lia)); [exists p; exact A|exact B|exact F].
      - rewrite Ec in Hk. assert (E : d = d' /\ tm = tm').
        { destruct k as [|[|k]]; [injection Hk as _ <- <-; auto|injection Hk as _ <- <-; auto|destruct k; discriminate Hk]. }
        destruct E as [-> ->]. apply (One lo d' tm' L0); [exists q; left; split; [exact L0|exact Q]|exact D|exact T].
    Qed.
    (** and no arrival by more than half the distance between its two samples. *)
    Theorem C75_arrival : forall fuel deg l a, decreasing (tm_rayParams t) -> ph_calcTime fuel ph deg = Ok l -> In a l ->
      exists k d0 d1, ar_index a = Z.of_nat k /\ nth_error (ph_dist ph) k = Some d0 /\ nth_error (ph_dist ph) (S k) = Some d1 /\
        straight r (ar_dist a) / v - r / v * Rabs (d1 - d0) / 2 <= ar_time a.
    Proof.
      intros fuel deg l a Dec Hc Ha.
      destruct (C08_interpolation fuel ph deg l a Hc Ha) as [k [d0 [d1 [u0 [u1 [p0 [p1 [Ei [D0 [D1 [U0 [U1 [P0 [P1 _]]]]]]]]]]]]]].
      assert (Hne : ph_rayParams ph <> []) by (intros E; rewrite E in P0; destruct k; discriminate).
      destruct (neighbours show ws t tid name ph fuel deg l a k p0 p1 d0 d1 H Hne Hlen Hr Nd Nh Hz Dec Hc Ha Ei P0 P1 D0 D1)
        as [i [t0 [t1 [Q0 [Q1 [Lt [X0 [Y0 [X1 [Y1 [[Hd On] B]]]]]]]]]]].
      pose proof (walk_surface t w v p0 i Hrdy Hun Hus Hpr Q0 (Pos _ (nth_error_In _ _ Q0)) _ _ _ R0 Hseq X0 Y0) as S0.
      pose proof (walk_surface t w v p1 (S i) Hrdy Hun Hus Hpr Q1 (Pos _ (nth_error_In _ _ Q1)) _ _ _ R0 Hseq X1 Y1) as S1.
      fold r in S0, S1. assert (Hv : 0 < v) by exact (proj1 Hun).
      pose proof (fast_between r v d0 d1 t0 t1 (ar_dist a) (ar_time a) R0 Hv S0 S1 Hd B On) as G.
      exists k, d0, d1. do 3 (split; [assumption|]). apply Rmult_le_reg_l with v; [exact Hv|].
      replace (v * (straight r (ar_dist a) / v - r / v * Rabs (d1 - d0) / 2)) with (straight r (ar_dist a) - r * Rabs (d1 - d0) / 2) by (field; lra). lra.
    Qed.
  End Given.

  (** All standard phases whose legs are of one wave type are such phases if the source is at the surface. *)
  Theorem C75_textbook : forall legs path b0,
    tm_sourceBranch t = 0%Z -> (0 <= tm_mohoBranch t < tm_cmbBranch t)%Z ->
    (tm_cmbBranch t < tm_iocbBranch t < Z.of_nat (List.length (tm_P t)))%Z ->
    textbook (tm_sourceBranch t) (tm_mohoBranch t) (tm_cmbBranch t) (tm_iocbBranch t) (Z.of_nat (List.length (tm_P t))) legs path ->
    name = join legs -> ~ (exists x, In x legs /\ In x boundary_legs) ->
    b_meet (TauSpec.branches t w) -> nth_error (TauSpec.branches t w) 0 = Some b0 -> tb_top b0 = 0 ->
    (forall s, In s (ph_seq ph) -> sg_isP s = w) -> ph_rayParams ph <> [] ->
    walk t w 0 (ph_seq ph) 0.
  Proof.
    intros legs path b0 H1 H2 H3 Ht En Nb Me H0 T0 Hw Hne.
    destruct (C33_sum_of_legs show ws t tid name ph H Hne Hlen Hr Nd Nh) as [lo [hi [base [c1 [o1 [o2 [A [_ [Mx [_ [Cu _]]]]]]]]]]].
    assert (L : forall s, In s (ph_seq ph) -> exists b, leg_branch t s b).
    { destruct Cu as [[Lc [Cl C]]|[_ [d' [tm' [_ [D _]]]]]]; [|exact (total_legs _ _ _ _ _ D)].
      destruct (nth_error base 0) as [[[p d] tm]|] eqn:E0; [destruct (C _ _ _ _ E0) as [_ [D _]]; exact (total_legs _ _ _ _ _ D)|].
      apply nth_error_None in E0. lia. }
    rewrite En in H.
    destruct (C32_sequence show ws t tid legs path ph ltac:(lia) H2 H3 Hlen Ht H) as [Es|[E _]].
    2: { exfalso. rewrite E in Mx. cbn in Mx. rewrite Rlit_IZR in Mx. apply le_IZR in Mx. lia. }
    assert (H4 : (0 <= tm_sourceBranch t < tm_cmbBranch t)%Z) by lia.
    destruct (route_textbook _ _ _ _ _ H4 H2 H3 _ _ Ht) as [X|Ro]; [contradiction|]. rewrite H1 in Ro.
    destruct (route_walk t w 0 path 0 Me Ro (ph_seq ph) 0 Es Hw L) as [y [Ey W]]; [left; exists b0; split; [exact H0|exact T0]|].
    assert (Y : y = tb_top b0) by (apply (edge_top _ 0 y b0 Me ltac:(lia) Ey); exact H0). rewrite T0 in Y. subst y. exact W.
  Qed.
End Phase.
Print Assumptions C75_sample.
Print Assumptions C75_arrival.
Print Assumptions C75_textbook.

(** ** Hypotheses met: PP in a planet of radius 2; its longest distance is more than half around *)
Example C75_ex : forall s, s = 2 * sin (PI / 3) -> exists ph,
  newPhase x_show [] (e_t s) 0 "PP" = Ok ph /\ walk (e_t s) true 0 (ph_seq ph) 0 /\ (forall p, In p (tm_rayParams (e_t s)) -> 0 <= p) /\
  nth_error (curve_of ph) 1 = Some (1, 4 * (PI / 3), 4 * s) /\ straight 2 (4 * (PI / 3)) <= 4 * s.
Proof.
  intros s Es. pose proof PI_RGT_0 as HP. destruct (C73_ex s Es) as [_ [_ [_ [_ [_ [_ [_ [_ [_ [Un [Us [Pr [Me _]]]]]]]]]]]]].
  eassert (Hp : newPhase x_show [] (e_t s) 0 "PP" = Ok _) by run.
  match type of Hp with _ = Ok ?p => set (ph := p) in * end. exists ph.
  assert (W : walk (e_t s) true 0 (ph_seq ph) 0).
  { set (b := mkTB 0 1 true 2 1 1 [0; PI / 3; 0] [0; s; 1] [0; s - 1 * (PI / 3); 1]).
    assert (Lb : forall g, sg_isP g = true -> sg_branch g = 0%Z -> leg_branch (e_t s) g b) by (intros g G1 G2; unfold leg_branch; rewrite G1, G2; left; split; [lia|reflexivity]).
    cbn [ph_seq ph]. change (walk (e_t s) true (tb_top b) (ph_seq ph) 0).
    apply (wk_down _ _ _ _ b); [reflexivity|reflexivity|apply Lb; reflexivity|]. apply (wk_up _ _ _ _ b); [reflexivity|reflexivity|apply Lb; reflexivity|].
    apply (wk_down _ _ _ _ b); [reflexivity|reflexivity|apply Lb; reflexivity|]. apply (wk_up _ _ _ _ b); [reflexivity|reflexivity|apply Lb; reflexivity|].
    apply wk_end. }
  assert (Po : forall p, In p (tm_rayParams (e_t s)) -> 0 <= p) by (intros p [<-|[<-|[<-|[]]]]; lra).
  assert (Cu : nth_error (curve_of ph) 1 = Some (1, 4 * (PI / 3), 4 * s)) by (cbn; f_equal; f_equal; [f_equal|]; field).
  split; [exact Hp|]. split; [exact W|]. split; [exact Po|]. split; [exact Cu|].
  rewrite <- (Rmult_1_l (4 * s)).
  refine (C75_sample x_show [] (e_t s) 0 "PP" ph true 1 Hp eq_refl _ _ _ _ (e_rays s Es) Un Us Pr Po _ W 1%nat _ _ _ Cu).
  - exists 2. split; [left; reflexivity|cbn; lra].
  - intros [X|X]; not_in X.
  - intros [X|X]; not_in X.
  - intros z [[]|[]].
  - cbn. lra.
Qed.
(** PKP in the Earth of C32 *)
Example C75_ex_textbook : exists ph, newPhase x_show [] (q_t 0) 0 "PKP" = Ok ph /\ List.length (ph_seq ph) = 6%nat /\ walk (q_t 0) true 0 (ph_seq ph) 0.
Proof.
  eassert (Hp : newPhase x_show [] (q_t 0) 0 "PKP" = Ok _) by run.
  match type of Hp with _ = Ok ?p => set (ph := p) in * end. exists ph. split; [exact Hp|]. split; [reflexivity|].
  refine (C75_textbook x_show [] (q_t 0) 0 "PKP" ph true Hp eq_refl _ _ _ ["P"; "K"; "P"] _ _ eq_refl _ _
    (te_down _ _ _ _ _ _ _ (ar_plain _ _ _ _ _ _ _ (rs_one _ _ _ _ _ _ _ (ra_core _ _ _ _ _ "P" true ["K"] true _ "P" true ml_P (co_one _ _ _ _ _ _ _ (bo_turn _ _ _ true)) ml_P))))
    eq_refl _ _ eq_refl eq_refl _ _).
  - exists 4. split; [left; reflexivity|cbn; lra].
  - intros [X|X]; not_in X.
  - intros [X|X]; not_in X.
  - cbn. lia.
  - cbn. lia.
  - intros [x [[<-|[<-|[<-|[]]]] Hx]]; repeat (destruct Hx as [Hx|Hx]; [discriminate Hx|]); contradiction.
  - intros [|[|[|[|k]]]] x y Hx Hy; cbn in Hx, Hy; try discriminate Hy; injection Hx as <-; injection Hy as <-; reflexivity.
  - intros g Hg. cbn in Hg. repeat (destruct Hg as [<-|Hg]; [reflexivity|]). contradiction.
  - discriminate.
Qed.

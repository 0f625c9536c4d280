(** Property C56: the accuracy of interpolated arrival times. *)
From Coq Require Import ZArith Bool List String Ascii Reals Lia Lra Sorting.Sorted.
From Verif Require Import Base Num PyStr VelocityModel SlownessLayer SlownessModel SlowSpec SlowProofs TauModel Legs SeismicPhase
  TauSpec TauProofs CurveSpec CurveProofs CurveMainProofs CurveProps TimeSpec TimeProofs TimeProps PathSpec PathProofs PathLegProofs VelSpec AngleSpec AngleProofs NameSpec NameProofs CalcTimeProofs RouteSpec RouteProofs AngleRouteProofs RouteProps AngleProps
  BullenSpec BullenProofs ErrSpec ErrProofs ErrLegProofs ErrExistProofs SlowRealProofs RealRun ShellProps PierceProps
  CritSpec CritProofs CritProps StackSpec StackProofs SlowProps SampleProofs TauBuildProofs TauProps MonoSpec MonoProps LimitProps BuildRun.
Import ListNotations.
Local Open Scope string_scope.
Local Open Scope list_scope.
Local Open Scope R_scope.

(** the two samples of a phase between which an arrival was interpolated, and what they stand for *)
Lemma neighbours : forall show w t tid name ph fuel deg l a k p0 p1 d0 d1,
  newPhase show w t tid name = Ok ph -> ph_rayParams ph <> [] ->
  List.length (tm_S t) = List.length (tm_P t) -> (exists r, In r (tm_rayParams t) /\ ph_max ph <= r) ->
  ~ diffracted name -> ~ head_wave name ->
  (forall z, In z (sm_hiP (tm_sMod t)) \/ In z (sm_hiS (tm_sMod t)) -> ~ ph_min ph < dr_rayParam z < ph_max ph) ->
  decreasing (tm_rayParams t) ->
  ph_calcTime fuel ph deg = Ok l -> In a l ->
  ar_index a = Z.of_nat k -> nth_error (ph_rayParams ph) k = Some p0 -> nth_error (ph_rayParams ph) (S k) = Some p1 ->
  nth_error (ph_dist ph) k = Some d0 -> nth_error (ph_dist ph) (S k) = Some d1 ->
  exists n t0 t1, nth_error (tm_rayParams t) n = Some p0 /\ nth_error (tm_rayParams t) (S n) = Some p1 /\ p1 < p0 /\
    legs_total t tb_dist (Z.of_nat n) (ph_seq ph) d0 /\ legs_total t tb_time (Z.of_nat n) (ph_seq ph) t0 /\
    legs_total t tb_dist (Z.of_nat (S n)) (ph_seq ph) d1 /\ legs_total t tb_time (Z.of_nat (S n)) (ph_seq ph) t1 /\
    on_line d0 t0 d1 t1 (ar_dist a) (ar_time a) /\ TimeSpec.between d0 (ar_dist a) d1.
Proof.
  intros show w t tid name ph fuel deg l a k p0 p1 d0 d1 H Hne Hlen Hr Nd Nh Hz Dec Hc Ha Hk P0 P1 D0 D1.
  destruct (C08_interpolation fuel ph deg l a Hc Ha) as [i [e0 [e1 [t0 [t1 [q0 [q1 [Ei [E0 [E1 [T0 [T1 [Q0 [Q1 [L [_ [B _]]]]]]]]]]]]]]]]].
  assert (i = k) by lia. subst i.
  assert (e0 = d0) by congruence. assert (e1 = d1) by congruence. subst e0 e1. clear q0 q1 Q0 Q1 E0 E1.
  assert (C0 : nth_error (curve_of ph) k = Some (p0, d0, t0)) by (apply nth_error_combine; split; [apply nth_error_combine; split|]; assumption).
  assert (C1 : nth_error (curve_of ph) (S k) = Some (p1, d1, t1)) by (apply nth_error_combine; split; [apply nth_error_combine; split|]; assumption).
  destruct (C33_sum_of_legs_no_zone show w t tid name ph H Hne Hlen Hr Nd Nh Hz) as [lo [hi [[L0 _] [_ [[_ [_ C]]|[_ [d [tm [Ec _]]]]]]]]].
  - destruct (C _ _ _ _ C0) as [A0 [B0 F0]]. destruct (C _ _ _ _ C1) as [A1 [B1 F1]].
    set (n := Z.to_nat (lo + Z.of_nat k)).
    assert (N0 : (lo + Z.of_nat k = Z.of_nat n)%Z) by (unfold n; lia). assert (N1 : (lo + Z.of_nat (S k) = Z.of_nat (S n))%Z) by (unfold n; lia).
    rewrite N0 in A0, B0, F0. rewrite N1 in A1, B1, F1. apply at_index_nat in A0, A1.
    exists n, t0, t1. split; [exact A0|]. split; [exact A1|]. split; [|tauto].
    exact (nth_decreasing _ n (S n) p0 p1 Dec (le_n (S n)) A0 A1).
  - exfalso. rewrite Ec in C0, C1. destruct L as [Hd _]. destruct k as [|k]; [|destruct k; discriminate C1].
    cbn in C0, C1. congruence.
Qed.

(** The time of an arrival is interpolated between two samples; compare it with the time of an exact ray of the phase that
    arrives at the same distance, with a parameter between those of the samples.  Apart from [D], the distance that
    the second sample covers in the layers in which the ray turns, it is never too small; the error is at most the
    difference of the ray parameters times a quarter of the difference of the distances plus [D]. *)
Theorem C56_error : forall show w t tid name ph fuel deg l a k p0 p1 d0 d1 p T D,
  newPhase show w t tid name = Ok ph -> ph_rayParams ph <> [] ->
  List.length (tm_S t) = List.length (tm_P t) -> (exists r, In r (tm_rayParams t) /\ ph_max ph <= r) ->
  ~ diffracted name -> ~ head_wave name ->
  (forall z, In z (sm_hiP (tm_sMod t)) \/ In z (sm_hiS (tm_sMod t)) -> ~ ph_min ph < dr_rayParam z < ph_max ph) ->
  decreasing (tm_rayParams t) -> rays_ready t -> regular (tm_sMod t) ->
  ph_calcTime fuel ph deg = Ok l -> In a l ->
  ar_index a = Z.of_nat k -> nth_error (ph_rayParams ph) k = Some p0 -> nth_error (ph_rayParams ph) (S k) = Some p1 ->
  nth_error (ph_dist ph) k = Some d0 -> nth_error (ph_dist ph) (S k) = Some d1 ->
  0 <= p1 -> nothing_between t p1 p0 ->
  p1 < p < p0 -> exact_ray t p p1 (ph_seq ph) (ar_dist a) T D ->
  - ((p0 - p1) * D) <= ar_time a - T <= (p0 - p1) * (Rmax 0 (d0 - d1) / 4 + D).
Proof.
  intros show w t tid name ph fuel deg l a k p0 p1 d0 d1 p T D H Hne Hlen Hr Nd Nh Hz Dec Hrdy Hreg Hc Ha Hk P0 P1 D0 D1 N1 Hgap Hp Hx.
  destruct (neighbours show w t tid name ph fuel deg l a k p0 p1 d0 d1 H Hne Hlen Hr Nd Nh Hz Dec Hc Ha Hk P0 P1 D0 D1)
    as [n [t0 [t1 [Q0 [Q1 [_ [X0 [T0 [X1 [T1 [[Hd On] B]]]]]]]]]]].
  apply (tri_error p0 p p1 d0 t0 (ar_dist a) T d1 t1 D (ar_time a) Hp); [|exact Hd|exact B|exact On].
  exact (legs_tri t p0 p p1 n (S n) Hrdy Hreg Hp N1 Hgap Q0 Q1 (ph_seq ph) _ _ _ Hx d0 t0 d1 t1 X0 T0 X1 T1).
Qed.
Print Assumptions C56_error.

(** A ray that is reflected or passes through, without turning in any layer, is never reported early. *)
Theorem C56_not_early : forall show w t tid name ph fuel deg l a k p0 p1 d0 d1 p T,
  newPhase show w t tid name = Ok ph -> ph_rayParams ph <> [] ->
  List.length (tm_S t) = List.length (tm_P t) -> (exists r, In r (tm_rayParams t) /\ ph_max ph <= r) ->
  ~ diffracted name -> ~ head_wave name ->
  (forall z, In z (sm_hiP (tm_sMod t)) \/ In z (sm_hiS (tm_sMod t)) -> ~ ph_min ph < dr_rayParam z < ph_max ph) ->
  decreasing (tm_rayParams t) -> rays_ready t -> regular (tm_sMod t) ->
  ph_calcTime fuel ph deg = Ok l -> In a l ->
  ar_index a = Z.of_nat k -> nth_error (ph_rayParams ph) k = Some p0 -> nth_error (ph_rayParams ph) (S k) = Some p1 ->
  nth_error (ph_dist ph) k = Some d0 -> nth_error (ph_dist ph) (S k) = Some d1 ->
  0 <= p1 -> nothing_between t p1 p0 ->
  p1 < p < p0 -> exact_ray t p p1 (ph_seq ph) (ar_dist a) T 0 ->
  d1 < d0 /\ T <= ar_time a <= T + (p0 - p1) * (d0 - d1) / 4.
Proof.
  intros show w t tid name ph fuel deg l a k p0 p1 d0 d1 p T H Hne Hlen Hr Nd Nh Hz Dec Hrdy Hreg Hc Ha Hk P0 P1 D0 D1 N1 Hgap Hp Hx.
  destruct (neighbours show w t tid name ph fuel deg l a k p0 p1 d0 d1 H Hne Hlen Hr Nd Nh Hz Dec Hc Ha Hk P0 P1 D0 D1)
    as [n [t0 [t1 [Q0 [Q1 [_ [X0 [T0 [X1 [T1 [[Hd On] B]]]]]]]]]]].
  pose proof (legs_tri t p0 p p1 n (S n) Hrdy Hreg Hp N1 Hgap Q0 Q1 (ph_seq ph) _ _ _ Hx d0 t0 d1 t1 X0 T0 X1 T1) as Tr.
  pose proof (tri_error p0 p p1 d0 t0 (ar_dist a) T d1 t1 0 (ar_time a) Hp Tr Hd B On) as E.
  destruct Tr as [x [y [c [d [Hx0 [Hy0 [Hc0 [Hd0 [E0 [E1 [E2 _]]]]]]]]]]].
  assert (Lt : d1 < d0) by lra. split; [exact Lt|]. rewrite Rmax_right in E by lra. lra.
Qed.
Print Assumptions C56_not_early.

(** There is such a ray for every arrival between two samples that all branches of the phase admit. *)
Theorem C56_ray_exists : forall show w t tid name ph fuel deg l a k p0 p1 d0 d1,
  newPhase show w t tid name = Ok ph -> ph_rayParams ph <> [] ->
  List.length (tm_S t) = List.length (tm_P t) -> (exists r, In r (tm_rayParams t) /\ ph_max ph <= r) ->
  ~ diffracted name -> ~ head_wave name ->
  (forall z, In z (sm_hiP (tm_sMod t)) \/ In z (sm_hiS (tm_sMod t)) -> ~ ph_min ph < dr_rayParam z < ph_max ph) ->
  decreasing (tm_rayParams t) -> rays_ready t -> regular (tm_sMod t) -> (forall v, s_join (sm_layers (tm_sMod t) v)) ->
  ph_calcTime fuel ph deg = Ok l -> In a l ->
  ar_index a = Z.of_nat k -> nth_error (ph_rayParams ph) k = Some p0 -> nth_error (ph_rayParams ph) (S k) = Some p1 ->
  nth_error (ph_dist ph) k = Some d0 -> nth_error (ph_dist ph) (S k) = Some d1 ->
  0 <= p1 -> nothing_between t p1 p0 ->
  (forall s b, In s (ph_seq ph) -> leg_branch t s b -> p0 <= tb_maxRP b /\ limit_at_top (tm_sMod t) b) ->
  strictly_between d0 d1 (ar_dist a) ->
  exists p T D, p1 < p < p0 /\ exact_ray t p p1 (ph_seq ph) (ar_dist a) T D /\
    - ((p0 - p1) * D) <= ar_time a - T <= (p0 - p1) * (Rmax 0 (d0 - d1) / 4 + D).
Proof.
  intros show w t tid name ph fuel deg l a k p0 p1 d0 d1 H Hne Hlen Hr Nd Nh Hz Dec Hrdy Hreg Hj Hc Ha Hk P0 P1 D0 D1 N1 Hgap Hl Hs.
  destruct (neighbours show w t tid name ph fuel deg l a k p0 p1 d0 d1 H Hne Hlen Hr Nd Nh Hz Dec Hc Ha Hk P0 P1 D0 D1)
    as [n [t0 [t1 [Q0 [Q1 [Lt [X0 [T0 [X1 [T1 _]]]]]]]]]].
  destruct (ray_between t p0 p1 n (S n) Hrdy Hreg Lt N1 Hgap Q0 Q1 Hj (ph_seq ph) d0 d1 (ar_dist a) Hl X0 X1 Hs) as [p [T [D [Hp Hx]]]].
  exists p, T, D. split; [exact Hp|]. split; [exact Hx|].
  exact (C56_error show w t tid name ph fuel deg l a k p0 p1 d0 d1 p T D H Hne Hlen Hr Nd Nh Hz Dec Hrdy Hreg Hc Ha Hk P0 P1 D0 D1 N1 Hgap Hp Hx).
Qed.
Print Assumptions C56_ray_exists.

(** The models that the constructors make for sources at the surface meet the general hypotheses. *)
Lemma made : forall fuel fuel' vm dp Dp dz dx err innerS tol (m : smodel R) t,
  newSlownessModel fuel vm dp Dp dz dx err innerS tol = Ok m -> newTauModel fuel' m = Ok t ->
  VelSpec.thick (vm_layers vm) -> vm_radius vm = 6371 -> no_flat vm innerS -> fluid_above_inner_core vm innerS ->
  tm_sMod t = m /\ List.length (tm_S t) = List.length (tm_P t) /\ decreasing (tm_rayParams t) /\ rays_ready t /\
  (forall v, s_join (sm_layers m v)) /\ (forall p, In p (tm_rayParams t) -> 0 <= p) /\
  (forall b, In b (tm_P t) \/ In b (tm_S t) -> limit_at_top m b).
Proof.
  intros fuel fuel' vm dp Dp dz dx err innerS tol m t H HT Ht Hr Hnf Hfi.
  pose proof (C25_branches_tile_exact _ _ _ _ _ _ _ _ _ _ _ _ H HT Ht) as Ti.
  assert (Em : tm_sMod t = m) by (apply newTauModel_inv in HT; tauto).
  destruct (C23_constructed_valid _ _ _ _ _ _ _ _ _ _ H (R_ok _)) as [_ [_ Sg]].
  destruct (C24_ray_parameters _ _ _ HT (fun v _ => R_ok v)) as [Rec [Dec _]].
  split; [exact Em|]. split.
  { pose proof (proj1 (proj1 (Ti true))) as A. pose proof (proj1 (proj1 (Ti false))) as B. cbn [TauSpec.branches] in A, B. lia. }
  split; [exact Dec|]. split; [exact (C48_rays_ready _ _ _ _ _ _ _ _ _ _ _ _ H HT Ht Hr Hnf Hfi)|].
  split; [intros v; apply (Sg v)|]. split.
  - intros p Hp. destruct Rec as [idx [_ [_ E]]].
    assert (Q : In (Some p) (map Some (tm_rayParams t))) by (apply in_map; exact Hp). rewrite <- E in Q. apply in_map_iff in Q.
    destruct Q as [i [Hi _]]. apply nth_error_In in Hi. unfold slownesses in Hi.
    destruct (Sg false) as [[_ [_ [_ Pos]]] _]. cbn [sm_layers] in Pos. apply in_flat_map in Hi.
    destruct Hi as [y [Hy Hi]]. destruct (Pos y Hy) as [A [B _]]. apply Rleb_true in A. apply Rleb_true in B. rewrite n_0_R in A, B.
    destruct Hi as [<-|[<-|[]]]; assumption.
  - intros b Hb.
    assert (Q : exists w, In b (TauSpec.branches t w)) by (destruct Hb as [Hb|Hb]; [exists true|exists false]; exact Hb).
    destruct Q as [w Hw]. pose proof (proj2 (proj2 (proj2 (Ti w))) b Hw) as [Ew _].
    destruct (C52_greatest _ _ _ _ _ _ _ _ _ _ _ _ H HT Ht Hr Hnf Hfi w b Hw) as [_ F].
    intros i y Hd Hi. rewrite Ew in Hd, Hi. apply F. exists y. split; [eapply nth_error_In; exact Hi|]. left. split; [|reflexivity].
    destruct Hd as [[z [Hz [A _]]] _]. rewrite Hi in Hz. injection Hz as <-. apply Rleb_true in A. exact A.
Qed.
Theorem C56_constructed : forall fuel fuel' vm dp Dp dz dx err innerS tol m t show w tid name ph fuel'' deg l a k p0 p1 d0 d1,
  newSlownessModel fuel vm dp Dp dz dx err innerS tol = Ok m -> newTauModel fuel' m = Ok t ->
  VelSpec.thick (vm_layers vm) -> vm_radius vm = 6371 -> no_flat vm innerS -> fluid_above_inner_core vm innerS ->
  newPhase show w t tid name = Ok ph -> ph_rayParams ph <> [] -> (exists r, In r (tm_rayParams t) /\ ph_max ph <= r) ->
  ~ diffracted name -> ~ head_wave name ->
  (forall z, In z (sm_hiP m) \/ In z (sm_hiS m) -> ~ ph_min ph < dr_rayParam z < ph_max ph) ->
  regular m ->
  ph_calcTime fuel'' ph deg = Ok l -> In a l ->
  ar_index a = Z.of_nat k -> nth_error (ph_rayParams ph) k = Some p0 -> nth_error (ph_rayParams ph) (S k) = Some p1 ->
  nth_error (ph_dist ph) k = Some d0 -> nth_error (ph_dist ph) (S k) = Some d1 -> nothing_between t p1 p0 ->
  (forall s b, In s (ph_seq ph) -> leg_branch t s b -> p0 <= tb_maxRP b) ->
  strictly_between d0 d1 (ar_dist a) ->
  exists p T D, p1 < p < p0 /\ exact_ray t p p1 (ph_seq ph) (ar_dist a) T D /\
    - ((p0 - p1) * D) <= ar_time a - T <= (p0 - p1) * (Rmax 0 (d0 - d1) / 4 + D).
Proof.
  intros fuel fuel' vm dp Dp dz dx err innerS tol m t show w tid name ph fuel'' deg l a k p0 p1 d0 d1
    Hm HT Ht Hrad Hnf Hfi H Hne Hr Nd Nh Hz Hreg Hc Ha Hk P0 P1 D0 D1 Hgap Hl Hs.
  destruct (made _ _ _ _ _ _ _ _ _ _ _ _ Hm HT Ht Hrad Hnf Hfi) as [Em [Hlen [Dec [Rdy [Hj [Pos Lim]]]]]].
  rewrite <- Em in Hz, Hreg, Hj, Lim.
  destruct (neighbours show w t tid name ph fuel'' deg l a k p0 p1 d0 d1 H Hne Hlen Hr Nd Nh Hz Dec Hc Ha Hk P0 P1 D0 D1)
    as [n [t0 [t1 [Q0 [Q1 _]]]]].
  apply (C56_ray_exists show w t tid name ph fuel'' deg l a k p0 p1 d0 d1 H Hne Hlen Hr Nd Nh Hz Dec Rdy Hreg Hj Hc Ha Hk P0 P1 D0 D1);
    [|exact Hgap| |exact Hs].
  - apply Pos. eapply nth_error_In. exact Q1.
  - intros s b Is Lb. split; [exact (Hl s b Is Lb)|]. apply Lim.
    unfold leg_branch in Lb. apply at_index_pos in Lb. apply nth_error_In in Lb. destruct (sg_isP s); auto.
Qed.
Print Assumptions C56_constructed.

(** ** Hypotheses met: a planet of radius 2 with velocity 1, a mantle and a core each 1 thick *)
Definition e_v : vmodel R := mkVModel "e" 2 (/ 2) 1 1 0 2 true [mkVLayer 0 0 2 1 1 1 1 1 1].
Definition e_ls : list (slayer R) := [mkSL 0 2 0 1 1; mkSL 1 1 1 0 2].
Definition e_s : smodel R := mkSM e_v 0 0 0 0 0 true (/ 100) 2 [] [] [] [] e_ls e_ls 2.
Definition e_bs (s : R) (isP : bool) : list (tbranch R) :=
  [mkTB 0 1 isP 2 1 1 [0; PI / 3; 0] [0; s; 1] [0; s - 1 * (PI / 3); 1];
   mkTB 1 2 isP 1 0 0 [0; 0; PI / 2] [0; 0; 1] [0; 0; 1]].
(** [s] is the time of the ray that turns at the core, 2 sin (pi/3), i.e. the square root of 3 *)
Definition e_t (s : R) : tmodel R := mkTM e_s [2; 1; 0] (e_bs s true) (e_bs s false) 0 1 1 (/ 2) 1 1 0 0 2.

Lemma e_layers : forall w, sm_layers e_s w = e_ls.
Proof. intros []; reflexivity. Qed.
Ltac e_layer k H := destruct k as [|[|k]]; cbn in H; [injection H as <-..|destruct k; discriminate H].
Lemma e_plain : plain_layer e_s (mkSL 0 2 0 1 1).
Proof.
  unfold plain_layer, thick, slow_pos. cbn [sl_topP sl_botP sl_topDepth sl_botDepth sm_radius sm_tolerance e_s].
  split; [lra|]. split; [lra|]. split; [lra|]. intros _. split; [field|lra].
Qed.
Lemma e_centre : centre_layer e_s (mkSL 1 1 1 0 2).
Proof. unfold centre_layer. cbn. lra. Qed.
Lemma e_regular : regular e_s.
Proof. intros w y Hy. rewrite e_layers in Hy. destruct Hy as [<-|[<-|[]]]; right; [left; exact e_plain|right; exact e_centre]. Qed.
Lemma e_power : power_law (mkSL 0 2 0 1 1) 2 1 1.
Proof. split; cbn [sl_topP sl_botP sl_topDepth sl_botDepth]; rewrite Rpower_1 by lra; lra. Qed.
Lemma e_cross : forall w p, 0 <= p <= 1 -> exists td, layerTimeDist e_s p 0 w = Ok td /\ td_p td = p /\ td_depth td = 0 /\
  td_time td = bullen_time (mkSL 0 2 0 1 1) 1 p /\ td_dist td = bullen_dist (mkSL 0 2 0 1 1) 1 p.
Proof.
  intros w p Hp. assert (Hg : getSlownessLayer e_s 0 w = Ok (mkSL 0 2 0 1 1)) by (destruct w; reflexivity).
  destruct (C19_straight_ray e_s 0 w (mkSL 0 2 0 1 1) p Hg) as [A _]; try (unfold slow_pos; cbn; lra).
  { cbn. replace ((2 - 0) / 2 - (2 - 1) / 1) with 0 by field. rewrite Rabs_R0. lra. }
  destruct A as [td [E [A1 [A2 _]]]]; [cbn; lra|]. exists td. split; [exact E|]. split; [exact A1|]. split; [exact A2|].
  exact (plain_values e_s p 0 w _ 1 1 td Hg e_plain e_power E).
Qed.
Lemma e_third : forall w, layerTimeDist e_s 1 0 w = Ok (mkTD 1 (2 * sin (PI / 3)) (PI / 3) 0).
Proof.
  intros w. assert (Hg : getSlownessLayer e_s 0 w = Ok (mkSL 0 2 0 1 1)) by (destruct w; reflexivity).
  destruct (e_cross w 1 ltac:(lra)) as [[p tm d z] [E [A1 [A2 _]]]]. cbn in A1, A2. subst p z.
  destruct (turn_sample e_s 0 w _ 1 _ 1 Hg (or_introl e_plain) ltac:(cbn; lra) eq_refl E) as [x [Hx [E1 [E2 E3]]]].
  { left. split; [cbn; lra|]. exists 1. exact e_power. }
  cbn [sl_topP td_dist td_time] in *. pose proof PI_RGT_0.
  assert (Ex : x = PI / 3).
  { assert (C : cos x = cos (PI / 3)) by (rewrite cos_PI3; lra). apply cos_inj; lra. }
  rewrite E, E2, E3, Ex. f_equal. f_equal; field.
Qed.
Lemma e_down : forall w, layerTimeDist e_s 0 0 w = Ok (mkTD 0 1 0 0).
Proof.
  intros w. destruct (e_cross w 0 ltac:(lra)) as [[p tm d z] [E [A1 [A2 [A3 A4]]]]]. cbn [td_p td_depth td_time td_dist] in *. subst p z.
  rewrite E, A3, A4. unfold bullen_time, bullen_dist. cbn [sl_topP sl_botP].
  rewrite !Ratan2_0 by apply sqrt_pos. replace (2 * 2 - 0 * 0) with (2 * 2) by ring. replace (1 * 1 - 0 * 0) with (1 * 1) by ring.
  rewrite !sqrt_square by lra. f_equal. f_equal; field.
Qed.
Lemma e_through : forall w, layerTimeDist e_s 0 1 w = Ok (mkTD 0 1 (PI / 2) 0).
Proof.
  intros w. assert (Hg : getSlownessLayer e_s 1 w = Ok (mkSL 1 1 1 0 2)) by (destruct w; reflexivity).
  destruct (C19_centre e_s 1 w _ 0 Hg) as [A _]; try (cbn; lra). apply A; [reflexivity|destruct w; reflexivity].
Qed.
Lemma e_meet : s_meet e_ls.
Proof. intros k a b Ha Hb. e_layer k Ha; cbn in Hb; try discriminate Hb; injection Hb as <-; apply Reqb_true; reflexivity. Qed.
Lemma e_join : forall w, s_join (sm_layers e_s w).
Proof. intros w k a b Ha Hb. rewrite e_layers in Ha, Hb. e_layer k Ha; cbn in Hb; try discriminate Hb; injection Hb as <-; apply Reqb_true; reflexivity. Qed.
Lemma e_upright : s_upright e_ls.
Proof. intros y Hy. apply Rleb_true. destruct Hy as [<-|[<-|[]]]; cbn; lra. Qed.
Lemma e_falls : forall i j, falls e_ls i j.
Proof.
  intros i j k y Hk Hy. e_layer k Hy; cbn [sl_botP sl_topP sl_topDepth sl_botDepth];
    (split; [lra|]; split; [lra|]; intros z _ Hz; cbn in Hz; try discriminate Hz; injection Hz as <-; cbn; lra).
Qed.
Lemma e_edges : forall n y, nth_error e_ls n = Some y -> deepest e_ls (sl_topDepth y) n /\ shallowest e_ls (sl_botDepth y) n.
Proof.
  intros n y Hy. assert (Hin := nth_error_In _ _ Hy). assert (U := proj1 (Rleb_le _ _) (e_upright y Hin)).
  split.
  - split; [exists y; split; [exact Hy|split; apply Rleb_le; lra]|]. intros j z Hz [A B]. apply Rleb_le in A. apply Rleb_le in B.
    e_layer n Hy; e_layer j Hz; cbn in *; try lia; lra.
  - split; [exists y; split; [exact Hy|split; apply Rleb_le; lra]|]. intros j z Hz [A B]. apply Rleb_le in A. apply Rleb_le in B.
    e_layer n Hy; e_layer j Hz; cbn in *; try lia; lra.
Qed.
(** one ray in one branch: it crosses the layer, or it stays above it *)
Lemma e_ray : forall n y w b p tm d u, nth_error e_ls n = Some y -> tb_top b = sl_topDepth y -> tb_bot b = sl_botDepth y ->
  p <= tb_maxRP b -> p <= sl_topP y -> layerTimeDist e_s p (Z.of_nat n) w = Ok (mkTD p tm d 0) -> u = tm - p * d -> p <= sl_botP y ->
  ray_values e_s w b p d tm u.
Proof.
  intros n y w b p tm d u Hy Et Eb Hm Ht Hl -> Hb. destruct (e_edges n y Hy) as [E1 E2]. split; [reflexivity|]. right. split; [apply Rleb_true; exact Hm|].
  exists n, n, [mkTD p tm d 0]. rewrite e_layers, Et, Eb. split; [exact E1|]. split; [exact E2|].
  split; [|split; [unfold sum_dist|unfold sum_time]; cbn [fold_left td_dist td_time n_add Num_R]; rewrite n_0_R; ring].
  left. split; [cbn; lia|]. split.
  - intros k z Hk Hz. cbn in Hk. replace (n + k)%nat with n in Hz by lia. rewrite e_layers, Hy in Hz. injection Hz as <-. split; apply Rleb_true; assumption.
  - split; [|left; cbn; lia]. intros [|k] x Hx; cbn in Hx; [injection Hx as <-; rewrite Nat.add_0_r; exact Hl|destruct k; discriminate].
Qed.
Lemma e_above : forall n y w b p, nth_error e_ls n = Some y -> tb_top b = sl_topDepth y -> tb_bot b = sl_botDepth y ->
  sl_topP y <= p -> sl_botP y < sl_topP y -> ray_values e_s w b p 0 0 0.
Proof.
  intros n y w b p Hy Et Eb Ht Hb. destruct (e_edges n y Hy) as [E1 E2]. split; [cbn [n_sub n_mul Num_R]; ring|].
  destruct (Rle_or_lt p (tb_maxRP b)) as [Hm|Hm]; [right|left; split; [apply leb_R_false; exact Hm|rewrite n_0_R; auto]].
  split; [apply Rleb_true; exact Hm|]. exists n, n, []. rewrite e_layers, Et, Eb. split; [exact E1|]. split; [exact E2|].
  split; [|split; cbn; symmetry; apply n_0_R].
  left. split; [cbn; lia|]. split; [intros k z Hk; cbn in Hk; lia|]. split; [intros [|k] z Hz; discriminate|].
  right. exists y. rewrite e_layers. cbn [List.length]. rewrite Nat.add_0_r. split; [exact Hy|]. split.
  - intros [_ X]. apply Rleb_le in X. lra.
  - unfold spans. cbn [n_ltb n_sub n_mul Num_R]. rewrite n_0_R. intros X. apply Rltb_lt in X. nra.
Qed.
Lemma e_rays : forall s, s = 2 * sin (PI / 3) -> rays_ready (e_t s).
Proof.
  intros s Es.
  split.
  - split; [|split].
    + intros w. cbn [tm_sMod e_t]. rewrite e_layers. split; [exact e_meet|exact e_upright].
    + intros b Hb. apply Rltb_true. destruct Hb as [<-|[<-|[]]]; cbn; lra.
    + intros b Hb. apply Rltb_true. destruct Hb as [<-|[<-|[]]]; cbn; lra.
  - intros b Hb. assert (G : forall isP, In b (e_bs s isP) -> steady e_s b /\ all_rays e_s (tb_isP b) [2; 1; 0] b).
    { intros isP Hin. split; [intros i j _ _; left; rewrite e_layers; apply e_falls|].
      destruct Hin as [<-|[<-|[]]]; cbn [tb_isP]; (split; [reflexivity|]; split; [reflexivity|]; split; [reflexivity|]);
        intros [|[|[|k]]] p d' t' u' Hp Hd Ht Hu'; cbn [nth_error tb_dist tb_time tb_tau] in Hp, Hd, Ht, Hu';
        try (injection Hp as <-; injection Hd as <-; injection Ht as <-; injection Hu' as <-); try (destruct k; discriminate).
      - apply (e_above 0 (mkSL 0 2 0 1 1)); try reflexivity; cbn; lra.
      - apply (e_ray 0 (mkSL 0 2 0 1 1)); try reflexivity; try (cbn; lra). rewrite Es. apply e_third.
      - apply (e_ray 0 (mkSL 0 2 0 1 1)); try reflexivity; try (cbn; lra). apply e_down.
      - apply (e_above 1 (mkSL 1 1 1 0 2)); try reflexivity; cbn; lra.
      - apply (e_above 1 (mkSL 1 1 1 0 2)); try reflexivity; cbn; lra.
      - apply (e_ray 1 (mkSL 1 1 1 0 2)); try reflexivity; try (cbn; lra). apply e_through. }
    destruct Hb as [Hb|Hb]; [exact (G true Hb)|exact (G false Hb)].
Qed.
Lemma e_between : forall s, nothing_between (e_t s) 1 2 /\ nothing_between (e_t s) 0 1.
Proof.
  intros s.
  split; (split; [intros w y Hy; cbn [tm_sMod e_t] in Hy; rewrite e_layers in Hy; destruct Hy as [<-|[<-|[]]]; cbn; lra|
    intros b [Hb|Hb]; destruct Hb as [<-|[<-|[]]]; cbn; lra]).
Qed.
Lemma e_limits : forall s b, In b (tm_P (e_t s)) \/ In b (tm_S (e_t s)) -> limit_at_top e_s b.
Proof.
  intros s b Hb i y Hi Hy. rewrite e_layers in Hi, Hy.
  assert (G : forall isP, In b (e_bs s isP) -> tb_maxRP b <= sl_topP y).
  { intros isP Hin. destruct Hin as [<-|[<-|[]]]; cbn [tb_top tb_maxRP] in *.
    - assert (i = 0%nat) by exact (deepest_unique _ _ _ _ Hi (proj1 (e_edges 0 _ eq_refl))). subst i. injection Hy as <-. cbn. lra.
    - assert (i = 1%nat) by exact (deepest_unique _ _ _ _ Hi (proj1 (e_edges 1 _ eq_refl))). subst i. injection Hy as <-. cbn. lra. }
  destruct Hb as [Hb|Hb]; [exact (G true Hb)|exact (G false Hb)].
Qed.
Lemma e_decreasing : forall s, decreasing (tm_rayParams (e_t s)).
Proof. intros s. repeat constructor; apply Rltb_lt; lra. Qed.
Lemma e_vlayers : contiguous (vm_layers e_v) /\ VelSpec.thick (vm_layers e_v).
Proof.
  split.
  - intros i x y [Hi Hx] [_ Hy]. exfalso. assert (Hlen : (Z.to_nat (i + 1) < List.length (vm_layers e_v))%nat) by (apply nth_error_Some; congruence).
    cbn [vm_layers e_v List.length] in Hlen. lia.
  - intros x [<-|[]]; apply Rltb_true; cbn; lra.
Qed.
Lemma e_speed : speed e_v true "P" 0 1.
Proof.
  exists (mkVLayer 0 0 2 1 1 1 1 1 1), 1, 1. split; [left; reflexivity|]. split; [cbn; lra|].
  split; [apply (letter_values_iff "P" true true _ _ _ le_P); split; reflexivity|]. unfold line. cbn. field.
Qed.


Lemma e_leg_in : forall s (g : seg) b, leg_branch (e_t s) g b -> In b (tm_P (e_t s)) \/ In b (tm_S (e_t s)).
Proof. intros s g b Hb. unfold leg_branch in Hb. destruct (sg_isP g); [left|right]; exact (nth_error_In _ _ (at_index_pos _ _ _ Hb)). Qed.
Lemma e_legs : forall s (g : seg) b, sg_branch g = 0%Z -> leg_branch (e_t s) g b -> 2 <= tb_maxRP b /\ limit_at_top e_s b.
Proof.
  intros s g b Hg Hb. split; [|exact (e_limits s b (e_leg_in s g b Hb))].
  unfold leg_branch in Hb. rewrite Hg in Hb. apply (at_index_nat _ 0%nat) in Hb. destruct (sg_isP g); injection Hb as <-; cbn; lra.
Qed.
(** an arrival of P at 60 degrees, turning in the mantle *)
Example C56_ex_turning : forall s, s = 2 * sin (PI / 3) -> exists ph fuel l a p T D,
  newPhase x_show [] (e_t s) 0 "P" = Ok ph /\ ph_calcTime fuel ph 60 = Ok l /\ In a l /\ ar_dist a = PI / 3 /\
  1 < p < 2 /\ exact_ray (e_t s) p 1 (ph_seq ph) (PI / 3) T D /\ - D <= ar_time a - T <= D.
Proof.
  intros s Es. pose proof PI_RGT_0 as HP.
  eassert (Hp : newPhase x_show [] (e_t s) 0 "P" = Ok _) by run.
  match type of Hp with _ = Ok ?p => set (ph := p) in * end. exists ph.
  destruct e_vlayers as [Hc Ht].
  edestruct (C37_defined ph 60) as [fuel Hf];
    [exact Hc|exact Ht| | |reflexivity|reflexivity| |reflexivity|reflexivity| |reflexivity|exact e_speed|exact e_speed| |].
  { cbn. lra. }
  { intros Hk; apply is_kmps_iff in Hk; discriminate. }
  { intros i Hi. cbn in Hi. assert (i = 0)%nat by lia. subst i. cbn. intros E. injection E as E. lra. }
  { exact (eq_refl : ph_legs ph = [] ++ ["P"; "END"]). }
  { cbn. intros p [<-|[<-|[]]]; split; apply Rabs_le; lra. }
  destruct (Hf fuel ltac:(lia)) as [l Hl]. exists fuel, l.
  assert (Hdeg : rad 60 = PI / 3) by (unfold rad; field).
  destruct (calcTime_complete fuel ph 60 l 0 (PI / 3) Hl) as [a [Ha [Ed Ei]]].
  { cbn. rewrite (proj2 (Rltb_true _ _)) by lra. lra. } { rewrite Hdeg. reflexivity. }
  { exists 0, (0 + 2 * (PI / 3)), 2, 1. do 4 (split; [reflexivity|]). split; [left; lra|]. split; [intros; lra|]. intros; lra. }
  exists a.
  destruct (C56_ray_exists x_show [] (e_t s) 0 "P" ph fuel 60 l a 0 2 1 0 (0 + 2 * (PI / 3)) Hp) as [p [T [D [H1 [H2 H3]]]]]; try reflexivity; try assumption.
  - discriminate.
  - exists 2. split; [left; reflexivity|cbn; lra].
  - intros [X|X]; not_in X.
  - intros [X|X]; not_in X.
  - intros z [[]|[]].
  - apply e_decreasing.
  - apply e_rays. exact Es.
  - exact e_regular.
  - exact e_join.
  - lra.
  - apply e_between.
  - intros g b Hg Hb. apply (e_legs s g b); [|exact Hb]. destruct Hg as [<-|[<-|[]]]; reflexivity.
  - rewrite Ed. left. lra.
  - exists p, T, D. rewrite Ed in H2. rewrite Rmax_left in H3 by lra. repeat (split; [assumption|]). lra.
Qed.
(** PcP at 60 degrees: the time is at least the exact one *)
Lemma e_no_turn : forall w p q x tm d, 0 < p < 1 -> ray_down e_s w 0 p q 0 x tm d -> d = 0.
Proof.
  intros w p q x tm d Hp H. inversion H as [k Hk|k y x0 tm0 d0 Hk Hy Ht Hb Hf Hr|k y u x0 tm0 x' tm' d0 Hk Hy Ht Hb Hth Hu Hpt Hr
    |k y u z x0 tm0 td Hk Hy Hb Hth Hu Hz Ez Hpt Hl|k y Hk Hy Hb Hf]; subst; try lia; rewrite e_layers in Hy; injection Hy as <-; cbn in *; try lra.
  inversion Hr; subst; try lia. reflexivity.
Qed.
Example C56_ex_reflected : forall s, s = 2 * sin (PI / 3) -> exists ph fuel l a p T,
  newPhase x_show [] (e_t s) 0 "PcP" = Ok ph /\ ph_calcTime fuel ph 60 = Ok l /\ In a l /\ ar_dist a = PI / 3 /\
  0 < p < 1 /\ exact_ray (e_t s) p 0 (ph_seq ph) (PI / 3) T 0 /\ T <= ar_time a <= T + PI / 6.
Proof.
  intros s Es. pose proof PI_RGT_0 as HP.
  eassert (Hp : newPhase x_show [] (e_t s) 0 "PcP" = Ok _) by run.
  match type of Hp with _ = Ok ?p => set (ph := p) in * end. exists ph.
  destruct e_vlayers as [Hc Ht].
  edestruct (C37_defined ph 60) as [fuel Hf];
    [exact Hc|exact Ht| | |reflexivity|reflexivity| |reflexivity|reflexivity| |reflexivity|exact e_speed|exact e_speed| |].
  { cbn. lra. }
  { intros Hk; apply is_kmps_iff in Hk; discriminate. }
  { intros i Hi. cbn in Hi. assert (i = 0)%nat by lia. subst i. cbn. intros E. injection E as E. lra. }
  { exact (eq_refl : ph_legs ph = ["P"; "c"] ++ ["P"; "END"]). }
  { cbn. intros p [<-|[<-|[]]]; split; apply Rabs_le; lra. }
  destruct (Hf fuel ltac:(lia)) as [l Hl]. exists fuel, l.
  assert (Hdeg : rad 60 = PI / 3) by (unfold rad; field).
  destruct (calcTime_complete fuel ph 60 l 0 (PI / 3) Hl) as [a [Ha [Ed Ei]]].
  { cbn. rewrite (proj2 (Rltb_false _ _)) by lra. lra. } { rewrite Hdeg. reflexivity. }
  { exists (0 + 2 * (PI / 3)), 0, 1, 0. do 4 (split; [reflexivity|]). split; [right; lra|]. split; [intros; lra|]. intros; lra. }
  exists a.
  assert (Q1 : exists r, In r (tm_rayParams (e_t s)) /\ ph_max ph <= r) by (exists 2; split; [left; reflexivity|cbn; lra]).
  assert (Q2 : ~ diffracted "PcP") by (intros [X|X]; not_in X). assert (Q3 : ~ head_wave "PcP") by (intros [X|X]; not_in X).
  assert (Q4 : forall z, In z (sm_hiP (tm_sMod (e_t s))) \/ In z (sm_hiS (tm_sMod (e_t s))) -> ~ ph_min ph < dr_rayParam z < ph_max ph) by (intros z [[]|[]]).
  assert (Q5 : ph_rayParams ph <> []) by discriminate.
  destruct (C56_ray_exists x_show [] (e_t s) 0 "PcP" ph fuel 60 l a 0 1 0 (0 + 2 * (PI / 3)) 0 Hp Q5 eq_refl Q1 Q2 Q3 Q4 (e_decreasing s) (e_rays s Es) e_regular e_join Hl Ha
    Ei eq_refl eq_refl eq_refl eq_refl ltac:(lra) (proj2 (e_between s))) as [p [T [D [H1 [H2 H3]]]]].
  - intros g b Hg Hb. destruct (e_legs s g b) as [A B]; [destruct Hg as [<-|[<-|[]]]; reflexivity|exact Hb|]. split; [lra|exact B].
  - rewrite Ed. right. lra.
  - assert (HD : D = 0).
    { assert (G : forall g b x tm d, sg_branch g = 0%Z -> leg_branch (e_t s) g b -> exact_leg e_s b p 0 x tm d -> d = 0).
      { intros g b x tm d Hg Hb [_ [i [j [Hi [Hj Hd]]]]]. unfold leg_branch in Hb. rewrite Hg in Hb. apply (at_index_nat _ 0%nat) in Hb.
        assert (E : tb_top b = 0 /\ tb_bot b = 1) by (destruct (sg_isP g); injection Hb as <-; auto). destruct E as [E1 E2].
        rewrite E1, e_layers in Hi. rewrite E2, e_layers in Hj.
        assert (i = 0%nat) by exact (deepest_unique _ _ _ _ Hi (proj1 (e_edges 0 _ eq_refl))).
        assert (j = 0%nat) by exact (shallowest_unique _ _ _ _ Hj (proj2 (e_edges 0 _ eq_refl))). subst i j.
        exact (e_no_turn _ p 0 x tm d H1 Hd). }
      inversion H2 as [|g1 l1 b1 x1 tm1 d1 x2 tm2 d2 B1 E1 R1]; subst. inversion R1 as [|g3 l3 b3 x3 tm3 d3 x4 tm4 d4 B3 E3 R3]; subst. inversion R3; subst.
      assert (Z1 : d1 = 0) by (refine (G _ _ _ _ _ _ B1 E1); reflexivity). assert (Z3 : d3 = 0) by (refine (G _ _ _ _ _ _ B3 E3); reflexivity). rewrite Z1, Z3. ring. }
    subst D. exists p, T.
    destruct (C56_not_early x_show [] (e_t s) 0 "PcP" ph fuel 60 l a 0 1 0 (0 + 2 * (PI / 3)) 0 p T Hp Q5 eq_refl Q1 Q2 Q3 Q4 (e_decreasing s) (e_rays s Es) e_regular Hl Ha
      Ei eq_refl eq_refl eq_refl eq_refl ltac:(lra) (proj2 (e_between s)) H1 H2) as [_ H4].
    rewrite Ed in H2. repeat (split; [assumption|]). lra.
Qed.
(** the ball of BuildRun.v, made by the constructors, meets the conditions of C56_constructed on models *)
Example C56_ex_constructed : newSlownessModel 20 unit_vm 1 7000 7000 10 100000 true 1 = Ok (one_sm one_c') /\
  newTauModel 20 (one_sm one_c') = Ok one_t /\ VelSpec.thick (vm_layers unit_vm) /\ vm_radius unit_vm = 6371 /\
  no_flat unit_vm true /\ fluid_above_inner_core unit_vm true /\ regular (one_sm one_c') /\ nothing_between one_t 0 6371.
Proof.
  destruct C48_ex as [A [B [C [D [E [F _]]]]]]. repeat (split; [assumption|]). split.
  - intros w y Hy. right. right. assert (Q : exists n, y = mkSL n 6371 0 0 6371) by (destruct w; destruct Hy as [<-|[]]; eauto).
    destruct Q as [n ->]. unfold centre_layer. cbn. lra.
  - split.
    + intros w y Hy. assert (Q : exists n, y = mkSL n 6371 0 0 6371) by (destruct w; destruct Hy as [<-|[]]; eauto).
      destruct Q as [n ->]. cbn. lra.
    + intros b [[<-|[]]|[<-|[]]]; cbn; lra.
Qed.

(** Property C81: a phase that goes the way of another one [n] times, such as PP for P, arrives at [n] times the distance after [n] times
    the time. *)
From Coq Require Import ZArith Bool List String Reals Lia Lra Sorted Permutation.
From Verif Require Import Base Num PyStr VelocityModel SlownessLayer SlownessModel TauModel Legs SeismicPhase
  TauSpec TimeSpec TimeProps CurveSpec CurveProofs CurveMainProofs CurveProps SlowRealProofs SlowBuildProofs RealRun VelSpec ErrProps AngleSpec AngleProps NameSpec NameProofs OnceProps ReachSpec ReachProps JoinSpec JoinProps MultiSpec.
Import ListNotations.
Local Open Scope string_scope.
Local Open Scope list_scope.
Local Open Scope R_scope.

Lemma sum_repeat : forall t f i l y, sum_over t f i (map medium l) y -> forall n, sum_over t f i (map medium (List.concat (repeat l n))) (INR n * y).
Proof.
  intros t f i l y H. induction n as [|n IH]; cbn [repeat List.concat].
  - cbn. rewrite Rmult_0_l. constructor.
  - rewrite map_app. replace (INR (S n) * y) with (y + INR n * y) by (rewrite S_INR; ring). apply sum_app; assumption.
Qed.

Section Model.
  Variables (show : R -> string) (w : list R) (t : tmodel R) (tid : Z).
  Hypothesis Hlen : List.length (tm_S t) = List.length (tm_P t).
  Hypothesis Dec : decreasing (tm_rayParams t).

  Lemma plain_points : forall name ph, plain show w t tid name ph ->
    List.length (ph_dist ph) = List.length (ph_rayParams ph) /\ List.length (ph_time ph) = List.length (ph_rayParams ph) /\
    forall k p d tm, nth_error (ph_rayParams ph) k = Some p -> nth_error (ph_dist ph) k = Some d -> nth_error (ph_time ph) k = Some tm -> In (p, d, tm) (curve_of ph).
  Proof.
    intros name ph [H [Hne [Hr [Nd [Nh _]]]]].
    destruct (C33_sum_of_legs show w t tid name ph H Hne Hlen Hr Nd Nh) as [lo [hi [base [c1 [o1 [o2 [_ [_ [_ [_ [_ [_ [_ [L1 L2]]]]]]]]]]]]]].
    split; [exact L1|]. split; [exact L2|]. intros k p d tm E1 E2 E3. apply (nth_error_In _ k). unfold curve_of.
    apply nth_error_combine. split; [apply nth_error_combine; split; assumption|assumption].
  Qed.

  Section Pair.
    Variables (n1 n2 : string) (A B : phase R) (n : nat).
    Hypothesis PA : plain show w t tid n1 A.
    Hypothesis PB : plain show w t tid n2 B.
    Hypothesis Hn : times_over n (ph_seq B) (ph_seq A).

    Lemma point_scaled : forall p d1 t1 d2 t2, In (p, d1, t1) (curve_of A) -> In (p, d2, t2) (curve_of B) -> d2 = INR n * d1 /\ t2 = INR n * t1.
    Proof.
      intros p d1 t1 d2 t2 IA IB.
      destruct (C80_sample show w t tid Hlen Dec n1 A p d1 t1 PA IA) as [i [Li [Di Ti]]]. destruct (C80_sample show w t tid Hlen Dec n2 B p d2 t2 PB IB) as [j [Lj [Dj Tj]]].
      assert (j = i) by (eapply last_sample_fun; eassumption). subst j. split.
      - eapply (sum_fun t tb_dist i); [apply (sum_perm t tb_dist i _ _ Hn), total_sum; exact Dj|apply sum_repeat, total_sum; exact Di].
      - eapply (sum_fun t tb_time i); [apply (sum_perm t tb_time i _ _ Hn), total_sum; exact Tj|apply sum_repeat, total_sum; exact Ti].
    Qed.

    Hypothesis Erp : ph_rayParams A = ph_rayParams B.

    (** Sample by sample its distances and times are [n] times those of the other phase. *)
    Theorem C81_curve : ph_dist B = map (Rmult (INR n)) (ph_dist A) /\ ph_time B = map (Rmult (INR n)) (ph_time A).
    Proof.
      destruct (plain_points n1 A PA) as [LA1 [LA2 CA]]. destruct (plain_points n2 B PB) as [LB1 [LB2 CB]].
      assert (K : forall k d2 t2, nth_error (ph_dist B) k = Some d2 -> nth_error (ph_time B) k = Some t2 -> exists d1 t1,
        nth_error (ph_dist A) k = Some d1 /\ nth_error (ph_time A) k = Some t1 /\ d2 = INR n * d1 /\ t2 = INR n * t1).
      { intros k d2 t2 E2 F2. assert (k < List.length (ph_dist B))%nat by (apply nth_error_Some; congruence).
        destruct (nth_error (ph_rayParams B) k) as [p|] eqn:Ep; [|apply nth_error_None in Ep; lia].
        destruct (nth_error (ph_dist A) k) as [d1|] eqn:E1; [|apply nth_error_None in E1; rewrite Erp in LA1; lia].
        destruct (nth_error (ph_time A) k) as [t1|] eqn:F1; [|apply nth_error_None in F1; rewrite Erp in LA2; lia].
        exists d1, t1. split; [reflexivity|]. split; [reflexivity|]. apply (point_scaled p); [apply (CA k); congruence|apply (CB k); assumption]. }
      assert (Ext : forall (l l' : list R), List.length l = List.length l' -> (forall k x, nth_error l k = Some x -> nth_error l' k = Some x) -> l = l').
      { induction l as [|x l IH]; intros [|y l'] L E; try discriminate; [reflexivity|]. pose proof (E 0%nat x eq_refl) as E0. injection E0 as ->.
        f_equal. apply IH; [injection L as L; exact L|]. intros k z Hz. apply (E (S k) z Hz). }
      split; apply Ext; try (rewrite map_length, Erp in *; congruence).
      - intros k x Hx. destruct (nth_error (ph_time B) k) as [u|] eqn:Eu.
        + destruct (K k x u Hx Eu) as [d1 [t1 [E1 [_ [-> _]]]]]. rewrite nth_error_map, E1. reflexivity.
        + apply nth_error_None in Eu. assert (k < List.length (ph_dist B))%nat by (apply nth_error_Some; congruence). lia.
      - intros k x Hx. destruct (nth_error (ph_dist B) k) as [u|] eqn:Eu.
        + destruct (K k u x Eu Hx) as [d1 [t1 [_ [E1 [_ ->]]]]]. rewrite nth_error_map, E1. reflexivity.
        + apply nth_error_None in Eu. assert (k < List.length (ph_time B))%nat by (apply nth_error_Some; congruence). lia.
    Qed.

    Hypothesis Hft : forth t.
    (** For each of its arrivals the other phase, asked for the [n]th part of the distance, has one with the [n]th part of the time and the
        same ray parameter. *)
    Theorem C81_arrivals : (0 < n)%nat -> forall fuel deg l a, ph_calcTime fuel B deg = Ok l -> In a l ->
      forall fuel' l', ph_calcTime fuel' A (ar_dist a / INR n * 180 / PI) = Ok l' ->
      exists a', In a' l' /\ ar_dist a' = ar_dist a / INR n /\ ar_time a' = ar_time a / INR n /\ ar_rayParam a' = ar_rayParam a.
    Proof.
      intros N0 fuel deg l a Hc Ha fuel' l' Hc'. destruct C81_curve as [Ed Et]. pose proof PI_RGT_0 as HP.
      assert (N1 : 0 < INR n) by (apply lt_0_INR; exact N0).
      assert (Dm : forall x, In x (ph_dist A) -> 0 <= x <= ph_maxDist A).
      { destruct (plain_points n1 A PA) as [L1 [L2 CA]]. intros x Hx. destruct PA as [H [Hne [Hr [Nd [Nh Hz]]]]].
        destruct (C76_extent show w t tid n1 A H Hne Hz) as [_ [_ M]]. split; [|apply (M x Hx)].
        apply In_nth_error in Hx. destruct Hx as [k Hk]. assert (k < List.length (ph_dist A))%nat by (apply nth_error_Some; congruence).
        destruct (nth_error (ph_rayParams A) k) as [p|] eqn:Ep; [|apply nth_error_None in Ep; lia].
        destruct (nth_error (ph_time A) k) as [u|] eqn:Eu; [|apply nth_error_None in Eu; lia].
        destruct (C80_sample show w t tid Hlen Dec n1 A p x u PA (CA k p x u Ep Hk Eu)) as [i [_ [Ti _]]].
        apply (total_pos t tb_dist) in Ti; [exact Ti|]. intros b Hb. destruct (Hft b Hb) as [F1 [_ [F3 _]]]; auto. }
      destruct (C07_no_arrival_invented fuel B deg l a Hc Ha) as [i [Ei [e0 [e1 [q0 [q1 [E0 [E1 [Q0 [Q1 [Bt [Lst Fl]]]]]]]]]]]].
      destruct (C08_interpolation fuel B deg l a Hc Ha) as [j [d0 [d1 [t0 [t1 [p0 [p1 [Ej [D0 [D1 [T0 [T1 [P0 [P1 [[Nd0 Lt] [[_ Lp] _]]]]]]]]]]]]]]]].
      assert (j = i) by lia. subst j. rewrite D0 in E0. rewrite D1 in E1. injection E0 as <-. injection E1 as <-. rewrite P0 in Q0. rewrite P1 in Q1. injection Q0 as <-. injection Q1 as <-.
      rewrite Ed, nth_error_map in D0, D1. rewrite Et, nth_error_map in T0, T1.
      destruct (nth_error (ph_dist A) i) as [x0|] eqn:X0; [|discriminate]. destruct (nth_error (ph_dist A) (S i)) as [x1|] eqn:X1; [|discriminate].
      destruct (nth_error (ph_time A) i) as [y0|] eqn:Y0; [|discriminate]. destruct (nth_error (ph_time A) (S i)) as [y1|] eqn:Y1; [|discriminate].
      cbn in D0, D1, T0, T1. injection D0 as <-. injection D1 as <-. injection T0 as <-. injection T1 as <-.
      set (s := ar_dist a / INR n) in *. assert (Es : ar_dist a = INR n * s) by (unfold s; field; lra). rewrite Es in Bt, Lst, Lt, Lp.
      destruct (proj2 (C07_exact fuel' A _ l' Hc' Dm i s)) as [a' [Ha' [Ea' Ia']]].
      { split; [f_equal; field; lra|]. exists x0, x1, p0, p1. split; [exact X0|]. split; [exact X1|]. rewrite Erp. split; [exact P0|]. split; [exact P1|]. split.
        - unfold TimeSpec.between in *. destruct Bt as [Bt|Bt]; [left|right]; (split; [apply (Rmult_le_reg_l (INR n)); [exact N1|apply Bt]|apply (Rmult_le_reg_l (INR n)); [exact N1|apply Bt]]).
        - split; [|exact Fl]. intros ->. rewrite Ed, map_length in Lst. apply Lst. reflexivity. }
      exists a'. split; [exact Ha'|]. split; [exact Ea'|].
      destruct (C08_interpolation fuel' A _ l' a' Hc' Ha') as [j [u0 [u1 [v0 [v1 [r0 [r1 [Ej' [U0 [U1 [V0 [V1 [R0 [R1 [[Nu Lv] [[_ Lr] _]]]]]]]]]]]]]]]].
      assert (j = i) by lia. subst j. rewrite Erp in R0, R1.
      assert (u0 = x0) by congruence. assert (u1 = x1) by congruence. assert (v0 = y0) by congruence. assert (v1 = y1) by congruence. assert (r0 = p0) by congruence. assert (r1 = p1) by congruence.
      subst. rewrite Ea' in Lv, Lr. split.
      - apply (Rmult_eq_reg_r (x1 - x0)); [|lra]. apply (Rmult_eq_reg_r (INR n * INR n)); [|apply Rmult_integral_contrapositive_currified; lra].
        assert (X : ar_time a / INR n * (x1 - x0) * (INR n * INR n) = ar_time a * (INR n * x1 - INR n * x0)) by (field; lra). rewrite X.
        assert (Y : ar_time a * (INR n * x1 - INR n * x0) = INR n * y0 * (INR n * x1 - INR n * x0) + (INR n * y1 - INR n * y0) * (INR n * s - INR n * x0)) by lra. rewrite Y.
        replace (ar_time a' * (x1 - x0)) with (y0 * (x1 - x0) + (y1 - y0) * (s - x0)) by lra. ring.
      - apply (Rmult_eq_reg_r (x1 - x0)); [|lra]. apply (Rmult_eq_reg_r (INR n)); [|lra].
        assert (Y : ar_rayParam a * (x1 - x0) * INR n = p0 * (INR n * x1 - INR n * x0) + (p1 - p0) * (INR n * s - INR n * x0)) by lra. rewrite Y.
        replace (ar_rayParam a' * (x1 - x0)) with (p0 * (x1 - x0) + (p1 - p0) * (s - x0)) by lra. ring.
    Qed.
  End Pair.
End Model.
Print Assumptions C81_curve.
Print Assumptions C81_arrivals.

(** ** Hypotheses met: P at 60 and PP at 120 degrees in the planet of C73_ex *)
Lemma e_plain : forall s name ph, newPhase x_show [] (e_t s) 0 name = Ok ph -> ph_rayParams ph <> [] -> ph_max ph <= 2 -> ~ diffracted name -> ~ head_wave name ->
  plain x_show [] (e_t s) 0 name ph.
Proof.
  intros s name ph H Hne Hm Nd Nh. split; [exact H|]. split; [exact Hne|]. split; [exists 2; split; [left; reflexivity|exact Hm]|]. split; [exact Nd|]. split; [exact Nh|].
  intros z [[]|[]].
Qed.
Example C81_ex : forall s, s = 2 * sin (PI / 3) -> exists P PP fuel l a fuel' l' a',
  (newPhase x_show [] (e_t s) 0 "P" = Ok P /\ newPhase x_show [] (e_t s) 0 "PP" = Ok PP /\ times_over 2 (ph_seq PP) (ph_seq P) /\ ph_rayParams P = ph_rayParams PP) /\
  (ph_calcTime fuel PP 120 = Ok l /\ In a l /\ ar_dist a = 2 * PI / 3) /\
  (ph_calcTime fuel' P (ar_dist a / INR 2 * 180 / PI) = Ok l' /\ In a' l' /\ ar_dist a' = PI / 3 /\ ar_time a = 2 * ar_time a').
Proof.
  intros s Es. pose proof PI_RGT_0 as HP.
  eassert (H1 : newPhase x_show [] (e_t s) 0 "P" = Ok _) by run. eassert (H2 : newPhase x_show [] (e_t s) 0 "PP" = Ok _) by run.
  match type of H1 with _ = Ok ?p => set (P := p) in * end. match type of H2 with _ = Ok ?p => set (PP := p) in * end.
  destruct e_vlayers as [Hv Ht].
  assert (R1 : forall deg, exists fuel l, ph_calcTime fuel P deg = Ok l).
  { intros deg. edestruct (C37_defined P deg) as [fuel Hf];
      [exact Hv|exact Ht| | |reflexivity|reflexivity| |reflexivity|reflexivity| |reflexivity|exact e_speed|exact e_speed| |].
    { cbn. lra. }
    { intros Hk; apply is_kmps_iff in Hk; discriminate. }
    { intros i Hi. cbn in Hi. assert (i = 0)%nat by lia. subst i. cbn. intros E. injection E as E. lra. }
    { exact (eq_refl : ph_legs P = [] ++ ["P"; "END"]). }
    { cbn. intros p [<-|[<-|[]]]; split; apply Rabs_le; lra. }
    destruct (Hf fuel ltac:(lia)) as [l Hl]. eauto. }
  assert (R2 : forall deg, exists fuel l, ph_calcTime fuel PP deg = Ok l).
  { intros deg. edestruct (C37_defined PP deg) as [fuel Hf];
      [exact Hv|exact Ht| | |reflexivity|reflexivity| |reflexivity|reflexivity| |reflexivity|exact e_speed|exact e_speed| |].
    { cbn. lra. }
    { intros Hk; apply is_kmps_iff in Hk; discriminate. }
    { intros i Hi. cbn in Hi. assert (i = 0)%nat by lia. subst i. cbn. intros E. injection E as E. lra. }
    { exact (eq_refl : ph_legs PP = ["P"] ++ ["P"; "END"]). }
    { cbn. intros p [<-|[<-|[]]]; split; apply Rabs_le; lra. }
    destruct (Hf fuel ltac:(lia)) as [l Hl]. eauto. }
  assert (PA : plain x_show [] (e_t s) 0 "P" P) by (apply e_plain; [exact H1|discriminate|cbn; lra|intros [X|X]; not_in X|intros [X|X]; not_in X]).
  assert (PB : plain x_show [] (e_t s) 0 "PP" PP) by (apply e_plain; [exact H2|discriminate|cbn; lra|intros [X|X]; not_in X|intros [X|X]; not_in X]).
  assert (Tw : times_over 2 (ph_seq PP) (ph_seq P)) by apply Permutation_refl. assert (Er : ph_rayParams P = ph_rayParams PP) by reflexivity.
  destruct (R2 120) as [fuel [l Hl]].
  destruct (C07_no_arrival_missed fuel PP 120 l 0%nat (2 * PI / 3) Hl) as [a [Ha [Ea _]]].
  { cbn. rewrite (proj2 (Rltb_true _ _)) by lra. lra. }
  { f_equal. field. }
  { eexists; eexists; eexists; eexists. split; [reflexivity|]. split; [reflexivity|]. split; [reflexivity|]. split; [reflexivity|].
    split; [unfold TimeSpec.between; lra|]. split; [intros _; reflexivity|intros _; cbn; lia]. }
  destruct (R1 (ar_dist a / INR 2 * 180 / PI)) as [fuel' [l' Hl']].
  destruct (C81_arrivals x_show [] (e_t s) 0 eq_refl (e_decreasing s) "P" "PP" P PP 2 PA PB Tw Er (C78_forth _ (e_rays s Es)) ltac:(lia) fuel 120 l a Hl Ha fuel' l' Hl') as [a' [Ha' [Ed [Et _]]]].
  exists P, PP, fuel, l, a, fuel', l', a'. split; [split; [exact H1|split; [exact H2|split; [exact Tw|exact Er]]]|]. split; [split; [exact Hl|split; [exact Ha|exact Ea]]|].
  split; [exact Hl'|]. split; [exact Ha'|]. assert (N2 : INR 2 = 2) by (cbn; lra). rewrite N2, Ea in Ed. rewrite N2 in Et. split; [lra|lra].
Qed.

(** Properties C05-C09: travel times. *)
From Coq Require Import ZArith Bool List String Ascii Permutation Lia Reals Lra.
From Verif Require Import Base Num PyStr VelocityModel SlownessLayer SlownessModel TauModel Legs
  SeismicPhase Pierce TauPTime NameSpec TimeSpec CalcTimeProofs TimeProofs Toy.
Import ListNotations.
Local Open Scope num_scope.

(** ** C05: the result is the stably time-sorted concatenation of the arrivals of the
    phases built for the requested names *)
Theorem C05_sorted_complete :
  forall {T} {N : Num T} {L : Libm T} {O : NumOrd T} (show : T -> string)
         fuel order w t depth degrees names coords w' t' arrs,
  set_order_ok order -> n_ok depth ->
  get_travel_times show fuel order w t depth degrees names coords = Ok (w', t', arrs) ->
  exists deg td id phases ls,
    query_degrees degrees coords = Ok deg /\
    ((tm_sourceDepth t =? depth = true /\ w' = w /\ t' = t /\ td = t) \/
     (tm_sourceDepth t =? depth = false /\ tm_depthCorrect fuel w t depth = Ok (w', t', td))) /\
    built (newPhase show w' td id)
          (parsePhaseList order (match names with Some l => l | None => ["ttall"%string] end)) phases /\
    Forall2 (fun ph l => ph_calcTime fuel ph deg = Ok l) phases ls /\
    Permutation arrs (List.concat ls) /\
    same_ties ar_time arrs (List.concat ls) /\
    ((forall a, In a arrs -> n_ok (ar_time a)) -> sorted_on ar_time arrs).
Proof. exact @travel_times_spec. Qed.
Example C05_ex :
  set_order_ok (nodup string_dec) /\ n_ok (d 100 0) /\
  exists r, get_travel_times no_show 50 (nodup string_dec) [] toy_tMod (d 100 0)
              (Some (d 40 0)) (Some ["P"; "S"; "PcP"; "P"]%string) None = Ok r
            /\ map (fun a => (ar_name a, b64_ceil (ar_time a))) (snd r)
               = [("P", 484%Z); ("PcP", 653%Z); ("S", 899%Z)]%string
            /\ forallb (fun a => ar_time a =? ar_time a) (snd r) = true.
Proof.
  split; [intros l; split; [apply NoDup_nodup|intros; apply nodup_In]|].
  split; [reflexivity|].
  eexists. split; [vm_compute; reflexivity|]. split; vm_compute; reflexivity.
Qed.

Local Open Scope R_scope.

(** ** C06: arrivals are at the requested distance *)
Theorem C06_arrival_distance : forall fuel (ph : phase R) deg l a,
  ph_calcTime fuel ph deg = Ok l -> In a l ->
  0 <= ar_dist a /\ cos (ar_dist a) = cos (deg * PI / 180) /\
  exists x, ar_moduloDistDeg a = Ok x /\ folded deg x.
Proof.
  intros fuel ph deg l a H Ha. destruct (calcTime_sound _ _ _ _ _ H Ha) as [H1 [H2 _]].
  split; [assumption|]. split; [exact H2|].
  destruct (modulo_spec a) as [x [E [B C]]]. exists x. split; [assumption|].
  split; [assumption|]. rewrite C. exact H2.
Qed.
Theorem C06_folded_unique : forall deg x y, folded deg x -> folded deg y -> x = y.
Proof. exact folded_unique. Qed.
Theorem C06_get_travel_times :
  forall (show : R -> string) fuel order w t depth deg names coords w' t' arrs a,
  set_order_ok order ->
  get_travel_times show fuel order w t depth (Some deg) names coords = Ok (w', t', arrs) ->
  In a arrs ->
  cos (ar_dist a) = cos (deg * PI / 180) /\
  exists x, ar_moduloDistDeg a = Ok x /\ folded deg x.
Proof.
  intros show fuel order w t depth deg names coords w' t' arrs a Ho H Ha.
  apply travel_times_spec in H; [|assumption|apply Reqb_true; reflexivity].
  destruct H as [dg [td [id [phs [ls [Hq [_ [_ [F [P _]]]]]]]]]].
  assert (dg = deg).
  { unfold query_degrees in Hq. do 4 inv_bind Hq. inversion Hq. reflexivity. }
  subst dg. apply (Permutation_in _ P) in Ha. apply in_concat in Ha. destruct Ha as [l [Hl Ha]].
  destruct (Forall2_In_r _ _ _ _ F Hl) as [ph [_ Hc]].
  destruct (C06_arrival_distance _ _ _ _ _ Hc Ha) as [_ ?]. assumption.
Qed.

(** ** C07: exactly the passages of the sampled curve are reported *)
Theorem C07_no_arrival_invented : forall fuel (ph : phase R) deg l a,
  ph_calcTime fuel ph deg = Ok l -> In a l ->
  exists i, ar_index a = Z.of_nat i /\ passes (ph_dist ph) (ph_rayParams ph) i (ar_dist a).
Proof.
  intros fuel ph deg l a H Ha. destruct (calcTime_sound _ _ _ _ _ H Ha) as [_ [_ [i [E [P _]]]]].
  eauto.
Qed.
Theorem C07_no_arrival_missed : forall fuel (ph : phase R) deg l i s,
  ph_calcTime fuel ph deg = Ok l ->
  0 <= s <= ph_maxDist ph -> cos s = cos (deg * PI / 180) ->
  passes (ph_dist ph) (ph_rayParams ph) i s ->
  exists a, In a l /\ ar_dist a = s /\ ar_index a = Z.of_nat i.
Proof. exact calcTime_complete. Qed.
Theorem C07_exact : forall fuel (ph : phase R) deg l,
  ph_calcTime fuel ph deg = Ok l ->
  (forall x, In x (ph_dist ph) -> 0 <= x <= ph_maxDist ph) ->
  forall i s,
  (exists a, In a l /\ ar_dist a = s /\ ar_index a = Z.of_nat i) <->
  (cos s = cos (deg * PI / 180) /\ passes (ph_dist ph) (ph_rayParams ph) i s).
Proof.
  intros fuel ph deg l H Hd i s. split.
  - intros [a [Ha [Es Ei]]]. destruct (calcTime_sound _ _ _ _ _ H Ha) as [_ [C [j [Ej [P _]]]]].
    assert (j = i) by lia. subst. split; assumption.
  - intros [C P]. apply (calcTime_complete fuel ph deg l i s H); [|assumption|assumption].
    destruct P as [d0 [d1 [p0 [p1 [H0 [H1 [_ [_ [B _]]]]]]]]].
    apply nth_error_In in H0, H1. apply Hd in H0, H1. unfold between in B. lra.
Qed.
Theorem C07_reported_once : forall fuel (ph : phase R) deg l,
  ph_calcTime fuel ph deg = Ok l -> cos (deg * PI / 180) <> 1 ->
  NoDup (map (fun a => (ar_index a, ar_dist a)) l).
Proof. exact calcTime_once. Qed.
(** at distance zero every ray that went round at least once is listed twice *)
Theorem C07_zero_distance_twice : forall fuel (ph : phase R) deg l a,
  ph_calcTime fuel ph deg = Ok l -> cos (deg * PI / 180) = 1 ->
  In a l -> 0 < ar_dist a <= ph_maxDist ph ->
  exists l1 l2 l3, l = (l1 ++ a :: l2 ++ a :: l3)%list.
Proof. exact calcTime_zero_twice. Qed.

(** ** C08: linear interpolation *)
Theorem C08_interpolation : forall fuel (ph : phase R) deg l a,
  ph_calcTime fuel ph deg = Ok l -> In a l ->
  exists i d0 d1 t0 t1 p0 p1,
    ar_index a = Z.of_nat i /\
    nth_error (ph_dist ph) i = Some d0 /\ nth_error (ph_dist ph) (S i) = Some d1 /\
    nth_error (ph_time ph) i = Some t0 /\ nth_error (ph_time ph) (S i) = Some t1 /\
    nth_error (ph_rayParams ph) i = Some p0 /\ nth_error (ph_rayParams ph) (S i) = Some p1 /\
    on_line d0 t0 d1 t1 (ar_dist a) (ar_time a) /\
    on_line d0 p0 d1 p1 (ar_dist a) (ar_rayParam a) /\
    between d0 (ar_dist a) d1 /\ between t0 (ar_time a) t1 /\ between p0 (ar_rayParam a) p1.
Proof.
  intros fuel ph deg l a H Ha.
  destruct (calcTime_sound _ _ _ _ _ H Ha) as [_ [_ [i [E [P I]]]]].
  destruct (interp_values _ _ _ _ I) as [d0 [d1 [t0 [t1 [p0 [p1 [A [B [C [D [F [G [U V]]]]]]]]]]]]].
  assert (Bt : between d0 (ar_dist a) d1).
  { destruct P as [e0 [e1 [q0 [q1 [E0 [E1 [_ [_ [Bt _]]]]]]]]].
    assert (e0 = d0) by congruence. assert (e1 = d1) by congruence. subst. assumption. }
  exists i, d0, d1, t0, t1, p0, p1.
  do 9 (split; [assumption|]). split; [assumption|].
  split; eapply on_line_between; eassumption.
Qed.
(** at a sample the sample's values are returned, from whichever side *)
Theorem C08_at_samples : forall x0 y0 x1 y1 y,
  (on_line x0 y0 x1 y1 x0 y -> y = y0) /\ (on_line x0 y0 x1 y1 x1 y -> y = y1).
Proof. split; [apply on_line_left|apply on_line_right]. Qed.
Theorem C08_continuous : forall (ph : phase R) s i a b,
  linearInterpArrival ph s (Z.of_nat i) = Ok a -> linearInterpArrival ph s (Z.of_nat (S i)) = Ok b ->
  nth_error (ph_dist ph) (S i) = Some s ->
  ar_time a = ar_time b /\ ar_rayParam a = ar_rayParam b.
Proof.
  intros ph s i a b Ha Hb Hs.
  apply interp_values in Ha, Hb.
  destruct Ha as [d0 [d1 [t0 [t1 [p0 [p1 [A [B [C [D [F [G [U V]]]]]]]]]]]]].
  destruct Hb as [e0 [e1 [u0 [u1 [q0 [q1 [A' [B' [C' [D' [F' [G' [U' V']]]]]]]]]]]]].
  assert (d1 = s) by congruence. assert (e0 = s) by congruence. subst.
  apply on_line_right in U, V. apply on_line_left in U', V'. split; congruence.
Qed.
(** two final samples at the same distance: Python divides by zero if it is asked for *)
Theorem C08_flat_end_raises : forall (ph : phase R) i s,
  passes (ph_dist ph) (ph_rayParams ph) i s ->
  nth_error (ph_dist ph) i = nth_error (ph_dist ph) (S i) ->
  List.length (ph_time ph) = List.length (ph_dist ph) ->
  linearInterpArrival ph s (Z.of_nat i) = Raise ZeroDivisionError.
Proof. exact flat_end_raises. Qed.

(** ** C09: termination *)
Theorem C09_folding_terminates : forall deg : R,
  exists f0, forall fuel, (f0 <= fuel)%nat -> exists x, foldDegrees fuel deg = Ok x /\ folded deg x.
Proof.
  intros deg. destruct (foldDegrees_terminates deg) as [f0 H]. exists f0. intros fuel Hf.
  destruct (H fuel Hf) as [x Hx]. exists x. split; [assumption|]. eapply foldDegrees_spec; eassumption.
Qed.
Theorem C09_calcTime_terminates : forall (ph : phase R) deg,
  exists f0, forall fuel, (f0 <= fuel)%nat -> ph_calcTime fuel ph deg <> Diverge.
Proof. exact calcTime_terminates. Qed.
Theorem C09_doubles_refuted :
  n_isinf (n_lit 1 300 : b64) = false /\ n_isnan (n_lit 1 300 : b64) = false /\
  forall {L : Libm b64} fuel (ph : phase b64), ph_calcTime fuel ph (n_lit 1 300) = Diverge.
Proof.
  split; [vm_compute; reflexivity|]. split; [vm_compute; reflexivity|].
  exact @calcTime_B64_diverges.
Qed.

(** ** a concrete curve: samples at 0, 1 and 9 radians; asked for 30 degrees it is hit at
    pi/6 (first interval), 2*pi - pi/6 and 2*pi + pi/6 (second interval) *)
Definition ex_vm : vmodel R := mkVModel "" 6371 35 2889 5154 0 6371 true [].
Definition ex_sm : smodel R := sm_init ex_vm 0 0 0 0 0 true 0.
Definition ex_tm : tmodel R := mkTM ex_sm [] [] [] 0 0 0 0 0 0 0 0 6371.
Definition ex_ph : phase R :=
  mkPhase "3kmps" "3kmps" ["3kmps"; "END"]%string 0 9 0 2 0 ex_tm 0
          [0; 1; 9] [0; 300; 1500] [9; 8; 5] 0 9 [].

Lemma ex_interp : forall s i, (i < 2)%nat -> exists a, linearInterpArrival ex_ph s (Z.of_nat i) = Ok a.
Proof.
  intros s i Hi. unfold linearInterpArrival.
  replace (Z.of_nat i + 1)%Z with (Z.of_nat (S i)) by lia. rewrite !py_index_nat.
  change (str_endswith "kmps" (ph_name ex_ph)) with true.
  destruct i as [|[|i]]; [| |lia]; cbn [ex_ph ph_dist ph_time ph_rayParams nth_error bind];
    cbn [n_sub n_mul n_add Num_R];
    rewrite ?py_div_R by lra; cbn [bind]; rewrite ?py_div_R by lra; cbn [bind]; eexists; reflexivity.
Qed.

Lemma ex_passes : forall i s d0 d1 p0 p1, nth_error [0; 1; 9] i = Some d0 ->
  nth_error [0; 1; 9] (S i) = Some d1 -> nth_error [9; 8; 5] i = Some p0 ->
  nth_error [9; 8; 5] (S i) = Some p1 -> d0 < s < d1 -> p0 <> p1 ->
  passes (ph_dist ex_ph) (ph_rayParams ex_ph) i s.
Proof.
  intros i s d0 d1 p0 p1 H0 H1 H2 H3 Hs Hp. exists d0, d1, p0, p1.
  do 4 (split; [assumption|]). split; [left; lra|]. split; [lra|]. intros; contradiction.
Qed.

Lemma ex_no_raise : forall s acc, exists out, search_dist ex_ph s acc = Ok out.
Proof.
  intros s acc. unfold search_dist. cbn [ph_dist ex_ph List.length].
  change (Z.of_nat 3 - 1)%Z with 2%Z. rewrite zrange_cons, zrange_cons, zrange_nil by lia.
  assert (R : forall i, (i < 2)%nat -> exists b, ray_hits ex_ph s (Z.of_nat i) = Ok b).
  { intros i Hi. unfold ray_hits.
    replace (Z.of_nat i + 1)%Z with (Z.of_nat (S i)) by lia. rewrite !py_index_nat.
    destruct i as [|[|i]]; [| |lia]; cbn [ex_ph ph_dist ph_time ph_rayParams nth_error bind];
      repeat match goal with |- context [if ?b then _ else _] => destruct b end; eexists; reflexivity. }
  destruct (R 0%nat ltac:(lia)) as [b0 E0]. destruct (R 1%nat ltac:(lia)) as [b1 E1].
  destruct (ex_interp s 0 ltac:(lia)) as [a0 I0]. destruct (ex_interp s 1 ltac:(lia)) as [a1 I1].
  cbn [foldM]. change (0 + 1)%Z with (Z.of_nat 1). change 0%Z with (Z.of_nat 0).
  rewrite E0, E1. cbn [bind]. destruct b0, b1; rewrite ?I0, ?I1; cbn [bind];
    rewrite ?I0, ?I1; cbn [bind]; eexists; reflexivity.
Qed.

Lemma ex_returns : forall deg, exists fuel l, ph_calcTime fuel ex_ph deg = Ok l.
Proof.
  intros deg. destruct (calcTime_terminates ex_ph deg) as [f0 H]. specialize (H f0 (Nat.le_refl _)).
  exists f0. destruct (ph_calcTime f0 ex_ph deg) as [l|e|] eqn:E; [eauto| |congruence].
  exfalso. clear H. unfold ph_calcTime in E.
  destruct (foldDegrees f0 deg) as [x|e'|] eqn:Ef; cbn [bind] in E; [| |discriminate].
  - rewrite n_int_R, py_div_R in E by lra. cbn [bind] in E. revert E.
    generalize (0%Z, @nil (arrival R)). generalize (Reqb x 180).
    change (n_eqb x (IZR 180)) with (Reqb x 180).
    generalize (n_mul x m_pi / 180)%R. intros y. generalize (Reqb x 180). intros b b'.
    clear. induction f0 as [|f IH]; intros [n acc] E; [discriminate|].
    cbn [while] in E. rewrite lap_R in E. destruct (Rleb _ _); [|discriminate].
    destruct (ex_no_raise (s1 y n) acc) as [o1 E1]. rewrite E1 in E. cbn [bind] in E.
    destruct b.
    + cbn [bind] in E. eapply IH; eassumption.
    + destruct (ex_no_raise (s2 y n) o1) as [o2 E2]. rewrite E2 in E. cbn [bind] in E.
      eapply IH; eassumption.
  - clear E. unfold foldDegrees in Ef.
    assert (W : forall f (x : R), wrap360 f x <> Raise e').
    { induction f as [|f IH]; intros x; [discriminate|]. rewrite wrap360_S_R.
      destruct (Rltb 360 x); [apply IH|discriminate]. }
    destruct (wrap360 f0 (n_abs deg)) eqn:Ew; cbn [bind] in Ef; try discriminate.
    inversion Ef; subst. eapply W; eassumption.
Qed.

Example C06_C07_C08_ex : exists fuel l,
  ph_calcTime fuel ex_ph 30 = Ok l /\
  (forall x, In x (ph_dist ex_ph) -> 0 <= x <= ph_maxDist ex_ph) /\
  cos (30 * PI / 180) <> 1 /\
  (exists a, In a l /\ ar_dist a = PI / 6 /\ ar_index a = 0%Z) /\
  (exists a, In a l /\ ar_dist a = 2 * PI - PI / 6 /\ ar_index a = 1%Z) /\
  (exists a, In a l /\ ar_dist a = 2 * PI + PI / 6 /\ ar_index a = 1%Z).
Proof.
  destruct (ex_returns 30) as [fuel [l H]]. exists fuel, l. split; [assumption|].
  assert (P3 : 3 < PI) by (pose proof PI2_3_2; unfold PI2 in *; lra).
  pose proof PI_4 as P4.
  assert (Hd : forall x, In x (ph_dist ex_ph) -> 0 <= x <= ph_maxDist ex_ph).
  { intros x [<-|[<-|[<-|[]]]]; simpl; lra. }
  split; [assumption|].
  replace (30 * PI / 180) with (PI / 6) by field.
  split; [rewrite cos_PI6; intros F; assert (sqrt 3 = 2) by lra;
          assert (sqrt 3 * sqrt 3 = 3) by (apply sqrt_sqrt; lra); nra|].
  assert (G := C07_exact _ _ _ _ H Hd).
  replace (30 * PI / 180) with (PI / 6) in G by field.
  split; [|split].
  - apply (G 0%nat). split; [reflexivity|].
    eapply ex_passes; try reflexivity; lra.
  - apply (G 1%nat). split.
    + replace (2 * PI - PI / 6) with (2 * IZR 1 * PI - PI / 6) by (simpl; ring). apply cos_flip.
    + eapply ex_passes; try reflexivity; lra.
  - apply (G 1%nat). split.
    + replace (2 * PI + PI / 6) with (PI / 6 + 2 * IZR 1 * PI) by (simpl; ring). apply cos_shift_Z.
    + eapply ex_passes; try reflexivity; lra.
Qed.

Example C07_zero_ex : exists fuel l a,
  ph_calcTime fuel ex_ph 360 = Ok l /\ cos (360 * PI / 180) = 1 /\ In a l /\
  0 < ar_dist a <= ph_maxDist ex_ph.
Proof.
  destruct (ex_returns 360) as [fuel [l H]]. exists fuel, l.
  assert (P3 : 3 < PI) by (pose proof PI2_3_2; unfold PI2 in *; lra). pose proof PI_4 as P4.
  assert (C : cos (360 * PI / 180) = 1).
  { replace (360 * PI / 180) with (0 + 2 * IZR 1 * PI) by (simpl; field).
    rewrite cos_shift_Z. apply cos_0. }
  destruct (C07_no_arrival_missed _ _ _ _ 1%nat (2 * PI) H) as [a [Ha [Ed _]]].
  - simpl. lra.
  - rewrite C. apply cos_2PI.
  - eapply ex_passes; try reflexivity; lra.
  - exists a. split; [assumption|]. split; [assumption|]. split; [assumption|].
    rewrite Ed. simpl. lra.
Qed.
Example C08_flat_ex : passes [0; 1; 1] [3; 2; 1] 1 1.
Proof.
  exists 1, 1, 2, 1. do 4 (split; [reflexivity|]). split; [left; lra|].
  split; [reflexivity|]. intros F. lra.
Qed.
Example C08_continuous_ex : exists a b,
  linearInterpArrival ex_ph 1 (Z.of_nat 0) = Ok a /\
  linearInterpArrival ex_ph 1 (Z.of_nat 1) = Ok b /\
  nth_error (ph_dist ex_ph) 1 = Some 1.
Proof.
  destruct (ex_interp 1 0 ltac:(lia)) as [a Ha]. destruct (ex_interp 1 1 ltac:(lia)) as [b Hb].
  exists a, b. tauto.
Qed.

Print Assumptions C05_sorted_complete.
Print Assumptions C06_arrival_distance.
Print Assumptions C06_folded_unique.
Print Assumptions C06_get_travel_times.
Print Assumptions C07_no_arrival_invented.
Print Assumptions C07_no_arrival_missed.
Print Assumptions C07_exact.
Print Assumptions C07_reported_once.
Print Assumptions C07_zero_distance_twice.
Print Assumptions C08_interpolation.
Print Assumptions C08_at_samples.
Print Assumptions C08_continuous.
Print Assumptions C08_flat_end_raises.
Print Assumptions C09_folding_terminates.
Print Assumptions C09_calcTime_terminates.
Print Assumptions C09_doubles_refuted.

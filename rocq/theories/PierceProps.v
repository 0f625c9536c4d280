(** Property C35: pierce points. *)
From Coq Require Import ZArith Bool List String Ascii Reals Lia Lra.
From Verif Require Import Base Num PyStr VelocityModel SlownessLayer SlownessModel TauModel Legs SeismicPhase Pierce
  TauSpec CurveSpec CurveProofs CurveMainProofs CurveProps SlowRealProofs RealRun PierceSpec PierceProofs.
Import ListNotations.
Local Open Scope string_scope.
Local Open Scope list_scope.
Local Open Scope R_scope.

(** the model and the name of a phase *)
Lemma phase_of : forall show w t tid name (ph : phase R), newPhase show w t tid name = Ok ph -> ph_rayParams ph <> [] ->
  ph_tMod ph = t /\ ph_name ph = name.
Proof.
  intros show w t tid name ph H Hne.
  destruct (newPhase_parts show w t tid name ph H Hne) as [legs [s [nP [nS [dist0 [time0 [dist [time [st1 [st P]]]]]]]]]].
  cbv zeta in P. tauto.
Qed.

(** The first point is the source; then comes one point for each leg of the phase that takes more than
    1e-10 s.  Its time and distance are the sums over the legs so far, interpolated between the two
    samples of the model that the ray parameter lies between, in the same proportion as the arrival's
    distance lies between two samples of the phase.  Nothing else of the arrival is changed. *)
Theorem C35_points : forall (ph : phase R) a a',
  calcPierceFromArrival ph a = Ok a' -> plain_name (ph_name ph) ->
  decreasing (tm_rayParams (ph_tMod ph)) ->
  exists i q d0 d1 p0 p1 pts,
    ray_number (tm_rayParams (ph_tMod ph)) (ar_rayParam a) i /\
    at_index (ph_dist ph) (ar_index a) d0 /\ at_index (ph_dist ph) (ar_index a + 1) d1 /\
    at_index (ph_rayParams ph) (ar_index a) p0 /\ at_index (ph_rayParams ph) (ar_index a + 1) p1 /\
    d0 <> d1 /\ ar_dist a = mix q d0 d1 /\
    pierced (ph_tMod ph) i (i + 1) q (mix q p0 p1) [] (ph_seq ph) pts /\
    a' = mkArr (ar_time a) (ar_dist a) (ar_rayParam a) (ar_index a) (ar_name a) (ar_purist a)
           (ar_sourceDepth a) (ar_takeoff a) (ar_incident a)
           (mkTD (mix q p0 p1) 0 0 (tm_sourceDepth (ph_tMod ph)) :: pts) (ar_path a).
Proof.
  intros ph a a' H [N1 [N2 N3]] Dec.
  destruct (pierce_main ph a a' H Dec) as [i [q [d0 [d1 [p0 [p1 [pts [d [tm [A [B [C [D [E [F [G [P [_ [out [Ho Ea]]]]]]]]]]]]]]]]]]]].
  assert (Hd : is_head_or_diff (ph_name ph) = false).
  { destruct (is_head_or_diff (ph_name ph)) eqn:X; [|reflexivity]. apply hd_iff in X. tauto. }
  assert (Hk : str_in "kmps" (ph_name ph) = false).
  { destruct (str_in "kmps" (ph_name ph)) eqn:X; [|reflexivity]. apply str_in_iff in X. tauto. }
  rewrite Hd in *. rewrite Hk in Ho. injection Ho as Ho. subst out.
  exists i, q, d0, d1, p0, p1, pts. auto 12.
Qed.

(** every arrival of a phase lies on its curve *)
Theorem C35_arrivals : forall fuel (ph : phase R) deg l a,
  ph_calcTime fuel ph deg = Ok l -> In a l ->
  List.length (ph_dist ph) = List.length (ph_rayParams ph) -> List.length (ph_time ph) = List.length (ph_rayParams ph) ->
  exists k q, on_curve ph a k q.
Proof. exact arrival_on_curve. Qed.

(** Time and distance never decrease from point to point. *)
Theorem C35_never_back : forall (ph : phase R) a a' k q,
  calcPierceFromArrival ph a = Ok a' -> plain_name (ph_name ph) ->
  decreasing (tm_rayParams (ph_tMod ph)) -> on_curve ph a k q ->
  (forall b x, In b (tm_P (ph_tMod ph)) \/ In b (tm_S (ph_tMod ph)) -> In x (tb_dist b) \/ In x (tb_time b) -> 0 <= x) ->
  never_back (ar_pierce a') /\ exists rest, ar_pierce a' = mkTD (ar_rayParam a) 0 0 (tm_sourceDepth (ph_tMod ph)) :: rest.
Proof.
  intros ph a a' k q H Hn Dec Hc Pos.
  destruct (C35_points ph a a' H Hn Dec) as [i [q' [d0 [d1 [p0 [p1 [pts [A [B [C [D [E [F [G [P Ea]]]]]]]]]]]]]]].
  destruct (on_curve_at _ _ _ _ _ _ _ _ _ Hc B C D E G) as [-> Ep].
  assert (Hq : 0 <= q <= 1) by (destruct Hc as [? [? [? [? [? [? [_ [_ [_ [_ [Hq _]]]]]]]]]]]; exact Hq).
  destruct (pierced_grows _ Pos _ _ _ Hq _ _ _ _ 0 0 P (reached_nil _ _ _ _)) as [N X].
  rewrite Ea. cbn [ar_pierce]. rewrite <- Ep. split; [|eauto].
  intros [|m] [|n] x y L Hx Hy; try lia; cbn in Hx, Hy.
  - injection Hx as <-. apply nth_error_In in Hy. exact (X _ Hy).
  - exact (N m n x y ltac:(lia) Hx Hy).
Qed.

(** For a phase whose curve is sampled from the model (C33), the last point has the arrival's time and
    distance; unless the arrival is on the phase's last sample and the model has further ones. *)
Theorem C35_totals : forall (ph : phase R) a a' k q lo hi,
  calcPierceFromArrival ph a = Ok a' -> plain_name (ph_name ph) ->
  decreasing (tm_rayParams (ph_tMod ph)) -> on_curve ph a k q ->
  (0 <= lo)%Z -> sampled_curve (ph_tMod ph) (ph_seq ph) lo hi (curve_of ph) ->
  q <> 1 \/ Z.of_nat (List.length (tm_rayParams (ph_tMod ph))) = (hi + 1)%Z ->
  let i := (lo + Z.of_nat k)%Z in
  reached (ph_tMod ph) i (i + 1) q (ph_seq ph) (ar_dist a) (ar_time a) /\
  exists pts, ar_pierce a' = mkTD (ar_rayParam a) 0 0 (tm_sourceDepth (ph_tMod ph)) :: pts /\
    pierced (ph_tMod ph) i (i + 1) q (ar_rayParam a) [] (ph_seq ph) pts /\
    forall l s d tm, ph_seq ph = l ++ [s] -> reached (ph_tMod ph) i (i + 1) q l d tm -> / 10 ^ 10 < Rabs (ar_time a - tm) ->
      exists pts' z, pts = pts' ++ [mkTD (ar_rayParam a) (ar_time a) (ar_dist a) z] /\ leg_end (ph_tMod ph) (ar_rayParam a) s z.
Proof.
  intros ph a a' k q lo hi H Hn Dec Hc Hlo Sc Hl i.
  destruct (C35_points ph a a' H Hn Dec) as [i' [q' [d0 [d1 [p0 [p1 [pts [A [B [C [D [E [F [G [P Ea]]]]]]]]]]]]]]].
  destruct (on_curve_at _ _ _ _ _ _ _ _ _ Hc B C D E G) as [-> Ep].
  destruct (arrival_ray ph a k q lo hi i' Hc Dec Hlo Sc A) as [[Ei [Rc _]]|[_ [Q [L _]]]].
  2:{ exfalso. destruct Hl as [Hl|Hl]; [contradiction|lia]. }
  fold i in Ei. subst i'. split; [exact Rc|]. exists pts. rewrite Ea. cbn [ar_pierce]. rewrite <- Ep in *.
  split; [reflexivity|]. split; [exact P|].
  intros l s d tm Es Hr Lt. rewrite Es in P, Rc.
  exact (pierced_last _ _ _ _ _ l [] s pts d tm (ar_dist a) (ar_time a) P Hr Rc Lt).
Qed.

(** On that sample the points are those of the next ray of the model instead, and so is the total. *)
Theorem C35_last_sample_refuted : forall (ph : phase R) a a' k lo hi,
  calcPierceFromArrival ph a = Ok a' -> plain_name (ph_name ph) ->
  decreasing (tm_rayParams (ph_tMod ph)) -> on_curve ph a k 1 ->
  (0 <= lo)%Z -> sampled_curve (ph_tMod ph) (ph_seq ph) lo hi (curve_of ph) ->
  (hi + 1 < Z.of_nat (List.length (tm_rayParams (ph_tMod ph))))%Z ->
  legs_total (ph_tMod ph) tb_dist hi (ph_seq ph) (ar_dist a) /\
  legs_total (ph_tMod ph) tb_time hi (ph_seq ph) (ar_time a) /\
  exists pts d' tm', ar_pierce a' = mkTD (ar_rayParam a) 0 0 (tm_sourceDepth (ph_tMod ph)) :: pts /\
    legs_total (ph_tMod ph) tb_dist (hi + 1) (ph_seq ph) d' /\ legs_total (ph_tMod ph) tb_time (hi + 1) (ph_seq ph) tm' /\
    forall l s tm, ph_seq ph = l ++ [s] -> legs_total (ph_tMod ph) tb_time (hi + 1) l tm -> / 10 ^ 10 < Rabs (tm' - tm) ->
      exists pts' z, pts = pts' ++ [mkTD (ar_rayParam a) tm' d' z].
Proof.
  intros ph a a' k lo hi H [N1 [N2 N3]] Dec Hc Hlo Sc Hl.
  destruct (pierce_main ph a a' H Dec) as [i [q [d0 [d1 [p0 [p1 [pts [d [tm [A [B [C [D [E [F [G [P [Rc [out [Ho Ea]]]]]]]]]]]]]]]]]]]].
  assert (Hd : is_head_or_diff (ph_name ph) = false).
  { destruct (is_head_or_diff (ph_name ph)) eqn:X; [|reflexivity]. apply hd_iff in X. tauto. }
  assert (Hk : str_in "kmps" (ph_name ph) = false).
  { destruct (str_in "kmps" (ph_name ph)) eqn:X; [|reflexivity]. apply str_in_iff in X. tauto. }
  rewrite Hd in *. rewrite Hk in Ho. injection Ho as Ho. subst out.
  destruct (on_curve_at _ _ _ _ _ _ _ _ _ Hc B C D E G) as [-> Ep].
  destruct (arrival_ray ph a k 1 lo hi i Hc Dec Hlo Sc A) as [[_ [_ [Q|Q]]]|[-> [_ [_ [_ [Td Tt]]]]]]; [contradiction|lia|].
  split; [exact Td|]. split; [exact Tt|].
  assert (Rc' := Rc). destruct Rc' as [x0 [x1 [y0 [y1 [X0 [X1 [Y0 [Y1 [Ed Et]]]]]]]]].
  assert (Ed' : d = x1) by (rewrite Ed; unfold mix; ring). assert (Et' : tm = y1) by (rewrite Et; unfold mix; ring).
  exists pts, x1, y1. rewrite Ea. cbn [ar_pierce]. rewrite <- Ep in *. split; [reflexivity|]. split; [exact X1|]. split; [exact Y1|].
  intros l s u Es Hu Lt. rewrite Es in P, Rc. rewrite Ed', Et' in Rc.
  assert (Hr : exists e v, reached (ph_tMod ph) hi (hi + 1) 1 l e v).
  { rewrite Es in X0, X1, Y0, Y1. apply total_split in X0, X1, Y0, Y1.
    destruct X0 as [? [a0 [? [_ [_ [X0 _]]]]]]. destruct X1 as [? [a1 [? [_ [_ [X1 _]]]]]].
    destruct Y0 as [? [b0 [? [_ [_ [Y0 _]]]]]]. destruct Y1 as [? [b1 [? [_ [_ [Y1 _]]]]]].
    eexists; eexists; exists a0, a1, b0, b1; auto 10. }
  destruct Hr as [e [v Hr]]. assert (Ev : v = u).
  { destruct Hr as [? [? [? [v1 [_ [_ [_ [V1 [_ ->]]]]]]]]]. rewrite (total_fun _ _ _ _ _ _ Hu V1). unfold mix. ring. }
  subst v. destruct (pierced_last _ _ _ _ _ l [] s pts e u x1 y1 P Hr Rc Lt) as [pts' [z [Epts _]]]. eauto.
Qed.

(** After a zone point (C33) the arrival and the sums over the legs part: if the curve's next point is
    not the sum [dd] over all legs, the distance at the end of the ray is not the arrival's. *)
Theorem C35_zone_refuted : forall (ph : phase R) a a' k q i p0 d0 t0 p1 d1 t1 dd,
  calcPierceFromArrival ph a = Ok a' -> plain_name (ph_name ph) ->
  decreasing (tm_rayParams (ph_tMod ph)) -> on_curve ph a k q -> 0 < q < 1 -> (0 <= i)%Z ->
  nth_error (curve_of ph) k = Some (p0, d0, t0) -> nth_error (curve_of ph) (S k) = Some (p1, d1, t1) ->
  at_index (tm_rayParams (ph_tMod ph)) i p0 -> at_index (tm_rayParams (ph_tMod ph)) (i + 1) p1 ->
  legs_total (ph_tMod ph) tb_dist i (ph_seq ph) d0 -> legs_total (ph_tMod ph) tb_dist (i + 1) (ph_seq ph) dd -> dd <> d1 ->
  exists pts e tm, ar_pierce a' = mkTD (ar_rayParam a) 0 0 (tm_sourceDepth (ph_tMod ph)) :: pts /\
    pierced (ph_tMod ph) i (i + 1) q (ar_rayParam a) [] (ph_seq ph) pts /\
    reached (ph_tMod ph) i (i + 1) q (ph_seq ph) e tm /\
    e - ar_dist a = q * (dd - d1) /\ e <> ar_dist a.
Proof.
  intros ph a a' k q i p0 d0 t0 p1 d1 t1 dd H [N1 [N2 N3]] Dec Hc Hq Hi K0 K1 R0 R1 T0 T1 Nd.
  destruct (pierce_main ph a a' H Dec) as [i' [q' [e0 [e1 [r0 [r1 [pts [d [tm [A [B [C [D [E [F [G [P [Rc [out [Ho Ea]]]]]]]]]]]]]]]]]]]].
  assert (Hd : is_head_or_diff (ph_name ph) = false).
  { destruct (is_head_or_diff (ph_name ph)) eqn:X; [|reflexivity]. apply hd_iff in X. tauto. }
  assert (Hk : str_in "kmps" (ph_name ph) = false).
  { destruct (str_in "kmps" (ph_name ph)) eqn:X; [|reflexivity]. apply str_in_iff in X. tauto. }
  rewrite Hd in *. rewrite Hk in Ho. injection Ho as Ho. subst out.
  destruct (on_curve_at _ _ _ _ _ _ _ _ _ Hc B C D E G) as [-> Ep].
  destruct Hc as [s0 [f0 [u0 [s1 [f1 [u1 [M0 [M1 [Ek [_ [_ [_ [Ed [Et Ep']]]]]]]]]]]]]].
  assert (X := eq_trans (eq_sym M0) K0). injection X as -> -> ->. assert (X := eq_trans (eq_sym M1) K1). injection X as -> -> ->.
  assert (Lp := at_index_decreasing _ i (i + 1) p0 p1 Dec ltac:(lia) R0 R1).
  assert (Ei : i' = i).
  { apply at_index_nonneg in R0, R1; try lia. replace (Z.to_nat (i + 1)) with (S (Z.to_nat i)) in R1 by lia.
    assert (Bp : p1 < ar_rayParam a <= p0).
    { rewrite Ep'. unfold mix. assert (0 < (1 - q) * (p0 - p1)) by (apply Rmult_lt_0_compat; lra).
      assert (0 < q * (p0 - p1)) by (apply Rmult_lt_0_compat; lra). lra. }
    rewrite (ray_number_between _ (ar_rayParam a) (Z.to_nat i) p0 p1 i' Dec R0 R1 Bp A). lia. }
  subst i'. exists pts, d, tm. rewrite Ea. cbn [ar_pierce]. rewrite <- Ep in *. split; [reflexivity|]. split; [exact P|].
  split; [exact Rc|]. destruct Rc as [x0 [x1 [y0 [y1 [X0 [X1 [_ [_ [-> _]]]]]]]]].
  rewrite (total_fun _ _ _ _ _ _ X0 T0), (total_fun _ _ _ _ _ _ X1 T1), Ed. unfold mix.
  split; [ring|]. intros X. apply Nd. apply (Rmult_eq_reg_l q); lra.
Qed.

(** Arrivals of the phases that the program makes, without high slowness zones: the totals are right
    except on the last sample. *)
Theorem C35_constructed : forall show w t tid name ph fuel deg l a a',
  newPhase show w t tid name = Ok ph -> ph_rayParams ph <> [] -> plain_name name ->
  List.length (tm_S t) = List.length (tm_P t) -> decreasing (tm_rayParams t) ->
  (exists r, In r (tm_rayParams t) /\ ph_max ph <= r) ->
  (forall z, In z (sm_hiP (tm_sMod t)) \/ In z (sm_hiS (tm_sMod t)) -> ~ ph_min ph < dr_rayParam z < ph_max ph) ->
  ph_calcTime fuel ph deg = Ok l -> In a l -> calcPierceFromArrival ph a = Ok a' ->
  (exists r, In r (ph_rayParams ph) /\ r < ar_rayParam a) ->
  exists i q pts, ray_number (tm_rayParams t) (ar_rayParam a) i /\ 0 <= q <= 1 /\
    reached t i (i + 1) q (ph_seq ph) (ar_dist a) (ar_time a) /\
    ar_pierce a' = mkTD (ar_rayParam a) 0 0 (tm_sourceDepth t) :: pts /\
    pierced t i (i + 1) q (ar_rayParam a) [] (ph_seq ph) pts.
Proof.
  intros show w t tid name ph fuel deg l a a' H Hne Hn Hlen Dec Hr Hz Hc Hin Hp [r [Ir Lr]].
  assert (N1 := proj1 Hn). assert (N2 := proj1 (proj2 Hn)).
  destruct (C33_sum_of_legs_no_zone _ _ _ _ _ _ H Hne Hlen Hr N1 N2 Hz) as [lo [hi [[Hlo _] [_ Cv]]]].
  destruct (C33_sum_of_legs _ _ _ _ _ _ H Hne Hlen Hr N1 N2) as [_ [_ [_ [_ [_ [_ [_ [_ [_ [_ [_ [_ [_ [L1 L2]]]]]]]]]]]]]].
  destruct (phase_of _ _ _ _ _ _ H Hne) as [Et En]. rewrite <- En in Hn. rewrite <- Et in *.
  destruct (C35_arrivals _ _ _ _ _ Hc Hin L1 L2) as [k [q Oc]].
  destruct (C35_points ph a a' Hp Hn Dec) as [i [q' [d0 [d1 [p0 [p1 [pts [A [B [C [D [E [F [G [P Ea]]]]]]]]]]]]]]].
  destruct (on_curve_at _ _ _ _ _ _ _ _ _ Oc B C D E G) as [-> Ep].
  assert (Hq : 0 <= q <= 1) by (destruct Oc as [? [? [? [? [? [? [_ [_ [_ [_ [Hq _]]]]]]]]]]]; exact Hq).
  destruct Cv as [[Lh Cv]|[_ [e [u [Cv _]]]]].
  2:{ exfalso. destruct Oc as [? [f0 [? [? [f1 [? [M0 [M1 [_ [Nd _]]]]]]]]]]. rewrite Cv in M0, M1.
      destruct k as [|[|k]]; cbn in M0, M1; try discriminate; try (destruct k; discriminate).
      injection M0 as _ <- _. injection M1 as _ <- _. contradiction. }
  exists i, q, pts. split; [exact A|]. split; [exact Hq|]. rewrite Ea. cbn [ar_pierce]. rewrite <- Ep in *.
  destruct (arrival_ray ph a k q lo hi i Oc Dec Hlo Cv A) as [[_ [Rc _]]|[_ [_ [_ [Hh _]]]]]; [auto|].
  exfalso. apply In_nth_error in Ir. destruct Ir as [n Hn'].
  destruct (nth_error (curve_of ph) n) as [[[r' dn] tn]|] eqn:Ec.
  2:{ apply nth_error_None in Ec. unfold curve_of, point in Ec. rewrite !combine_length, L1, L2, !Nat.min_id in Ec.
      assert (n < List.length (ph_rayParams ph))%nat by (apply nth_error_Some; congruence). lia. }
  assert (r' = r) by (apply curve_nth in Ec; destruct Ec as [Ec _]; congruence). subst r'.
  assert (Ln : (n < List.length (curve_of ph))%nat) by (apply nth_error_Some; congruence).
  destruct Cv as [Lc Cv]. destruct (Cv _ _ _ _ Ec) as [Sn _].
  destruct (Z.eq_dec (lo + Z.of_nat n) hi) as [X|X].
  - rewrite X in Sn. assert (Y := at_index_fun _ _ _ _ Sn Hh). lra.
  - assert (Y := at_index_decreasing _ (lo + Z.of_nat n) hi r (ar_rayParam a) Dec ltac:(lia) Sn Hh). lra.
Qed.

(** ** head and diffracted waves *)

(** The way along the boundary, arrival distance minus distance of the grazing ray, is shared out in [n]
    equal parts, [n] being the number of times the wave occurs in the name, one part after each point at
    the boundary's depth.  Hence with [m] such points the last point is at [m]/[n] of that way, and is the
    arrival's distance for [m] = [n]. *)
Theorem C35_boundary_waves : forall show w t tid name ph a a' k q,
  newPhase show w t tid name = Ok ph -> ph_rayParams ph <> [] ->
  List.length (tm_S t) = List.length (tm_P t) -> decreasing (tm_rayParams t) ->
  (exists r, In r (tm_rayParams t) /\ ph_max ph <= r) -> (exists r, In r (tm_rayParams t) /\ r < ph_max ph) ->
  diffracted name \/ head_wave name ->
  on_curve ph a k q -> calcPierceFromArrival ph a = Ok a' ->
  exists word z lo d tm pts,
    let p := ph_max ph in let n := Z.of_nat (str_count word name) in let extra := ar_dist a - d in
    let all := mkTD p 0 0 (tm_sourceDepth t) :: pts in
    boundary_wave name word /\ boundary_depth t word z /\ (0 < n)%Z /\ ar_rayParam a = p /\
    last_sample (tm_rayParams t) p lo /\
    legs_total t tb_dist lo (ph_seq ph) d /\ legs_total t tb_time lo (ph_seq ph) tm /\
    pierced t lo lo q p [] (ph_seq ph) pts /\
    along z extra (extra * p) n 0 all (ar_pierce a') /\
    (diffracted name -> ar_time a = tm + p * extra) /\ (~ diffracted name -> ar_time a = tm + extra) /\
    forall l s t1, ph_seq ph = l ++ [s] -> legs_total t tb_time lo l t1 -> / 10 ^ 10 < Rabs (tm - t1) ->
      (forall x, leg_end t p s x -> x <> z) ->
      exists pre x, let m := IZR (points_at z all) in
        leg_end t p s x /\
        ar_pierce a' = pre ++ [mkTD p (tm + m * (extra * p) / IZR n) (d + m * extra / IZR n) x].
Proof.
  intros show w t tid name ph a a' k q H Hne Hlen Dec Hr Hs Hw Oc Hp.
  destruct (special_curve show w t tid name ph H Hne Hlen Hr Hw) as [lo [d [tm [dd [dt [Em [H0 [Hl [Td [Tt [Ec [L1 [L2 [L3 Cs]]]]]]]]]]]]]].
  destruct (phase_of _ _ _ _ _ _ H Hne) as [Et En].
  assert (Hd : is_head_or_diff (ph_name ph) = true) by (rewrite En; apply hd_iff; exact Hw).
  rewrite <- Et in Dec.
  destruct (pierce_main ph a a' Hp Dec) as [i [q' [d0 [d1 [p0 [p1 [pts [e [u [A [B [C [D [E [F [G [P [Rc [out [Ho Ea]]]]]]]]]]]]]]]]]]]].
  rewrite Hd in *. rewrite Et in *.
  destruct (on_curve_at _ _ _ _ _ _ _ _ _ Oc B C D E G) as [-> Ep]. rewrite <- Ep in *.
  destruct Oc as [s0 [f0 [u0 [s1 [f1 [u1 [M0 [M1 [Ek [Nd [_ [_ [Ed [Etm Ep']]]]]]]]]]]]]].
  rewrite Ec in M0, M1. destruct k as [|[|k]]; cbn in M0, M1; try discriminate; try (destruct k; discriminate).
  injection M0 as <- <- <-. injection M1 as <- <- <-.
  assert (Epm : ar_rayParam a = ph_max ph) by (rewrite Ep', <- Em; unfold mix; ring).
  assert (Ei : i = lo) by (rewrite Epm in A; exact (ray_number_sample _ _ _ _ Dec Hl Hs A)). subst i.
  destruct (handle_spec _ _ _ _ Ho) as [word [z [g0 [Bw [Bd [Hg Al]]]]]].
  rewrite En, Et, Epm in *.
  assert (Eg : g0 = d).
  { unfold curve_of in Ec. destruct (ph_dist ph) as [|y1 [|y2 [|? ?]]]; try discriminate L1. destruct (ph_time ph) as [|z1 [|z2 [|? ?]]]; try discriminate L2.
    destruct (ph_rayParams ph) as [|v1 [|v2 [|? ?]]]; try discriminate L3. cbn in Ec. injection Ec as _ -> _ _ _ _.
    apply at_index_nonneg in Hg; [|lia]. cbn in Hg. congruence. }
  subst g0. exists word, z, lo, d, tm, pts. cbn zeta.
  split; [exact Bw|]. split; [exact Bd|].
  assert (Np : (0 < Z.of_nat (str_count word name))%Z).
  { assert (X := count_pos word name (proj1 Bw)). assert (word <> "") by (destruct Bw as [_ [->|[[-> _]|[[-> _]|[-> _]]]]]; discriminate). specialize (X H1). lia. }
  split; [exact Np|]. split; [reflexivity|]. split; [exact Hl|]. split; [exact Td|]. split; [exact Tt|]. split; [exact P|].
  split; [rewrite Ea; exact Al|].
  assert (Ex : ar_dist a - d = q * dd) by (rewrite Ed; unfold mix; ring).
  split; [intros X; destruct Cs as [[_ [_ Edt]]|[Y _]]; [|contradiction]; rewrite Etm, Ex, Edt, Em; unfold mix; ring|].
  split; [intros X; destruct Cs as [[Y _]|[_ [_ Edt]]]; [contradiction|]; rewrite Etm, Ex, Edt; unfold mix; ring|].
  intros l s t1 Es Ht1 Lt Hz. 
  assert (Rt : reached t lo lo q (ph_seq ph) d tm) by (exists d, d, tm, tm; repeat split; try assumption; unfold mix; ring).
  rewrite Es in P, Rt.
  assert (Td' := Td). rewrite Es in Td'. apply total_split in Td'. destruct Td' as [b' [dl [xl [_ [_ [Tl _]]]]]].
  assert (Rl : reached t lo lo q l dl t1) by (exists dl, dl, t1, t1; repeat split; try assumption; unfold mix; ring).
  destruct (pierced_last _ _ _ _ _ l [] s pts dl t1 d tm P Rl Rt Lt) as [pts' [x [Epts Hx]]].
  assert (Dx : td_depth (mkTD (ph_max ph) tm d x) <> z) by (cbn; apply Hz; exact Hx).
  rewrite Epts in Al |- *.
  destruct (along_last z (ar_dist a - d) ((ar_dist a - d) * ph_max ph) (Z.of_nat (str_count word name)) (mkTD (ph_max ph) 0 0 (tm_sourceDepth t) :: pts') 0
    (mkTD (ph_max ph) tm d x) out Al Dx) as [pre Epre].
  exists pre, x. split; [exact Hx|]. rewrite Ea. cbn [ar_pierce]. rewrite Epre. reflexivity.
Qed.

(** No exception is raised for a ray that passes all branches of its phase without turning in one. *)
Theorem C35_defined : forall (ph : phase R) a k q i,
  on_curve ph a k q -> decreasing (tm_rayParams (ph_tMod ph)) -> ray_number (tm_rayParams (ph_tMod ph)) (ar_rayParam a) i ->
  (forall s, In s (ph_seq ph) -> exists b dA tA dB tB, leg_branch (ph_tMod ph) s b /\ ar_rayParam a <= tb_minRP b /\
     at_index (tb_dist b) i dA /\ at_index (tb_time b) i tA /\
     at_index (tb_dist b) (i + 1) dB /\ at_index (tb_time b) (i + 1) tB) ->
  exists a', calcPierceFromArrival ph a = Ok a'.
Proof. exact pierce_defined. Qed.

(** ** concrete cases: a small Earth with six rays, three of which reach the core *)
Definition y_bs (isP : bool) : list (tbranch R) :=
  [xb isP 0 1 16 12 12 [2; 4; 8; 16; 20; 24] [10; 14; 18; 22; 24; 26];
   xb isP 1 2 12 8 8 [0; 6; 10; 14; 18; 30] [0; 12; 16; 20; 22; 24];
   xb isP 2 3 8 4 4 [0; 0; 2; 6; 10; 12] [0; 0; 4; 8; 10; 12]].
Definition y_t (hiP : list (drange R)) : tmodel R :=
  mkTM (x_s hiP []) [16; 12; 8; 4; 2; 0] (y_bs true) (y_bs false) 1 3 3 1 3 3 0 0 4.
Definition y_a (time dist p : R) (k : Z) : arrival R := mkArr time dist p k "" "" 0 0 0 [] [].
Lemma y_decreasing : forall hiP, decreasing (tm_rayParams (y_t hiP)).
Proof. intros. repeat constructor; apply Rltb_lt; lra. Qed.
Lemma y_positive : forall hiP b x, In b (tm_P (y_t hiP)) \/ In b (tm_S (y_t hiP)) -> In x (tb_dist b) \/ In x (tb_time b) -> 0 <= x.
Proof.
  intros hiP b x Hb Hx.
  assert (Fo : forall isP, Forall (fun b => Forall (Rle 0) (tb_dist b) /\ Forall (Rle 0) (tb_time b)) (y_bs isP)).
  { intros isP. unfold y_bs, xb. repeat (apply Forall_cons; [split; repeat (apply Forall_cons; [lra|]); apply Forall_nil|]). apply Forall_nil. }
  assert (G : Forall (Rle 0) (tb_dist b) /\ Forall (Rle 0) (tb_time b)).
  { destruct Hb as [Hb|Hb]; [specialize (Fo true)|specialize (Fo false)]; rewrite Forall_forall in Fo; exact (Fo b Hb). }
  destruct G as [G1 G2]. rewrite Forall_forall in G1, G2. destruct Hx; auto.
Qed.
Ltac leg_data := eexists; eexists; eexists; eexists; eexists;
  split; [left; split; [cbn; lia|reflexivity]|]; split; [cbn; lra|];
  repeat split; (left; split; [lia|reflexivity]).
Ltac plain_tac := split; [intros [X|X]; not_in X|split; [intros [X|X]; not_in X|intros X; not_in X]].
Ltac total_tac := repeat first [apply lt_nil | eapply lt_cons; [left; split; [cbn; lia|reflexivity]|left; split; [lia|reflexivity]|]].

(** a reflection at the core, half way between two samples: the totals are those of the arrival *)
Example C35_ex : exists ph a', newPhase x_show [] (y_t []) 0 "PcP" = Ok ph /\
  curve_of ph = [(4, 72, 100); (2, 96, 112); (0, 132, 124)] /\ List.length (ph_seq ph) = 6%nat /\
  plain_name (ph_name ph) /\ on_curve ph (y_a 106 84 3 0) 0 (1 / 2) /\
  sampled_curve (ph_tMod ph) (ph_seq ph) 3 5 (curve_of ph) /\
  calcPierceFromArrival ph (y_a 106 84 3 0) = Ok a' /\
  exists pre z, ar_pierce a' = pre ++ [mkTD 3 106 84 z].
Proof.
  eexists. eassert (Hp : newPhase x_show [] (y_t []) 0 "PcP" = Ok _) by run.
  match type of Hp with _ = Ok ?p => set (ph := p) in * end.
  assert (Pn : plain_name (ph_name ph)) by plain_tac.
  assert (Oc : on_curve ph (y_a 106 84 3 0) 0 (1 / 2)).
  { exists 4, 72, 100, 2, 96, 112. split; [reflexivity|]. split; [reflexivity|]. split; [reflexivity|]. split; [lra|]. split; [lra|].
    split; [lra|]. unfold mix; cbn. repeat split; lra. }
  assert (Sc : sampled_curve (ph_tMod ph) (ph_seq ph) 3 5 (curve_of ph)).
  { split; [reflexivity|]. intros [|[|[|k]]] p d tm E; cbn in E; try (injection E as <- <- <-); try (destruct k; discriminate).
    - split; [left; split; [lia|reflexivity]|]. split; [replace 72 with (16+(14+(6+(6+(14+(16+0)))))) by lra|replace 100 with (22+(20+(8+(8+(20+(22+0)))))) by lra]; total_tac.
    - split; [left; split; [lia|reflexivity]|]. split; [replace 96 with (20+(18+(10+(10+(18+(20+0)))))) by lra|replace 112 with (24+(22+(10+(10+(22+(24+0)))))) by lra]; total_tac.
    - split; [left; split; [lia|reflexivity]|]. split; [replace 132 with (24+(30+(12+(12+(30+(24+0)))))) by lra|replace 124 with (26+(24+(12+(12+(24+(26+0)))))) by lra]; total_tac. }
  assert (Rn : ray_number (tm_rayParams (ph_tMod ph)) (ar_rayParam (y_a 106 84 3 0)) 3).
  { left. split; [lia|]. split; [exists 4; split; [reflexivity|cbn; lra]|].
    intros [|[|[|[|[|j]]]]] x L E; cbn in L, E; try lia; [injection E as <-; cbn; lra|destruct j; discriminate]. }
  destruct (C35_defined ph _ _ _ _ Oc (y_decreasing []) Rn) as [a' Ha].
  { intros s Hs. repeat (destruct Hs as [<-|Hs]; [leg_data|]). destruct Hs. }
  exists a'. split; [exact Hp|]. split; [reflexivity|]. split; [reflexivity|]. split; [exact Pn|]. split; [exact Oc|]. split; [exact Sc|].
  split; [exact Ha|].
  destruct (C35_totals ph _ _ _ _ 3 5 Ha Pn (y_decreasing []) Oc ltac:(lia) Sc ltac:(left; lra)) as [Rt [pts [Ep [Pi Hl]]]].
  destruct (Hl (removelast (ph_seq ph)) (last (ph_seq ph) (mkSeg 0 true true TURN)) (mix (1 / 2) 56 76) (mix (1 / 2) 78 88)) as [pts' [z [E _]]].
  - reflexivity.
  - exists 56, 76, 78, 88. split; [replace 56 with (16+(14+(6+(6+(14+0))))) by lra; total_tac|].
    split; [replace 76 with (20+(18+(10+(10+(18+0))))) by lra; total_tac|].
    split; [replace 78 with (22+(20+(8+(8+(20+0))))) by lra; total_tac|].
    split; [replace 88 with (24+(22+(10+(10+(22+0))))) by lra; total_tac|]. split; reflexivity.
  - unfold mix; cbn [y_a ar_time]. replace (106 - ((1 - 1 / 2) * 78 + 1 / 2 * 88)) with 23 by lra. rewrite Rabs_right by lra. lra.
  - exists (mkTD 3 0 0 0 :: pts'), z. rewrite Ep, E. reflexivity.
Qed.

(** the last sample of a direct wave: the points are those of the next ray, 96 instead of 72 *)
Example C35_last_sample_ex : exists ph a', newPhase x_show [] (y_t []) 0 "P" = Ok ph /\
  plain_name (ph_name ph) /\ on_curve ph (y_a 100 72 4 2) 2 1 /\
  sampled_curve (ph_tMod ph) (ph_seq ph) 0 3 (curve_of ph) /\
  calcPierceFromArrival ph (y_a 100 72 4 2) = Ok a' /\ ar_dist a' = 72 /\
  exists pre z, ar_pierce a' = pre ++ [mkTD 4 112 96 z].
Proof.
  eexists. eassert (Hp : newPhase x_show [] (y_t []) 0 "P" = Ok _) by run.
  match type of Hp with _ = Ok ?p => set (ph := p) in * end.
  assert (Pn : plain_name (ph_name ph)) by plain_tac.
  assert (Oc : on_curve ph (y_a 100 72 4 2) 2 1).
  { exists 8, 40, 76, 4, 72, 100. split; [reflexivity|]. split; [reflexivity|]. split; [reflexivity|]. split; [lra|]. split; [lra|].
    split; [reflexivity|]. unfold mix; cbn. repeat split; lra. }
  assert (Sc : sampled_curve (ph_tMod ph) (ph_seq ph) 0 3 (curve_of ph)).
  { split; [reflexivity|]. intros [|[|[|[|k]]]] p d tm E; cbn in E; try (injection E as <- <- <-); try (destruct k; discriminate).
    - split; [left; split; [lia|reflexivity]|]. split; [replace 4 with (2+(0+(0+(0+(0+(2+0)))))) by lra|replace 20 with (10+(0+(0+(0+(0+(10+0)))))) by lra]; total_tac.
    - split; [left; split; [lia|reflexivity]|]. split; [replace 20 with (4+(6+(0+(0+(6+(4+0)))))) by lra|replace 52 with (14+(12+(0+(0+(12+(14+0)))))) by lra]; total_tac.
    - split; [left; split; [lia|reflexivity]|]. split; [replace 40 with (8+(10+(2+(2+(10+(8+0)))))) by lra|replace 76 with (18+(16+(4+(4+(16+(18+0)))))) by lra]; total_tac.
    - split; [left; split; [lia|reflexivity]|]. split; [replace 72 with (16+(14+(6+(6+(14+(16+0)))))) by lra|replace 100 with (22+(20+(8+(8+(20+(22+0)))))) by lra]; total_tac. }
  assert (Rn : ray_number (tm_rayParams (ph_tMod ph)) (ar_rayParam (y_a 100 72 4 2)) 3).
  { left. split; [lia|]. split; [exists 4; split; [reflexivity|cbn; lra]|].
    intros [|[|[|[|[|j]]]]] x L E; cbn in L, E; try lia; [injection E as <-; cbn; lra|destruct j; discriminate]. }
  destruct (C35_defined ph _ _ _ _ Oc (y_decreasing []) Rn) as [a' Ha].
  { intros s Hs. repeat (destruct Hs as [<-|Hs]; [leg_data|]). destruct Hs. }
  exists a'. split; [exact Hp|]. split; [exact Pn|]. split; [exact Oc|]. split; [exact Sc|].
  split; [exact Ha|].
  destruct (C35_points ph _ _ Ha Pn (y_decreasing [])) as [? [? [? [? [? [? [? [_ [_ [_ [_ [_ [_ [_ [_ Ea]]]]]]]]]]]]]]].
  split; [rewrite Ea; reflexivity|]. clear Ea.
  destruct (C35_last_sample_refuted ph _ _ _ 0 3 Ha Pn (y_decreasing []) Oc ltac:(lia) Sc ltac:(cbn; lia)) as [_ [_ [pts [d' [tm' [Ep [Td [Tt Hl]]]]]]]].
  assert (Ed : d' = 96).
  { eapply total_fun; [exact Td|]. replace 96 with (20+(18+(10+(10+(18+(20+0)))))) by lra. total_tac. }
  assert (Et : tm' = 112).
  { eapply total_fun; [exact Tt|]. replace 112 with (24+(22+(10+(10+(22+(24+0)))))) by lra. total_tac. }
  subst d' tm'.
  destruct (Hl (removelast (ph_seq ph)) (last (ph_seq ph) (mkSeg 0 true true TURN)) 88) as [pts' [z E]].
  - reflexivity.
  - replace 88 with (24+(22+(10+(10+(22+0))))) by lra; total_tac.
  - replace (112 - 88) with 24 by lra. rewrite Rabs_right by lra. lra.
  - exists (mkTD 4 0 0 0 :: pts'), z. rewrite Ep, E. reflexivity.
Qed.

(** a high slowness zone at ray parameter 2: the arrival at 56 ends at 84 *)
Example C35_zone_ex : exists ph a', newPhase x_show [] (y_t [mkDR 1 2 2]) 0 "PcP" = Ok ph /\
  plain_name (ph_name ph) /\ on_curve ph (y_a 74 56 3 0) 0 (1 / 2) /\
  curve_of ph = [(4, 72, 100); (2, 40, 48); (2, 96, 112); (0, 132, 124)] /\
  legs_total (ph_tMod ph) tb_dist 3 (ph_seq ph) 72 /\ legs_total (ph_tMod ph) tb_dist 4 (ph_seq ph) 96 /\
  calcPierceFromArrival ph (y_a 74 56 3 0) = Ok a' /\
  exists tm, reached (ph_tMod ph) 3 4 (1 / 2) (ph_seq ph) 84 tm.
Proof.
  eexists. eassert (Hp : newPhase x_show [] (y_t [mkDR 1 2 2]) 0 "PcP" = Ok _) by run.
  match type of Hp with _ = Ok ?p => set (ph := p) in * end.
  assert (Pn : plain_name (ph_name ph)) by plain_tac.
  assert (Oc : on_curve ph (y_a 74 56 3 0) 0 (1 / 2)).
  { exists 4, 72, 100, 2, 40, 48. split; [reflexivity|]. split; [reflexivity|]. split; [reflexivity|]. split; [lra|]. split; [lra|].
    split; [lra|]. unfold mix; cbn. repeat split; lra. }
  assert (Rn : ray_number (tm_rayParams (ph_tMod ph)) (ar_rayParam (y_a 74 56 3 0)) 3).
  { left. split; [lia|]. split; [exists 4; split; [reflexivity|cbn; lra]|].
    intros [|[|[|[|[|j]]]]] x L E; cbn in L, E; try lia; [injection E as <-; cbn; lra|destruct j; discriminate]. }
  destruct (C35_defined ph _ _ _ _ Oc (y_decreasing [mkDR 1 2 2]) Rn) as [a' Ha].
  { intros s Hs. repeat (destruct Hs as [<-|Hs]; [leg_data|]). destruct Hs. }
  assert (T0 : legs_total (ph_tMod ph) tb_dist 3 (ph_seq ph) 72) by (replace 72 with (16+(14+(6+(6+(14+(16+0)))))) by lra; total_tac).
  assert (T1 : legs_total (ph_tMod ph) tb_dist 4 (ph_seq ph) 96) by (replace 96 with (20+(18+(10+(10+(18+(20+0)))))) by lra; total_tac).
  exists a'. split; [exact Hp|]. split; [exact Pn|]. split; [exact Oc|]. split; [reflexivity|].
  split; [exact T0|]. split; [exact T1|]. split; [exact Ha|].
  destruct (C35_zone_refuted ph _ _ _ _ 3 4 72 100 2 40 48 96 Ha Pn (y_decreasing _) Oc ltac:(lra) ltac:(lia) eq_refl eq_refl
    ltac:(left; split; [lia|reflexivity]) ltac:(left; split; [lia|reflexivity]) T0 T1 ltac:(lra)) as [pts [e [tm [_ [_ [Rc [Ee _]]]]]]].
  exists tm. cbn [y_a ar_dist] in Ee. replace 84 with e by lra. exact Rc.
Qed.

(** a diffracted wave with 30 degrees along the core *)
Example C35_boundary_ex : exists ph a', newPhase x_show [] (y_t []) 0 "Pdiff" = Ok ph /\
  let x := 30 * PI / 180 in
  on_curve ph (y_a (100 + 4 * x) (72 + x) 4 0) 0 (1 / 2) /\ ph_max ph = 4 /\ str_count "Pdiff" "Pdiff" = 1%nat /\
  calcPierceFromArrival ph (y_a (100 + 4 * x) (72 + x) 4 0) = Ok a'.
Proof.
  eexists. eassert (Hp : newPhase x_show [] (y_t []) 0 "Pdiff" = Ok _) by run.
  match type of Hp with _ = Ok ?p => set (ph := p) in * end.
  set (x := 30 * PI / 180).
  assert (Oc : on_curve ph (y_a (100 + 4 * x) (72 + x) 4 0) 0 (1 / 2)).
  { exists 4, 72, 100, 4, (72 + 60 * PI / 180), (100 + 60 * PI / 180 * 4). split; [reflexivity|]. split; [reflexivity|]. split; [reflexivity|].
    assert (X := PI_RGT_0). split; [lra|]. split; [lra|]. split; [lra|]. unfold mix, x; cbn. repeat split; lra. }
  assert (Rn : ray_number (tm_rayParams (ph_tMod ph)) (ar_rayParam (y_a (100 + 4 * x) (72 + x) 4 0)) 3).
  { left. split; [lia|]. split; [exists 4; split; [reflexivity|cbn; lra]|].
    intros [|[|[|[|[|j]]]]] y L E; cbn in L, E; try lia; [injection E as <-; cbn; lra|destruct j; discriminate]. }
  destruct (C35_defined ph _ _ _ _ Oc (y_decreasing []) Rn) as [a' Ha].
  { intros s Hs. repeat (destruct Hs as [<-|Hs]; [leg_data|]). destruct Hs. }
  exists a'. split; [exact Hp|]. split; [exact Oc|]. split; [reflexivity|]. split; [reflexivity|]. exact Ha.
Qed.

Print Assumptions C35_points.
Print Assumptions C35_arrivals.
Print Assumptions C35_never_back.
Print Assumptions C35_totals.
Print Assumptions C35_last_sample_refuted.
Print Assumptions C35_zone_refuted.
Print Assumptions C35_constructed.
Print Assumptions C35_boundary_waves.
Print Assumptions C35_defined.

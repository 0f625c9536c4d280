(** Property C58: the accuracy of interpolated arrival times from sources inside layers. *)
From Coq Require Import ZArith Bool List String Ascii Reals Lia Lra Sorting.Sorted.
From Verif Require Import Base Num PyStr VelocityModel SlownessLayer SlownessModel SlowSpec SlowProofs TauModel Legs SeismicPhase
  TauSpec TauProofs CurveSpec CurveProofs CurveMainProofs CurveProps TimeSpec TimeProofs TimeProps PathSpec PathProofs PathLegProofs VelSpec AngleSpec AngleProofs NameSpec NameProofs CalcTimeProofs RouteSpec RouteProofs AngleRouteProofs RouteProps AngleProps
  BullenSpec BullenProofs ErrSpec ErrProofs ErrLegProofs ErrExistProofs SlowRealProofs RealRun ShellProps PierceProps
  CritSpec CritProofs CritProps StackSpec StackProofs SlowProps SampleProofs TauBuildProofs TauSplitProofs TauProps MonoSpec MonoProps LimitSpec LimitProps ErrProps
  SourceSpec SourceProofs SourceProps InsideSpec InsideProofs InsideGoodProofs InsideProps SlowRun BuildRun TwoRun InsideRun.
Import ListNotations.
Local Open Scope string_scope.
Local Open Scope list_scope.
Local Open Scope R_scope.

Lemma parts_length : forall fuel (m : smodel R) x rp w n l l', two_parts fuel m x rp w n l l' -> List.length l' = S (List.length l).
Proof.
  intros fuel m x rp w n l l' [b [a [c [Hb [-> _]]]]]. assert (Hn : (n < List.length l)%nat) by (apply nth_error_Some; congruence).
  rewrite app_length, firstn_length. cbn [List.length]. rewrite skipn_length. lia.
Qed.
Lemma corrected_lengths : forall fuel wd (t : tmodel R) x wd' t' r, decreasing (tm_rayParams t) -> tm_depthCorrect fuel wd t x = Ok (wd', t', r) ->
  List.length (tm_S t) = List.length (tm_P t) -> List.length (tm_S r) = List.length (tm_P r).
Proof.
  intros fuel wd t x wd' t' r Dec Hd L.
  destruct (existsb (fun b => n_eqb (tb_top b) x || n_eqb (tb_bot b) x) (tm_P t)) eqn:E.
  - apply at_edge_b in E. destruct (C53_edge_source _ _ _ _ _ _ _ Dec E Hd) as [_ [_ [_ [_ [G _]]]]].
    pose proof (G true) as G1. pose proof (G false) as G2. cbn [TauSpec.branches] in G1, G2. congruence.
  - assert (Ne : ~ at_edge (tm_P t) x) by (rewrite <- at_edge_b; congruence).
    destruct (correct_inside _ _ _ _ _ _ _ Dec Ne Hd) as [_ [mS [iS [mP [iP [_ [_ [_ [n [b [_ [_ Tp]]]]]]]]]]]].
    pose proof (parts_length _ _ _ _ _ _ _ _ (Tp true)) as G1. pose proof (parts_length _ _ _ _ _ _ _ _ (Tp false)) as G2. cbn [TauSpec.branches] in G1, G2. lia.
Qed.

(** Every arrival computed for a source inside a layer, strictly between two samples between which the model has no slowness, belongs to
    an exact ray from the source: the one whose parameter lies between those of the samples and that arrives at the same distance.  The
    reported time differs from the time of this ray by no more than the differences of the samples allow. *)
Theorem C58_accuracy :
  forall fuel fuel' fuel'' vm dp Dp dz dx err innerS tol (m : smodel R) t x wd wd' t' r show w tid name ph fuel3 deg l a k p0 p1 d0 d1,
  newSlownessModel fuel vm dp Dp dz dx err innerS tol = Ok m -> newTauModel fuel' m = Ok t ->
  VelSpec.thick (vm_layers vm) -> vm_radius vm = 6371 -> no_flat vm innerS -> fluid_above_inner_core vm innerS ->
  (forall w f, nth_error (sm_layers m w) 0 = Some f -> sl_botP f <= sl_topP f <= n_lit 1 300) -> regular m ->
  (forall w, source_place m w x) -> (forall w, single_cut m w x) ->
  tm_depthCorrect fuel'' wd t x = Ok (wd', t', r) ->
  regular (tm_sMod r) -> (forall w, zone_or_lowest (tm_sMod r) w x) ->
  newPhase show w r tid name = Ok ph -> ph_rayParams ph <> [] -> (exists q, In q (tm_rayParams t) /\ ph_max ph <= q) ->
  ~ diffracted name -> ~ head_wave name ->
  (forall z, In z (sm_hiP m) \/ In z (sm_hiS m) -> ~ ph_min ph < dr_rayParam z < ph_max ph) ->
  ph_calcTime fuel3 ph deg = Ok l -> In a l ->
  ar_index a = Z.of_nat k -> nth_error (ph_rayParams ph) k = Some p0 -> nth_error (ph_rayParams ph) (S k) = Some p1 ->
  nth_error (ph_dist ph) k = Some d0 -> nth_error (ph_dist ph) (S k) = Some d1 -> nothing_between r p1 p0 ->
  (forall s b, In s (ph_seq ph) -> leg_branch r s b -> p0 <= tb_maxRP b) ->
  strictly_between d0 d1 (ar_dist a) ->
  exists p T D, p1 < p < p0 /\ exact_ray r p p1 (ph_seq ph) (ar_dist a) T D /\
    - ((p0 - p1) * D) <= ar_time a - T <= (p0 - p1) * (Rmax 0 (d0 - d1) / 4 + D).
Proof.
  intros fuel fuel' fuel'' vm dp Dp dz dx err innerS tol m t x wd wd' t' r show w tid name ph fuel3 deg l a k p0 p1 d0 d1
    Hm HT Ht Hrad Hnf Hfi F0 Rg Sp Sc Hd Rg2 Zl H Hne Hr Nd Nh Hz Hc Ha Hk P0 P1 D0 D1 Hgap Hl Hs.
  destruct (made _ _ _ _ _ _ _ _ _ _ _ _ Hm HT Ht Hrad Hnf Hfi) as [Em [Hlen [Dec [_ [_ [Pos _]]]]]].
  destruct (inside_all fuel fuel' fuel'' vm dp Dp dz dx err innerS tol m t x wd wd' t' r Hm HT Ht Hrad Hnf Hfi F0 Rg Sp Sc Hd Rg2 Zl) as [Er [Fn [St [_ Gd]]]].
  destruct (C57_inside_source fuel fuel' fuel'' vm dp Dp dz dx err innerS tol m t x wd wd' t' r Hm HT Ht Hrad Hnf Hfi F0 Rg Sp Sc Hd Rg2 Zl) as [_ [_ [_ Rdy]]].
  pose proof (C57_greatest fuel fuel' fuel'' vm dp Dp dz dx err innerS tol m t x wd wd' t' r Hm HT Ht Hrad Hnf Hfi F0 Rg Sp Sc Hd Rg2 Zl) as Gr.
  pose proof (corrected_lengths _ _ _ _ _ _ _ Dec Hd Hlen) as Hlen2.
  rewrite <- Er in Hr, Dec, Pos.
  assert (Hz2 : forall z, In z (sm_hiP (tm_sMod r)) \/ In z (sm_hiS (tm_sMod r)) -> ~ ph_min ph < dr_rayParam z < ph_max ph).
  { destruct Fn as [_ [_ [E1 [E2 _]]]]. rewrite ?E1, ?E2. exact Hz. }
  destruct (neighbours show w r tid name ph fuel3 deg l a k p0 p1 d0 d1 H Hne Hlen2 Hr Nd Nh Hz2 Dec Hc Ha Hk P0 P1 D0 D1)
    as [n [t0 [t1 [Q0 [Q1 _]]]]].
  apply (C56_ray_exists show w r tid name ph fuel3 deg l a k p0 p1 d0 d1 H Hne Hlen2 Hr Nd Nh Hz2 Dec Rdy Rg2); try assumption.
  - intros v. apply (St v).
  - apply Pos. eapply nth_error_In. exact Q1.
  - intros s b Is Lb. split; [exact (Hl s b Is Lb)|].
    assert (Q : exists v, In b (TauSpec.branches r v)).
    { unfold leg_branch in Lb. apply at_index_pos in Lb. apply nth_error_In in Lb. destruct (sg_isP s); [exists true|exists false]; exact Lb. }
    destruct Q as [v Hv]. destruct (Gd v b Hv) as [Ew _]. destruct (Gr v b Hv) as [_ F].
    intros i y Hi Hy. rewrite Ew in Hi, Hy. apply F. exists y. split; [eapply nth_error_In; exact Hy|]. left. split; [|reflexivity].
    destruct Hi as [[z [Hz' [A _]]] _]. rewrite Hy in Hz'. injection Hz' as <-. apply Rleb_true in A. exact A.
Qed.
Print Assumptions C58_accuracy.

(** When a query for a distance is answered: exactly if, wherever the sampled curve passes this distance, the two samples have
    different distances and the interpolated ray parameter has angles of departure and arrival. *)
Theorem C58_answered_iff :
  forall (ph : phase R) deg,
  contiguous (vm_layers (sm_vMod (tm_sMod (ph_tMod ph)))) -> VelSpec.thick (vm_layers (sm_vMod (tm_sMod (ph_tMod ph)))) ->
  0 <= ph_sourceDepth ph < tm_radius (ph_tMod ph) -> ~ is_kmps (ph_name ph) ->
  List.length (ph_time ph) = List.length (ph_dist ph) -> List.length (ph_rayParams ph) = List.length (ph_dist ph) ->
  (forall x, In x (ph_dist ph) -> x <= ph_maxDist ph) ->
  ((exists fuel l, ph_calcTime fuel ph deg = Ok l) <->
   forall i s d0 d1 p0 p1, 0 <= s -> cos s = cos (rad deg) -> TimeSpec.passes (ph_dist ph) (ph_rayParams ph) i s ->
     nth_error (ph_dist ph) i = Some d0 -> nth_error (ph_dist ph) (S i) = Some d1 ->
     nth_error (ph_rayParams ph) i = Some p0 -> nth_error (ph_rayParams ph) (S i) = Some p1 ->
     exists p takeoff incident, on_line d0 p0 d1 p1 s p /\ angles_of ph p takeoff incident).
Proof.
  intros ph deg Hc Ht Hr Hk L1 L2 Hmax. split.
  - intros [fuel [l H]] i s d0 d1 p0 p1 Hs Hcos Hp D0 D1 P0 P1.
    assert (Hs' : 0 <= s <= ph_maxDist ph).
    { split; [exact Hs|]. destruct Hp as [e0 [e1 [q0 [q1 [E0 [E1 [_ [_ [B _]]]]]]]]]. apply nth_error_In in E0, E1. apply Hmax in E0, E1.
      destruct B as [B|B]; lra. }
    destruct (calcTime_complete fuel ph deg l i s H Hs' Hcos Hp) as [a [Ha [Ed Ei]]].
    destruct (C08_interpolation fuel ph deg l a H Ha) as [j [e0 [e1 [u0 [u1 [q0 [q1 [Ej [E0 [E1 [_ [_ [Q0 [Q1 [_ [Lp _]]]]]]]]]]]]]]]].
    assert (j = i) by lia. subst j. exists (ar_rayParam a), (ar_takeoff a), (ar_incident a). split; [|exact (C37_snell fuel ph deg l a Hc Ht Hr Hk H Ha)].
    assert (e0 = d0) by congruence. assert (e1 = d1) by congruence. assert (q0 = p0) by congruence. assert (q1 = p1) by congruence. congruence.
  - intros G. destruct (calcTime_ok ph L2 deg) as [f0 Hf]; [|exists f0; apply Hf; lia].
    intros i s Hs Hcos Hp. apply interp_exists_on; [exact Hp| |exact L1|].
    + destruct Hp as [d0 [d1 [p0 [p1 [D0 [D1 [P0 [P1 Hp]]]]]]]].
      destruct (G i s d0 d1 p0 p1 Hs Hcos) as [p [tk [ic [[Hne _] _]]]]; try assumption; [exists d0, d1, p0, p1; tauto|]. congruence.
    + intros d0 d1 p0 p1 p D0 D1 P0 P1 [Hd L] _. destruct (G i s d0 d1 p0 p1 Hs Hcos Hp D0 D1 P0 P1) as [q [tk [ic [[_ L'] A]]]].
      exists tk, ic. apply angles_iff; try assumption. replace p with q; [exact A|].
      apply Rplus_eq_reg_l with (- p0). apply Rmult_eq_reg_r with (d1 - d0); [|lra].
      replace (- p0 + q) with (q - p0) by ring. replace (- p0 + p) with (p - p0) by ring. congruence.
Qed.
Print Assumptions C58_answered_iff.

(** ** Hypotheses met *)
(** the ball of constant velocity in two layers with a source halfway down the upper layer (InsideRun.v), phase p *)
Section Ball.
  Variables e tA xA tB xB tC xC tD xD : R.
  Let r := in_r e tA xA tB xB tC xC tD xD.
  Hypothesis LC : forall w, layerTimeDist (in_sm e) 3371 0 w = Ok (mkTD 3371 tC xC 0).
  Hypothesis LD : forall w, layerTimeDist (in_sm e) 0 0 w = Ok (mkTD 0 tD xD 0).

  Lemma in_dists : xD = 0 /\ 0 < xC < PI / 2.
  Proof.
    pose proof PI_RGT_0 as HP.
    assert (K : forall q td, 0 <= q <= 3371 -> layerTimeDist (in_sm e) q 0 true = Ok td ->
      exists it ib, 0 <= it /\ it <= ib /\ ib <= PI / 2 /\ 6371 * sin it = q /\ 4871 * sin ib = q /\ td_dist td = ib - it).
    { intros q td Hq E. destruct (C19_straight_ray (in_sm e) 0 true (mkSL 16 6371 0 4871 1500) q (proj1 (in_layer e true))) as [A _].
      - split; cbn; lra.
      - cbn. lra.
      - cbn. replace ((6371 - 0) / 6371 - (6371 - 1500) / 4871) with 0 by field. rewrite Rabs_R0. lra.
      - cbn. lra.
      - destruct A as [td' [E' [_ [_ [_ [_ [Ch _]]]]]]]; [cbn; lra|]. assert (td' = td) by congruence. subst td'.
        destruct Ch as [it [ib [H1 [H2 [H3 [H4 [H5 H6]]]]]]]. cbn in H4, H5. exists it, ib. repeat split; try assumption; lra. }
    split.
    - destruct (K 0 _ ltac:(lra) (LD true)) as [it [ib [H1 [H2 [H3 [H4 [H5 H6]]]]]]]. cbn in H6.
      assert (ib <= 0); [|lra]. destruct (Rle_or_lt ib 0) as [|Hi]; [assumption|]. assert (0 < sin ib) by (apply sin_gt_0; lra). lra.
    - destruct (K 3371 _ ltac:(lra) (LC true)) as [it [ib [H1 [H2 [H3 [H4 [H5 H6]]]]]]]. cbn in H6.
      assert (0 < it). { destruct H1 as [|H1]; [assumption|]. rewrite <- H1, sin_0 in H4. lra. }
      assert (it <> ib) by (intros ->; lra). lra.
  Qed.
  Lemma in_phase : exists ph, newPhase x_show [] r 0 "p" = Ok ph /\ ph_rayParams ph = [6371; 3371; 0] /\ ph_dist ph = [0; xC; 0] /\
    List.length (ph_time ph) = 3%nat /\ ph_seq ph = [mkSeg 0 false true REFLECTTOP] /\ ph_max ph = 4871 /\ ph_legs ph = ["p"; "END"] /\
    ph_maxDist ph = xC /\ ph_tMod ph = r /\ ph_sourceDepth ph = 1500 /\ ph_name ph = "p".
  Proof.
    destruct in_dists as [E0 E1].
    eassert (Hp : newPhase x_show [] (in_r e tA xA tB xB tC xC tD xD) 0 "p" = Ok _) by run.
    match type of Hp with _ = Ok ?p => set (ph := p) in * end. exists ph. split; [exact Hp|]. split; [reflexivity|].
    split; [cbn; rewrite E0; repeat f_equal; ring|]. do 4 (split; [reflexivity|]).
    split; [|repeat split; reflexivity].
    cbn. rewrite E0. rewrite (proj2 (Rltb_true 0 (0 + 1 * xC))) by lra. rewrite (proj2 (Rltb_false (0 + 1 * xC) (0 + 1 * 0))) by lra. ring.
  Qed.
  Lemma two_vlayers : contiguous (vm_layers two_vm) /\ VelSpec.thick (vm_layers two_vm).
  Proof.
    split.
    - intros i x y [Hi Hx] [_ Hy]. destruct (Z.eq_dec i 0) as [->|Hn].
      + injection Hx as <-. injection Hy as <-. apply Reqb_true. reflexivity.
      + exfalso. assert (Hlen : (Z.to_nat (i + 1) < List.length (vm_layers two_vm))%nat) by (apply nth_error_Some; congruence).
        cbn [vm_layers two_vm List.length] in Hlen. lia.
    - intros x [<-|[<-|[]]]; apply Rltb_true; cbn; lra.
  Qed.
  Lemma two_speed : speed two_vm false "p" 1500 1 /\ speed two_vm true "p" 0 1.
  Proof.
    split; exists (mkVLayer 0 0 3000 1 1 1 1 1 1), 1, 1; (split; [left; reflexivity|]; split; [cbn; lra|];
      split; [apply (letter_values_iff "p" false true _ _ _ le_p); split; reflexivity|]; unfold line; cbn; field).
  Qed.
  Lemma in_answer : forall ph s, newPhase x_show [] r 0 "p" = Ok ph -> 0 < s <= xC ->
    ((exists fuel l, ph_calcTime fuel ph (s * 180 / PI) = Ok l) <-> xC <= 2 * s).
  Proof.
    intros ph s Hph Hs. pose proof PI_RGT_0 as HP. destruct in_dists as [E0 E1]. destruct two_vlayers as [Hc Ht]. destruct two_speed as [S1 S2].
    destruct in_phase as [ph' [Hp [Er [Ed [El [Es [Em [Eg [Ex [Et [Ez En]]]]]]]]]]]. assert (ph' = ph) by congruence. subst ph'.
    assert (Hrad : rad (s * 180 / PI) = s) by (unfold rad; field; lra).
    rewrite C58_answered_iff; rewrite ?Et, ?Ez, ?En, ?Er, ?Ed, ?Ex, ?El; cbn [List.length tm_radius tm_sMod sm_vMod in_r r in_sm];
      try assumption; try reflexivity; try lra.
    2:{ intros Hk. apply is_kmps_iff in Hk. discriminate. }
    2:{ intros x [<-|[<-|[<-|[]]]]; lra. }
    rewrite Hrad. split.
    - intros G. destruct (Req_dec s xC) as [->|Hsx]; [lra|]. destruct (G 0%nat s 0 xC 6371 3371) as [p [tk [ic [[_ L] A]]]]; try reflexivity; try lra.
      { exists 0, xC, 6371, 3371. do 4 (split; [reflexivity|]). split; [left; lra|]. split; intros; lra. }
      destruct A as [c [rest [f [la [_ [_ [_ [_ [_ [v [_ [En' [Es' [Hv [[_ Sn] _]]]]]]]]]]]]]]].
      rewrite En in En'. injection En' as <- <-. rewrite Es in Es'. injection Es' as <- _. rewrite Et, Ez in *. cbn [sg_down] in *.
      cbn [tm_radius tm_sMod sm_vMod in_r r in_sm] in *. apply speed_above_iff in Hv, S1; try assumption. assert (v = 1) by congruence. subst v.
      pose proof (SIN_bound (rad tk)) as B. nra.
    - intros Hx i s' d0 d1 p0 p1 Hs0 Hcos Hp' D0 D1 P0 P1.
      assert (s' = s).
      { assert (B : s' <= xC).
        { destruct Hp' as [e0 [e1 [q0 [q1 [Q0 [Q1 [_ [_ [B _]]]]]]]]].
          destruct i as [|[|[|i]]]; cbn in Q0, Q1; try discriminate; try (destruct i; discriminate); injection Q0 as <-; injection Q1 as <-; destruct B; lra. }
        destruct (Rtotal_order s' s) as [Q|[Q|Q]]; [|exact Q|]; exfalso.
        - assert (cos s < cos s') by (apply cos_decreasing_1; lra). lra.
        - assert (cos s' < cos s) by (apply cos_decreasing_1; lra). lra. }
      subst s'. assert (Q : exists p, on_line d0 p0 d1 p1 s p /\ 0 <= p <= 4871).
      { destruct i as [|[|[|i]]]; cbn in D0, D1, P0, P1; try discriminate; try (destruct i; discriminate);
          injection D0 as <-; injection D1 as <-; injection P0 as <-; injection P1 as <-.
        - assert (B : 0 < s * / xC <= 1 /\ 1 <= 2 * (s * / xC)).
          { assert (0 < / xC) by (apply Rinv_0_lt_compat; lra). assert (xC * / xC = 1) by (apply Rinv_r; lra). nra. }
          exists (6371 - 3000 * (s * / xC)). split; [|lra]. split; [lra|]. field. lra.
        - assert (B : 0 < s * / xC <= 1).
          { assert (0 < / xC) by (apply Rinv_0_lt_compat; lra). assert (xC * / xC = 1) by (apply Rinv_r; lra). nra. }
          exists (3371 * (s * / xC)). split; [|lra]. split; [lra|]. field. lra. }
      destruct Q as [p [L Hb]]. destruct (snell_exists (-1) p 4871 ltac:(lra)) as [tk Htk].
      { apply Rabs_le; lra. }
      destruct (snell_exists 1 p 6371 ltac:(lra)) as [ic Hic].
      { apply Rabs_le; lra. }
      exists p, tk, ic. split; [exact L|].
      exists "p"%char, "", (mkSeg 0 false true REFLECTTOP), [], [], "p", "END", "p"%char, "", 1, 1.
      rewrite Et, Ez, En, Es, Eg. cbn [sg_down tm_radius tm_sMod sm_vMod in_r r in_sm]. replace (6371 - 1500) with 4871 by ring.
      repeat (split; [first [reflexivity|assumption]|]). exact Hic.
  Qed.
End Ball.

(** The phase p in this ball: a query for a distance nearer to the source than half the distance of the ray of the second sample fails,
    and from there on it is answered. *)
Example C58_answered_ex : exists e tA xA tB xB tC xC tD xD ph, 0 < xC < PI / 2 /\
  newPhase x_show [] (in_r e tA xA tB xB tC xC tD xD) 0 "p" = Ok ph /\
  forall s, 0 < s <= xC -> ((exists fuel l, ph_calcTime fuel ph (s * 180 / PI) = Ok l) <-> xC <= 2 * s).
Proof.
  destruct C57_ex as [e [tA [xA [tB [xB [tC [xC [tD [xD [_ [_ [_ [_ [_ [_ [_ [_ [_ [_ [_ [_ [_ [_ [_ [_ [LC LD]]]]]]]]]]]]]]]]]]]]]]]]]].
  exists e, tA, xA, tB, xB, tC, xC, tD, xD. destruct (in_phase e tA xA tB xB tC xC tD xD LC LD) as [ph [Hp _]]. exists ph.
  split; [exact (proj2 (in_dists e tC xC tD xD LC LD))|]. split; [exact Hp|]. intros s Hs. exact (in_answer e tA xA tB xB tC xC tD xD LC LD ph s Hp Hs).
Qed.

(** So phases of constructed models do not answer all queries. *)
Theorem C58_all_answered_refuted : ~ (forall fuel fuel' fuel'' vm dp Dp dz dx err innerS tol (m : smodel R) t x wd wd' t' r show w tid name ph,
  newSlownessModel fuel vm dp Dp dz dx err innerS tol = Ok m -> newTauModel fuel' m = Ok t ->
  VelSpec.thick (vm_layers vm) -> vm_radius vm = 6371 -> no_flat vm innerS -> fluid_above_inner_core vm innerS -> regular m ->
  (forall w, source_place m w x) -> (forall w, single_cut m w x) ->
  tm_depthCorrect fuel'' wd t x = Ok (wd', t', r) -> newPhase show w r tid name = Ok ph ->
  forall deg, 0 <= deg <= 180 -> exists fuel l, ph_calcTime fuel ph deg = Ok l).
Proof.
  intros G. pose proof PI_RGT_0 as HP.
  destruct C57_ex as [e [tA [xA [tB [xB [tC [xC [tD [xD [H1 [H2 [H3 [H4 [H5 [H6 [_ [H8 [H9 [H10 [H11 [_ [_ [_ [_ [_ [LC LD]]]]]]]]]]]]]]]]]]]]]]]]]].
  destruct (in_phase e tA xA tB xB tC xC tD xD LC LD) as [ph [Hp _]]. pose proof (proj2 (in_dists e tC xC tD xD LC LD)) as Hx.
  assert (Hd : 0 <= xC / 4 * 180 / PI <= 180).
  { split; [apply Rlt_le, Rdiv_lt_0_compat; lra|]. apply Rmult_le_reg_r with PI; [lra|].
    replace (xC / 4 * 180 / PI * PI) with (xC / 4 * 180) by (field; lra). lra. }
  specialize (G _ _ _ _ _ _ _ _ _ _ _ _ _ _ _ _ _ _ _ _ _ _ ph H1 H2 H3 H4 H5 H6 H8 H9 H10 H11 Hp _ Hd).
  apply (in_answer e tA xA tB xB tC xC tD xD LC LD ph (xC / 4) Hp) in G; lra.
Qed.
Print Assumptions C58_all_answered_refuted.

(** an arrival of p at half the distance of the second sample, between the second and the third *)
Example C58_ex : exists e tA xA tB xB tC xC tD xD,
  let m := two_sm e two_c' in let t := two_t e tA xA tB xB in let r := in_r e tA xA tB xB tC xC tD xD in
  newSlownessModel 20 two_vm 1 7000 7000 10 e true 1 = Ok m /\ newTauModel 20 m = Ok t /\
  tm_depthCorrect 20 [] t 1500 = Ok ([1500], t, r) /\
  exists ph fuel l a p T D, newPhase x_show [] r 0 "p" = Ok ph /\ ph_calcTime fuel ph (xC / 2 * 180 / PI) = Ok l /\ In a l /\
    ar_dist a = xC / 2 /\ 0 < xC /\ 0 < p < 3371 /\ exact_ray r p 0 (ph_seq ph) (xC / 2) T D /\
    - (3371 * D) <= ar_time a - T <= 3371 * (xC / 4 + D).
Proof.
  pose proof PI_RGT_0 as HP.
  destruct C57_ex as [e [tA [xA [tB [xB [tC [xC [tD [xD [H1 [H2 [H3 [H4 [H5 [H6 [H7 [H8 [H9 [H10 [H11 [H12 [H13 [_ [_ [_ [LC LD]]]]]]]]]]]]]]]]]]]]]]]]]].
  exists e, tA, xA, tB, xB, tC, xC, tD, xD. cbv zeta. split; [exact H1|]. split; [exact H2|]. split; [exact H11|].
  destruct (in_phase e tA xA tB xB tC xC tD xD LC LD) as [ph [Hp [Er [Ed [El [Es [Em [Eg [Ex [Et [Ez En]]]]]]]]]]].
  pose proof (proj2 (in_dists e tC xC tD xD LC LD)) as Hx. exists ph.
  destruct (proj2 (in_answer e tA xA tB xB tC xC tD xD LC LD ph (xC / 2) Hp ltac:(lra)) ltac:(lra)) as [fuel [l Hl]]. exists fuel, l.
  assert (Hrad : rad (xC / 2 * 180 / PI) = xC / 2) by (unfold rad; field; lra).
  destruct (calcTime_complete fuel ph _ l 1 (xC / 2) Hl) as [a [Ha [Ea Ei]]].
  { rewrite Ex. lra. } { rewrite Hrad. reflexivity. }
  { rewrite Ed, Er. exists xC, 0, 3371, 0. do 4 (split; [reflexivity|]). split; [right; lra|]. split; intros; lra. }
  exists a.
  assert (Nn : ph_rayParams ph <> []) by (rewrite Er; discriminate).
  destruct (C58_accuracy _ _ _ _ _ _ _ _ _ _ _ _ _ _ _ _ _ _ _ _ _ _ ph fuel (xC / 2 * 180 / PI) l a 1 3371 0 xC 0 H1 H2 H3 H4 H5 H6 H7 H8 H9 H10 H11 H12 H13 Hp Nn) as [p [T [D [Q1 [Q2 Q3]]]]]; try assumption.
  - exists 6371. split; [left; reflexivity|]. rewrite Em. lra.
  - intros [X|X]; not_in X.
  - intros [X|X]; not_in X.
  - intros z [[]|[]].
  - rewrite Er. reflexivity.
  - rewrite Er. reflexivity.
  - rewrite Ed. reflexivity.
  - rewrite Ed. reflexivity.
  - split.
    + intros w y Hy. cbn [tm_sMod in_r] in Hy. destruct w; destruct Hy as [<-|[<-|[<-|[]]]]; cbn; lra.
    + intros b [Hb|Hb]; destruct Hb as [<-|[<-|[]]]; cbn; lra.
  - intros s b Hs Hb. rewrite Es in Hs. destruct Hs as [<-|[]]. unfold leg_branch in Hb. cbn [sg_isP sg_branch] in Hb.
    apply (at_index_nat _ 0%nat) in Hb. injection Hb as <-. cbn. lra.
  - rewrite Ea. right. lra.
  - exists p, T, D. rewrite Ea in Q2. rewrite Rmax_right in Q3 by lra. rewrite !Rminus_0_r in Q3.
    split; [exact Hp|]. split; [exact Hl|]. split; [exact Ha|]. split; [exact Ea|]. split; [lra|]. split; [exact Q1|]. split; [exact Q2|exact Q3].
Qed.

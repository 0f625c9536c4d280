(** Properties C33 and C34: the curve of a phase (ray parameter, distance, time) is the sum over its
    legs; diffracted and head waves. *)
From Coq Require Import ZArith Bool List String Ascii Reals Lia Lra Sorted.
From Verif Require Import Base Num PyStr VelocityModel SlownessLayer SlownessModel TauModel Legs SeismicPhase
  TauSpec CurveSpec CurveProofs CurveMainProofs SlowRealProofs RealRun.
Import ListNotations.
Local Open Scope string_scope.
Local Open Scope list_scope.
Local Open Scope R_scope.

(** ** C33 *)

(** The curve before the shadow zones has one point for each ray parameter sample between the last
    one not below the phase's maximum and the last one not below its minimum, or a repeated point if
    that is a single sample.  Distance and time are the sums over the legs of what the branches store
    for that sample.  High slowness zones then add points as [shadow] says. *)
Theorem C33_sum_of_legs : forall show w t tid name ph,
  newPhase show w t tid name = Ok ph -> ph_rayParams ph <> [] ->
  List.length (tm_S t) = List.length (tm_P t) ->
  (exists r, In r (tm_rayParams t) /\ ph_max ph <= r) ->
  ~ diffracted name -> ~ head_wave name ->
  exists lo hi base c1 o1 o2,
    last_sample (tm_rayParams t) (ph_max ph) lo /\ last_sample (tm_rayParams t) (ph_min ph) hi /\
    0 <= ph_max ph /\ ph_min ph <= ph_max ph /\
    (((lo < hi)%Z /\ sampled_curve t (ph_seq ph) lo hi base) \/
     (lo = hi /\ single_curve t (ph_seq ph) lo (ph_min ph) base)) /\
    shadows t (ph_seq ph) lo (ph_min ph) (ph_max ph) true (sm_hiP (tm_sMod t)) base 0 c1 o1 /\
    shadows t (ph_seq ph) lo (ph_min ph) (ph_max ph) false (sm_hiS (tm_sMod t)) c1 0 (curve_of ph) o2 /\
    List.length (ph_dist ph) = List.length (ph_rayParams ph) /\
    List.length (ph_time ph) = List.length (ph_rayParams ph).
Proof. intros show w t tid name ph H Hne Hlen Hr. exact (curve_main show w t tid name ph H Hne Hlen Hr). Qed.

(** Without a high slowness zone in the range of ray parameters, the curve is exactly those sums. *)
Theorem C33_sum_of_legs_no_zone : forall show w t tid name ph,
  newPhase show w t tid name = Ok ph -> ph_rayParams ph <> [] ->
  List.length (tm_S t) = List.length (tm_P t) ->
  (exists r, In r (tm_rayParams t) /\ ph_max ph <= r) ->
  ~ diffracted name -> ~ head_wave name ->
  (forall z, In z (sm_hiP (tm_sMod t)) \/ In z (sm_hiS (tm_sMod t)) -> ~ ph_min ph < dr_rayParam z < ph_max ph) ->
  exists lo hi,
    last_sample (tm_rayParams t) (ph_max ph) lo /\ last_sample (tm_rayParams t) (ph_min ph) hi /\
    (((lo < hi)%Z /\ sampled_curve t (ph_seq ph) lo hi (curve_of ph)) \/
     (lo = hi /\ single_curve t (ph_seq ph) lo (ph_min ph) (curve_of ph))).
Proof.
  intros show w t tid name ph H Hne Hlen Hr Nd Nh Hz.
  destruct (curve_main show w t tid name ph H Hne Hlen Hr Nd Nh) as [lo [hi [base [c1 [o1 [o2 [A [B [_ [_ [C [S1 [S2 _]]]]]]]]]]]]].
  apply no_zones in S1; [|intros z Hin; apply Hz; left; assumption]. destruct S1 as [-> _].
  apply no_zones in S2; [|intros z Hin; apply Hz; right; assumption]. destruct S2 as [-> _]. eauto 10.
Qed.

(** Every point of the curve is either the sum over all legs for its own sample or, for a high slowness
    zone, the sum over the legs above the zone for the sample at the zone's ray parameter; this if the
    zones in the range belong to one wave type. *)
Theorem C33_zone_points : forall show w t tid name ph,
  newPhase show w t tid name = Ok ph -> ph_rayParams ph <> [] ->
  List.length (tm_S t) = List.length (tm_P t) ->
  (exists r, In r (tm_rayParams t) /\ ph_max ph <= r) ->
  ~ diffracted name -> ~ head_wave name ->
  decreasing (tm_rayParams t) -> ph_min ph < ph_max ph ->
  forall isP : bool,
  let zs := if isP then sm_hiP (tm_sMod t) else sm_hiS (tm_sMod t) in
  let others := if isP then sm_hiS (tm_sMod t) else sm_hiP (tm_sMod t) in
  zones_fall zs -> (forall z, In z others -> ~ ph_min ph < dr_rayParam z < ph_max ph) ->
  forall p d tm, In (p, d, tm) (curve_of ph) ->
    (exists i, (p = ph_min ph \/ at_index (tm_rayParams t) i p) /\
       legs_total t tb_dist i (ph_seq ph) d /\ legs_total t tb_time i (ph_seq ph) tm) \/
    inserted t (ph_seq ph) (ph_min ph) (ph_max ph) zs 0 (p, d, tm).
Proof.
  intros show w t tid name ph H Hne Hlen Hr Nd Nh Dec _ isP zs others Hz Ho p d tm Hin.
  destruct (curve_main show w t tid name ph H Hne Hlen Hr Nd Nh) as [lo [hi [base [c1 [o1 [o2 [A [B [_ [_ [C [S1 [S2 _]]]]]]]]]]]]].
  assert (Sh : exists o, shadows t (ph_seq ph) lo (ph_min ph) (ph_max ph) isP zs base 0 (curve_of ph) o).
  { destruct isP; subst zs others; cbv iota in *.
    - apply no_zones in S2; [|assumption]. destruct S2 as [E _]. rewrite E. eauto.
    - apply no_zones in S1; [|assumption]. destruct S1 as [-> _]. eauto. }
  destruct Sh as [o Sh]. clear S1 S2.
  destruct C as [[L C]|[L C]].
  - destruct (shadows_pass t (ph_seq ph) lo (ph_min ph) (ph_max ph) isP zs base 0 (curve_of ph) o 0
               (1 + fold_right Rmax 0 (map (fun z => dr_rayParam z) zs)) Sh) as [_ [_ I]].
    + eapply sampled_falling; [exact Dec| |exact C]. destruct A as [A _]. exact A.
    + eapply sampled_offset. exact C.
    + clear. induction zs as [|y l IH]; intros z [].
      * subst. cbn. assert (X := Rmax_l (dr_rayParam z) (fold_right Rmax 0 (map (fun z => dr_rayParam z) l))). lra.
      * specialize (IH z H). cbn. assert (X := Rmax_r (dr_rayParam y) (fold_right Rmax 0 (map (fun z => dr_rayParam z) l))). lra.
    + exact Hz.
    + destruct (I _ Hin) as [Hb|Hi]; [left|right; exact Hi].
      apply In_nth_error in Hb. destruct Hb as [k Hk]. destruct C as [_ C]. destruct (C _ _ _ _ Hk) as [C1 [C2 C3]].
      exists (lo + Z.of_nat k)%Z. auto.
  - left. destruct C as [d0 [t0 [Eb [C2 C3]]]]. apply single_zones in Sh.
    + destruct Sh as [Sh _]. rewrite Sh, Eb in Hin. exists lo.
      destruct Hin as [E|[E|[]]]; injection E as <- <- <-; auto.
    + intros q e u Hq. rewrite Eb in Hq. destruct Hq as [E|[E|[]]]; injection E as <- <- <-; reflexivity.
Qed.

(** With zones of both wave types the points of the second type are made from the wrong samples: those
    [n] samples later, where [n] is the number of points that the first type has inserted. *)
Theorem C33_second_wave_type_refuted : forall show w t tid name ph zP zS,
  newPhase show w t tid name = Ok ph -> ph_rayParams ph <> [] ->
  List.length (tm_S t) = List.length (tm_P t) ->
  (exists r, In r (tm_rayParams t) /\ ph_max ph <= r) ->
  ~ diffracted name -> ~ head_wave name -> decreasing (tm_rayParams t) ->
  sm_hiP (tm_sMod t) = [zP] -> sm_hiS (tm_sMod t) = [zS] ->
  ph_min ph < dr_rayParam zS < dr_rayParam zP -> dr_rayParam zP < ph_max ph ->
  (exists n, findBranch t (dr_top zP) = Ok n /\ goes_down_into (ph_seq ph) n true) ->
  (exists n, findBranch t (dr_top zS) = Ok n /\ goes_down_into (ph_seq ph) n false) ->
  exists l1 d tm l2 d' tm' i,
    curve_of ph = l1 ++ (dr_rayParam zS, d', tm') :: (dr_rayParam zS, d, tm) :: l2 /\
    at_index (tm_rayParams t) i (dr_rayParam zS) /\
    legs_total t tb_dist i (ph_seq ph) d /\ legs_total t tb_time i (ph_seq ph) tm /\
    legs_above t tb_dist (dr_top zS) (i + 1) (ph_seq ph) d' /\
    legs_above t tb_time (dr_top zS) (i + 1) (ph_seq ph) tm'.
Proof.
  intros show w t tid name ph zP zS H Hne Hlen Hr Nd Nh Dec EP ES RS RP CP CS.
  destruct (curve_main show w t tid name ph H Hne Hlen Hr Nd Nh) as [lo [hi [base [c1 [o1 [o2 [A [B [_ [_ [C [S1 [S2 _]]]]]]]]]]]]].
  rewrite EP in S1. rewrite ES in S2. inversion S1 as [|z zs c off ca offa cb offb S1a S1b]; subst. inversion S1b; subst. clear S1 S1b.
  inversion S2 as [|z zs c off ca offa cb offb S2a S2b]; subst. inversion S2b; subst. clear S2 S2b.
  destruct S1a as [[_ [_ X]]|S1a]; [exfalso; apply X; split; [lra|exact CP]|].
  destruct S2a as [[_ [_ X]]|S2a]; [exfalso; apply X; split; [lra|exact CS]|].
  destruct C as [[L C]|[_ [d0 [t0 [Eb _]]]]].
  2:{ exfalso. destruct S1a as [_ [_ [l1 [d [tm [l2 [d' [tm' [E _]]]]]]]]]. rewrite Eb in E.
      assert (X : In (dr_rayParam zP, d, tm) [(ph_min ph, d0, t0); (ph_min ph, d0, t0)]) by (rewrite E; apply in_app_iff; right; left; reflexivity).
      destruct X as [X|[X|[]]]; injection X as X _ _; lra. }
  destruct S1a as [RgP [_ [l1 [d [tm [l2 [d' [tm' [E1 [N1 [E2 [A1 [A2 ->]]]]]]]]]]]]].
  destruct S2a as [RgS [_ [m1 [e [u [m2 [e' [u' [F1 [M1 [F2 [B1 [B2 ->]]]]]]]]]]]]].
  (* the S zone's point lies behind the pair of the P zone *)
  assert (Fa := sampled_falling _ _ _ _ _ Dec (proj1 A) C).
  assert (Of := sampled_offset _ _ _ _ _ (dr_rayParam zP + 1) C).
  assert (Sh : shadow t (ph_seq ph) lo (ph_min ph) (ph_max ph) true zP base 0 c1 (0 + 1)).
  { right. split; [assumption|]. split; [assumption|]. exists l1, d, tm, l2, d', tm'. auto 10. }
  destruct (shadow_pass _ _ _ _ _ _ _ _ _ _ _ _ _ Sh Fa Of ltac:(lra)) as [_ [Of1 Or]].
  assert (Ix := Of1 m1 (dr_rayParam zS) e u m2 F1 M1 ltac:(lra)).
  replace (0 + (0 + 1) - 0)%Z with 1%Z in Ix by lia.
  assert (Hb : In (dr_rayParam zS, e, u) base).
  { assert (X : In (dr_rayParam zS, e, u) c1) by (rewrite F1; apply in_app_iff; right; left; reflexivity).
    destruct (Or _ X) as [|[z [i [x1 [x2 [[<-|[]] [_ [_ [X1 _]]]]]]]]]; [assumption|]. injection X1 as X1 _ _. lra. }
  exists m1, e, u, m2, e', u', (lo + Z.of_nat (List.length m1) - 1)%Z.
  split; [exact F2|]. split; [exact Ix|].
  apply In_nth_error in Hb. destruct Hb as [k Hk]. destruct C as [_ C]. destruct (C _ _ _ _ Hk) as [C1 [C2 C3]].
  assert (Ei : (lo + Z.of_nat (List.length m1) - 1 = lo + Z.of_nat k)%Z).
  { assert (Lm : (List.length l1 < List.length m1)%nat).
    { destruct (le_lt_dec (List.length m1) (List.length l1)) as [Q|Q]; [exfalso|assumption].
      destruct (Nat.eq_dec (List.length m1) (List.length l1)) as [Q1|Q1].
      - assert (X : nth_error c1 (List.length m1) = Some (dr_rayParam zS, e, u)) by (rewrite F1, nth_error_app2, Nat.sub_diag by lia; reflexivity).
        rewrite E2, Q1, nth_error_app2, Nat.sub_diag in X by lia. cbn in X. injection X as X _ _. lra.
      - assert (X : nth_error c1 (List.length m1) = Some (dr_rayParam zS, e, u)) by (rewrite F1, nth_error_app2, Nat.sub_diag by lia; reflexivity).
        rewrite E2, nth_error_app1 in X by lia.
        assert (Y : nth_error base (List.length m1) = Some (dr_rayParam zS, e, u)) by (rewrite E1, nth_error_app1 by lia; exact X).
        assert (Z : nth_error base (List.length l1) = Some (dr_rayParam zP, d, tm)) by (rewrite E1, nth_error_app2, Nat.sub_diag by lia; reflexivity).
        assert (W := Fa (List.length m1) (List.length l1) _ _ _ _ _ _ ltac:(lia) Y Z). lra. }
    destruct A as [A0 _].
    destruct (Ztrichotomy (lo + Z.of_nat (List.length m1) - 1) (lo + Z.of_nat k)) as [Q|[Q|Q]]; [exfalso|assumption|exfalso].
    - assert (W := at_index_decreasing _ (lo + Z.of_nat (List.length m1) - 1) (lo + Z.of_nat k) _ _ Dec ltac:(lia) Ix C1). lra.
    - assert (W := at_index_decreasing _ (lo + Z.of_nat k) (lo + Z.of_nat (List.length m1) - 1) _ _ Dec ltac:(lia) C1 Ix). lra. }
  rewrite Ei. replace (lo + Z.of_nat k + 1)%Z with (lo + Z.of_nat (List.length m1) - 0)%Z by lia. auto.
Qed.

Ltac not_in X := match type of X with contains ?x ?n => apply (proj2 (str_in_iff x n)) in X; discriminate X end.
Lemma ex_ordinary : ~ diffracted "PS" /\ ~ head_wave "PS".
Proof. split; (intros [X|X]; not_in X). Qed.
Lemma ex_decreasing : decreasing (tm_rayParams (x_t [] [])).
Proof. repeat constructor; apply Rltb_lt; lra. Qed.

(** hypotheses met: a phase of eight legs and a high slowness zone for P; the point added for it has
    four legs of the uppermost branch *)
Example C33_ex : exists ph, newPhase x_show [] (x_t [mkDR 1 2 3] []) 0 "PS" = Ok ph /\
  ph_rayParams ph = [4; 3; 3; 2; 1] /\ ph_dist ph = [4; 8; 20; 40; 72] /\ ph_time ph = [20; 28; 52; 76; 100] /\
  ph_min ph = 1 /\ ph_max ph = 4 /\ List.length (ph_seq ph) = 12%nat /\
  (exists r, In r (tm_rayParams (x_t [mkDR 1 2 3] [])) /\ ph_max ph <= r) /\
  ~ diffracted "PS" /\ ~ head_wave "PS" /\ decreasing (tm_rayParams (x_t [mkDR 1 2 3] [])) /\
  zones_fall [mkDR 1 2 3] /\
  legs_above (x_t [mkDR 1 2 3] []) tb_dist 1 1 (ph_seq ph) 8.
Proof.
  eexists. split; [run|].
  cbn [ph_dist ph_time ph_rayParams ph_min ph_max ph_seq]. repeat (split; [reflexivity|]).
  split; [exists 4; split; [left; reflexivity|lra]|]. split; [apply ex_ordinary|]. split; [apply ex_ordinary|].
  split; [exact ex_decreasing|]. split.
  - intros [|i] [|[|j]] z z' Hij Hi Hj; try discriminate; lia.
  - replace 8 with (2 + (2 + (2 + (2 + 0)))) by lra.
    repeat first [apply la_nil
      | eapply la_skip; [left; split; [cbn; lia|reflexivity]|cbn; lra|]
      | eapply la_cons; [left; split; [cbn; lia|reflexivity]|cbn; lra|left; split; [lia|reflexivity]|]].
Qed.
(** without a zone *)
Example C33_ex_no_zone : exists ph, newPhase x_show [] (x_t [] []) 0 "PS" = Ok ph /\
  curve_of ph = [(4, 4, 20); (3, 20, 52); (2, 40, 76); (1, 72, 100)].
Proof. eexists. split; [run|]. reflexivity. Qed.
(** Both zones: the fourth point, for the S zone, is made from sample 3 (60); sample 2 is the one at the
    zone's ray parameter (36). *)
Example C33_ex_both : let t := x_t [mkDR 1 2 3] [mkDR 2 3 2] in
  exists ph, newPhase x_show [] t 0 "PS" = Ok ph /\
  curve_of ph = [(4, 4, 20); (3, 8, 28); (3, 20, 52); (2, 60, 84); (2, 40, 76); (1, 72, 100)] /\
  ph_min ph < 2 < 3 /\ 3 < ph_max ph /\
  findBranch t 1 = Ok 1%Z /\ goes_down_into (ph_seq ph) 1 true /\
  findBranch t 2 = Ok 2%Z /\ goes_down_into (ph_seq ph) 2 false /\
  at_index (tm_rayParams t) 2 2 /\ legs_above t tb_dist 2 2 (ph_seq ph) 36 /\
  legs_above t tb_dist 2 3 (ph_seq ph) 60.
Proof.
  intros t. eexists. split; [unfold t; run|].
  split; [reflexivity|]. cbn [ph_seq ph_min ph_max]. split; [lra|]. split; [lra|].
  split; [unfold t; run|]. split.
  { eexists; eexists; split; [left; exists []; eexists; reflexivity|]. cbn. repeat split. }
  split; [unfold t; run|]. split.
  { eexists; eexists; split; [left; exists (firstn 7 (map (fun x => x) (
      [mkSeg 0 true true TURN; mkSeg 1 true true TURN; mkSeg 2 true true TURN; mkSeg 2 false true REFLECTTOP; mkSeg 1 false true REFLECTTOP; mkSeg 0 false true REFLECTTOP; mkSeg 0 true false TURN]))); eexists; reflexivity|]. cbn. repeat split. }
  split; [left; split; [lia|reflexivity]|]. split.
  - replace 36 with (4 + (5 + (5 + (4 + (4 + (5 + (5 + (4 + 0)))))))) by lra.
    repeat first [apply la_nil
      | eapply la_skip; [left; split; [cbn; lia|reflexivity]|cbn; lra|]
      | eapply la_cons; [left; split; [cbn; lia|reflexivity]|cbn; lra|left; split; [lia|reflexivity]|]].
  - replace 60 with (8 + (7 + (7 + (8 + (8 + (7 + (7 + (8 + 0)))))))) by lra.
    repeat first [apply la_nil
      | eapply la_skip; [left; split; [cbn; lia|reflexivity]|cbn; lra|]
      | eapply la_cons; [left; split; [cbn; lia|reflexivity]|cbn; lra|left; split; [lia|reflexivity]|]].
Qed.

(** ** C34 *)

(** The curve of a diffracted phase has two points: the ray that grazes the core, and the same with 60
    degrees along the boundary, on which the time grows by the ray parameter times the angle. *)
Theorem C34_diffracted : forall show w t tid name ph,
  newPhase show w t tid name = Ok ph -> ph_rayParams ph <> [] ->
  List.length (tm_S t) = List.length (tm_P t) ->
  (exists r, In r (tm_rayParams t) /\ ph_max ph <= r) -> diffracted name ->
  let p := ph_max ph in let a := 60 * PI / 180 in
  exists lo d tm,
    ph_min ph = p /\ 0 <= p /\ last_sample (tm_rayParams t) p lo /\
    legs_total t tb_dist lo (ph_seq ph) d /\ legs_total t tb_time lo (ph_seq ph) tm /\
    ph_rayParams ph = [p; p] /\ ph_dist ph = [d; d + a] /\ ph_time ph = [tm; tm + p * a].
Proof.
  intros show w t tid name ph H Hne Hlen Hr Hd p a.
  destruct (special_curve show w t tid name ph H Hne Hlen Hr (or_introl Hd)) as [lo [d [tm [dd [dt [Em [H0 [Hl [Td [Tt [Ec [L1 [L2 [L3 Cs]]]]]]]]]]]]]].
  destruct Cs as [[_ [-> ->]]|[X _]]; [|contradiction].
  exists lo, d, tm. split; [exact Em|]. split; [exact H0|]. split; [exact Hl|]. split; [exact Td|]. split; [exact Tt|].
  unfold curve_of in Ec. rewrite Em in Ec. fold p in Ec. fold a in Ec.
  destruct (ph_dist ph) as [|x1 [|x2 [|? ?]]]; try discriminate L1. destruct (ph_time ph) as [|y1 [|y2 [|? ?]]]; try discriminate L2.
  destruct (ph_rayParams ph) as [|z1 [|z2 [|? ?]]]; try discriminate L3. cbn in Ec. injection Ec as -> -> -> -> -> ->. auto.
Qed.

(** For head waves the same would be expected with 20 degrees along the Moho; the code adds the angle
    itself to the time, whatever the ray parameter. *)
Theorem C34_head_wave_refuted : forall show w t tid name ph,
  newPhase show w t tid name = Ok ph -> ph_rayParams ph <> [] ->
  List.length (tm_S t) = List.length (tm_P t) ->
  (exists r, In r (tm_rayParams t) /\ ph_max ph <= r) -> ~ diffracted name -> head_wave name ->
  let p := ph_max ph in let a := 20 * PI / 180 in
  exists lo d tm,
    ph_min ph = p /\ 0 <= p /\ last_sample (tm_rayParams t) p lo /\
    legs_total t tb_dist lo (ph_seq ph) d /\ legs_total t tb_time lo (ph_seq ph) tm /\
    ph_rayParams ph = [p; p] /\ ph_dist ph = [d; d + a] /\ ph_time ph = [tm; tm + a] /\
    (p <> 1 -> tm + a <> tm + p * a).
Proof.
  intros show w t tid name ph H Hne Hlen Hr Nd Hh p a.
  destruct (special_curve show w t tid name ph H Hne Hlen Hr (or_intror Hh)) as [lo [d [tm [dd [dt [Em [H0 [Hl [Td [Tt [Ec [L1 [L2 [L3 Cs]]]]]]]]]]]]]].
  destruct Cs as [[X _]|[_ [-> ->]]]; [contradiction|].
  exists lo, d, tm. split; [exact Em|]. split; [exact H0|]. split; [exact Hl|]. split; [exact Td|]. split; [exact Tt|].
  unfold curve_of in Ec. rewrite Em in Ec. fold p in Ec. fold a in Ec.
  destruct (ph_dist ph) as [|x1 [|x2 [|? ?]]]; try discriminate L1. destruct (ph_time ph) as [|y1 [|y2 [|? ?]]]; try discriminate L2.
  destruct (ph_rayParams ph) as [|z1 [|z2 [|? ?]]]; try discriminate L3. cbn in Ec. injection Ec as -> -> -> -> -> ->.
  split; [reflexivity|]. split; [reflexivity|]. split; [reflexivity|].
  intros Hp E. assert (Pa : 0 < a) by (unfold a; assert (X := PI_RGT_0); lra). apply Hp. nra.
Qed.

Example C34_ex_diffracted : exists ph, newPhase x_show [] (x_t [] []) 0 "Pdiff" = Ok ph /\
  diffracted "Pdiff" /\ ph_max ph = 1 /\ ph_rayParams ph = [1; 1] /\
  ph_dist ph = [36; 36 + 60 * PI / 180] /\ nth 0 (ph_time ph) 0 = 50.
Proof.
  eexists. split; [run|]. split; [right; exists "", ""; reflexivity|]. repeat (split; [reflexivity|]). reflexivity.
Qed.
Example C34_ex_head : exists ph, newPhase x_show [] (x_t [] []) 0 "Pn" = Ok ph /\
  head_wave "Pn" /\ ~ diffracted "Pn" /\ ph_max ph = 3 /\ ph_rayParams ph = [3; 3] /\
  ph_dist ph = [10; 10 + 20 * PI / 180] /\ ph_time ph = [26; 26 + 20 * PI / 180].
Proof.
  eexists. split; [run|]. split; [left; exists "", ""; reflexivity|].
  split; [intros [X|X]; not_in X|]. repeat (split; [reflexivity|]). reflexivity.
Qed.

Print Assumptions C33_sum_of_legs.
Print Assumptions C33_sum_of_legs_no_zone.
Print Assumptions C33_zone_points.
Print Assumptions C33_second_wave_type_refuted.
Print Assumptions C34_diffracted.
Print Assumptions C34_head_wave_refuted.

(** Proofs about takeoff and incidence angles. *)
From Coq Require Import ZArith Bool List String Ascii Reals Lia Lra.
From Verif Require Import Base Num PyStr VelocityModel SlownessLayer SlownessModel TauModel Legs SeismicPhase
  NameSpec NameProofs VelSpec VelProofs TimeSpec CalcTimeProofs SlowRealProofs AngleSpec.
Import ListNotations.
Local Open Scope R_scope.

Lemma asin_snell : forall x v p r ang, 0 < r -> x = v * p / r ->
  ((exists a, m_asin x = Ok a /\ ang = 180 / PI * a) <-> snell ang v p r).
Proof.
  intros x v p r ang Hr Ex. pose proof PI_pos as HP. unfold snell. cbn [m_asin Libm_R].
  assert (Er : forall a, rad (180 / PI * a) = a) by (intros a; unfold rad; field; lra).
  assert (Eb : forall a, - (PI / 2) <= a <= PI / 2 <-> -90 <= 180 / PI * a <= 90).
  { intros a. assert (0 < 180 / PI) by (apply Rdiv_lt_0_compat; lra).
    assert (E1 : -90 = 180 / PI * - (PI / 2)) by (field; lra). assert (E2 : 90 = 180 / PI * (PI / 2)) by (field; lra).
    rewrite E1. rewrite E2 at 1. split; intros [H1 H2].
    - split; (apply Rmult_le_compat_l; [lra|assumption]).
    - split; (apply Rmult_le_reg_l with (180 / PI); assumption). }
  split.
  - intros [a [Ha Eang]]. subst ang. destruct (Rleb_spec (-1) x) as [H1|H1]; [|discriminate].
    destruct (Rleb_spec x 1) as [H2|H2]; [|discriminate]. cbn [andb] in Ha. injection Ha as <-.
    rewrite Er. split; [apply Eb; apply asin_bound|]. rewrite sin_asin by lra. subst x. field. lra.
  - intros [Hb E]. exists (rad ang).
    assert (Ea : ang = 180 / PI * rad ang) by (unfold rad; field; lra).
    split; [|exact Ea]. rewrite Ea in Hb. apply Eb in Hb.
    assert (Es : sin (rad ang) = x) by (subst x; rewrite <- E; field; lra).
    pose proof (SIN_bound (rad ang)) as Hs. rewrite Es in Hs.
    destruct (Rleb_spec (-1) x); [|lra]. destruct (Rleb_spec x 1); [|lra]. cbn [andb].
    rewrite <- Es, asin_sin by lra. reflexivity.
Qed.

Lemma speed_below_iff : forall (m : vmodel R) wave z v, contiguous (vm_layers m) -> thick (vm_layers m) ->
  (evaluateBelow m z wave = Ok v <-> speed m true wave z v).
Proof.
  intros m wave z v Hc Ht. rewrite evaluateBelow_iff by assumption. unfold speed. split.
  - intros [i [l [tv [bv [[H0 Hl] H]]]]]. exists l, tv, bv. split; [apply nth_error_In in Hl; assumption|exact H].
  - intros [l [tv [bv [Hl H]]]]. apply In_nth_error in Hl. destruct Hl as [i Hi]. exists (Z.of_nat i), l, tv, bv.
    split; [split; [lia|rewrite Nat2Z.id; assumption]|exact H].
Qed.
Lemma speed_above_iff : forall (m : vmodel R) wave z v, contiguous (vm_layers m) -> thick (vm_layers m) ->
  (evaluateAbove m z wave = Ok v <-> speed m false wave z v).
Proof.
  intros m wave z v Hc Ht. rewrite evaluateAbove_iff by assumption. unfold speed. split.
  - intros [i [l [tv [bv [[H0 Hl] H]]]]]. exists l, tv, bv. split; [apply nth_error_In in Hl; assumption|exact H].
  - intros [l [tv [bv [Hl H]]]]. apply In_nth_error in Hl. destruct Hl as [i Hi]. exists (Z.of_nat i), l, tv, bv.
    split; [split; [lia|rewrite Nat2Z.id; assumption]|exact H].
Qed.

Lemma str_get_iff : forall s c, str_get s 0 = Ok c <-> exists r, s = String c r.
Proof.
  intros s c. unfold str_get. destruct s as [|d r]; cbn [String.get].
  - split; [discriminate|]. intros [r E]. discriminate.
  - split; [intros E; injection E as <-; eauto|]. intros [r' E]. injection E as <- <-. reflexivity.
Qed.
Lemma py_first : forall {A} (l : list A) a, py_index l 0 = Ok a <-> exists r, l = a :: r.
Proof.
  intros A l a. destruct l as [|b r]; cbn.
  - split; [discriminate|]. intros [r E]. discriminate.
  - split; [intros E; injection E as <-; eauto|]. intros [r' E]. injection E as <- <-. reflexivity.
Qed.
Lemma py_second_last : forall {A} (l : list A) a, py_index l (-2) = Ok a <-> exists b x, l = (b ++ [a; x])%list.
Proof.
  intros A l a. split.
  - intros H. destruct (exists_last (l := l)) as [l1 [x ->]]; [intros ->; discriminate|].
    destruct (exists_last (l := l1)) as [l2 [y ->]]; [intros ->; discriminate|].
    unfold py_index in H. cbv zeta in H. rewrite !app_length in H. cbn [Datatypes.length] in H.
    destruct (Z.ltb_spec (-2) 0); [|lia].
    match type of H with (if ?b then _ else _) = _ => destruct b eqn:E end; [discriminate|].
    match type of H with context [nth_error _ ?k] => replace k with (List.length l2) in H by lia end.
    rewrite <- app_assoc, nth_error_app2, Nat.sub_diag in H by lia. cbn in H. injection H as <-.
    exists l2, x. rewrite <- app_assoc. reflexivity.
  - intros [b [x ->]]. unfold py_index. cbv zeta. rewrite !app_length. cbn [Datatypes.length].
    destruct (Z.ltb_spec (-2) 0); [|lia].
    match goal with |- (if ?b then _ else _) = _ => destruct b eqn:E end; [apply Z.ltb_lt in E; lia|].
    match goal with |- context [nth_error _ ?k] => replace k with (List.length b) by lia end.
    rewrite nth_error_app2, Nat.sub_diag by lia. reflexivity.
Qed.

(** the part of [linearInterpArrival] that computes the angles *)
Definition angles (ph : phase R) (rp : R) : result (R * R) :=
  if str_endswith "kmps" (ph_name ph) then Ok (n_0, n_0)
  else
    let vMod := sm_vMod (tm_sMod (ph_tMod ph)) in
    bind (str_get (ph_name ph) 0) (fun c =>
    bind (py_index (ph_seq ph) 0) (fun first =>
    bind (if sg_down first then evaluateBelow vMod (ph_sourceDepth ph) (str1 c)
          else bind (evaluateAbove vMod (ph_sourceDepth ph) (str1 c)) (fun v => Ok (n_mul (n_int (-1)) v))) (fun v =>
    bind (py_div (n_int 180) m_pi) (fun k =>
    bind (py_div (n_mul v rp) (n_sub (tm_radius (ph_tMod ph)) (ph_sourceDepth ph))) (fun x =>
    bind (m_asin x) (fun a =>
    bind (py_index (ph_legs ph) (-2)) (fun leg =>
    bind (str_get leg 0) (fun lc =>
    bind (evaluateBelow vMod n_0 (str1 lc)) (fun v =>
    bind (py_div (n_mul v rp) (tm_radius (ph_tMod ph))) (fun y =>
    bind (m_asin y) (fun b => Ok (n_mul k a, n_mul k b)))))))))))).

Lemma interp_split : forall (ph : phase R) s i, linearInterpArrival ph s i =
  bind (py_index (ph_dist ph) i) (fun d0 => bind (py_index (ph_dist ph) (i + 1)) (fun d1 =>
  bind (py_index (ph_time ph) i) (fun t0 => bind (py_index (ph_time ph) (i + 1)) (fun t1 =>
  bind (py_index (ph_rayParams ph) i) (fun p0 => bind (py_index (ph_rayParams ph) (i + 1)) (fun p1 =>
  bind (py_div (n_sub s d0) (n_sub d1 d0)) (fun ratio =>
  bind (py_div (n_mul (n_sub s d1) (n_sub p0 p1)) (n_sub d0 d1)) (fun q =>
  bind (angles ph (n_add q p1)) (fun ab =>
    Ok (mkArr (n_add (n_mul ratio (n_sub t1 t0)) t0) s (n_add q p1) i (ph_name ph) (ph_purist ph) (ph_sourceDepth ph)
              (fst ab) (snd ab) [] [])))))))))).
Proof.
  intros ph s i. unfold linearInterpArrival, angles.
  repeat (match goal with |- bind ?x _ = bind ?x _ => destruct x; cbn [bind]; [|reflexivity|reflexivity] end).
  match goal with p : (R * R)%type |- _ => destruct p end. reflexivity.
Qed.

Section Angles.
  Variable ph : phase R.
  Let m := sm_vMod (tm_sMod (ph_tMod ph)).
  Hypothesis Hc : contiguous (vm_layers m).
  Hypothesis Ht : thick (vm_layers m).
  Hypothesis Hr : 0 <= ph_sourceDepth ph < tm_radius (ph_tMod ph).
  Hypothesis Hk : ~ is_kmps (ph_name ph).

  Lemma angles_iff : forall p tk ic, angles ph p = Ok (tk, ic) <-> angles_of ph p tk ic.
  Proof.
    intros p tk ic. pose proof PI_pos as HP.
    assert (Ek : str_endswith "kmps" (ph_name ph) = false).
    { destruct (str_endswith "kmps" (ph_name ph)) eqn:E; [|reflexivity]. exfalso. apply Hk. apply is_kmps_iff. exact E. }
    assert (E180 : py_div (n_int 180) (m_pi : R) = Ok (180 / PI)).
    { rewrite n_int_R. rewrite py_div_R by (cbn; lra). reflexivity. }
    unfold angles, angles_of. rewrite Ek. fold m. cbv zeta. split.
    - intros H. inv_as H as c Hcc. inv_as H as first Hf. inv_as H as v0 Hv. rewrite E180 in H. cbn [bind] in H.
      inv_as H as x Hx. inv_as H as a Ha. inv_as H as leg Hl. inv_as H as lc Hlc. inv_as H as v1 Hw. inv_as H as y Hy.
      inv_as H as b Hb. injection H as <- <-.
      apply str_get_iff in Hcc. destruct Hcc as [rest En]. apply py_first in Hf. destruct Hf as [later Es].
      apply py_second_last in Hl. destruct Hl as [before [lst El]]. apply str_get_iff in Hlc. destruct Hlc as [lrest Elc].
      apply py_div_R_inv in Hx. destruct Hx as [_ Ex]. apply py_div_R_inv in Hy. destruct Hy as [_ Ey].
      rewrite n_0_R in Hw. apply speed_below_iff in Hw; [|assumption|assumption].
      assert (Hv' : exists v, speed m (sg_down first) (str1 c) (ph_sourceDepth ph) v /\ v0 = if sg_down first then v else - v).
      { destruct (sg_down first).
        - exists v0. split; [apply speed_below_iff; assumption|reflexivity].
        - inv_as Hv as u Hu. exists u. split; [apply speed_above_iff; assumption|].
          assert (Ev0 : v0 = n_mul (n_int (-1)) u) by congruence. rewrite Ev0, n_int_R. cbn. lra. }
      destruct Hv' as [v [Hv1 Hv2]].
      exists c, rest, first, later, before, leg, lst, lc, lrest, v, v1.
      split; [assumption|]. split; [assumption|]. split; [exact Hv1|]. split.
      { rewrite <- Hv2. apply (asin_snell x); [lra|exact Ex|]. exists a. split; [exact Ha|reflexivity]. }
      split; [assumption|]. split; [assumption|]. split; [exact Hw|].
      apply (asin_snell y); [lra|exact Ey|]. exists b. split; [exact Hb|reflexivity].
    - intros [c [rest [first [later [before [leg [lst [lc [lrest [v [w [En [Es [Hv [Htk [El [Elc [Hw Hic]]]]]]]]]]]]]]]]]].
      rewrite (proj2 (str_get_iff (ph_name ph) c) (ex_intro _ rest En)). cbn [bind].
      rewrite (proj2 (py_first (ph_seq ph) first) (ex_intro _ later Es)). cbn [bind].
      assert (Ev : (if sg_down first then evaluateBelow m (ph_sourceDepth ph) (str1 c)
          else bind (evaluateAbove m (ph_sourceDepth ph) (str1 c)) (fun v => Ok (n_mul (n_int (-1)) v))) =
          Ok (if sg_down first then v else - v)).
      { destruct (sg_down first).
        - apply speed_below_iff; assumption.
        - apply speed_above_iff in Hv; [|assumption|assumption]. unfold str1. rewrite Hv. cbn [bind]. rewrite n_int_R. cbn. f_equal. lra. }
      rewrite Ev, E180. cbn [bind].
      set (u := if sg_down first then v else - v) in *.
      change (n_sub (tm_radius (ph_tMod ph)) (ph_sourceDepth ph)) with (tm_radius (ph_tMod ph) - ph_sourceDepth ph).
      change (n_mul u p) with (u * p). rewrite py_div_R by lra. cbn [bind].
      apply (asin_snell (u * p / (tm_radius (ph_tMod ph) - ph_sourceDepth ph))) in Htk; [|lra|reflexivity].
      destruct Htk as [a [Ha ->]]. rewrite Ha. cbn [bind].
      rewrite (proj2 (py_second_last (ph_legs ph) leg) (ex_intro _ before (ex_intro _ lst El))). cbn [bind].
      rewrite (proj2 (str_get_iff leg lc) (ex_intro _ lrest Elc)). cbn [bind].
      apply speed_below_iff in Hw; [|assumption|assumption]. rewrite n_0_R. unfold str1. rewrite Hw. cbn [bind].
      change (n_mul w p) with (w * p). rewrite py_div_R by lra. cbn [bind].
      apply (asin_snell (w * p / tm_radius (ph_tMod ph))) in Hic; [|lra|reflexivity].
      destruct Hic as [b [Hb ->]]. rewrite Hb. reflexivity.
  Qed.
End Angles.

(** the sign of an angle *)
Lemma snell_sign : forall ang v p r, snell ang v p r -> 0 < r ->
  (0 < v * p -> 0 < ang) /\ (v * p < 0 -> ang < 0) /\ (v * p = 0 -> ang = 0).
Proof.
  intros ang v p r [Hb E] Hr. pose proof PI_pos as HP.
  assert (Hp : forall x, 0 < x <= 90 -> 0 < sin (rad x)).
  { intros x Hx. unfold rad. apply sin_gt_0.
    - apply Rmult_lt_0_compat; [|lra]. apply Rmult_lt_0_compat; lra.
    - assert (x * PI <= 90 * PI) by (apply Rmult_le_compat_r; lra). lra. }
  assert (H0 : sin (rad 0) = 0) by (unfold rad; replace (0 * PI / 180) with 0 by field; apply sin_0).
  assert (Hn : forall x, -90 <= x < 0 -> sin (rad x) < 0).
  { intros x Hx. replace (rad x) with (- rad (- x)) by (unfold rad; field). rewrite sin_neg.
    specialize (Hp (- x) ltac:(lra)). lra. }
  assert (Pos : 0 < sin (rad ang) -> 0 < sin (rad ang) * r) by (intros; apply Rmult_lt_0_compat; assumption).
  assert (Neg : sin (rad ang) < 0 -> sin (rad ang) * r < 0).
  { intros Hs. assert (0 < (- sin (rad ang)) * r) by (apply Rmult_lt_0_compat; lra). lra. }
  destruct (Rtotal_order ang 0) as [L|[Z|G]].
  - specialize (Hn ang ltac:(lra)). specialize (Neg Hn). split; [|split]; intros; lra.
  - subst ang. rewrite H0 in E. split; [|split]; intros; lra.
  - specialize (Hp ang ltac:(lra)). specialize (Pos Hp). split; [|split]; intros; lra.
Qed.

(** ** the query never fails on consistent samples *)
Section Defined.
  Variable ph : phase R.
  Hypothesis Hlen : List.length (ph_rayParams ph) = List.length (ph_dist ph).
  Variable deg : R.
  Hypothesis Hok : forall i s, 0 <= s -> cos s = cos (rad deg) -> passes (ph_dist ph) (ph_rayParams ph) i s ->
    exists a, linearInterpArrival ph s (Z.of_nat i) = Ok a.

  Lemma ray_hits_ok : forall s i, (0 <= i < Z.of_nat (List.length (ph_dist ph)) - 1)%Z -> exists b, ray_hits ph s i = Ok b.
  Proof.
    intros s i Hi. unfold ray_hits.
    destruct (py_index_range (ph_dist ph) i ltac:(lia)) as [d0 [E0 _]].
    destruct (py_index_range (ph_dist ph) (i + 1) ltac:(lia)) as [d1 [E1 _]].
    destruct (py_index_range (ph_rayParams ph) i ltac:(lia)) as [p0 [E2 _]].
    destruct (py_index_range (ph_rayParams ph) (i + 1) ltac:(lia)) as [p1 [E3 _]].
    rewrite E0, E1, E2, E3. cbn [bind].
    repeat match goal with |- context [if ?b then _ else _] => destruct b end; eauto.
  Qed.
  Lemma search_ok : forall s acc, 0 <= s -> cos s = cos (rad deg) -> exists out, search_dist ph s acc = Ok out.
  Proof.
    intros s acc Hs0 Hsc. unfold search_dist.
    assert (Hall : forall i, In i (zrange 0 (Z.of_nat (List.length (ph_dist ph)) - 1)) ->
      (0 <= i < Z.of_nat (List.length (ph_dist ph)) - 1)%Z) by (intros i; apply zrange_In).
    revert acc Hall. generalize (zrange 0 (Z.of_nat (List.length (ph_dist ph)) - 1)).
    induction l as [|i l IH]; intros acc Hall; [cbn; eauto|]. cbn [foldM].
    specialize (Hall i (or_introl eq_refl)) as Hi.
    destruct (ray_hits_ok s i Hi) as [b Hb]. rewrite Hb. cbn [bind].
    assert (Hl : forall j, In j l -> (0 <= j < Z.of_nat (List.length (ph_dist ph)) - 1)%Z) by (intros j Hj; apply Hall; right; exact Hj).
    destruct b; cbn [bind]; [|apply IH; exact Hl].
    apply ray_hits_R in Hb; [|exact Hi]. apply Hok in Hb; [|exact Hs0|exact Hsc]. rewrite Z2Nat.id in Hb by lia. destruct Hb as [a Ha].
    rewrite Ha. cbn [bind]. apply IH; exact Hl.
  Qed.
  Lemma laps_ok : forall x skip, 0 <= x <= PI -> cos x = cos (rad deg) -> forall fuel k acc, (0 <= k)%Z ->
    while fuel (lap ph x skip) (k, acc) <> Diverge -> exists out, while fuel (lap ph x skip) (k, acc) = Ok out.
  Proof.
    intros x skip Hx Cx. pose proof PI_pos as HP. induction fuel as [|fuel IH]; intros k acc Hk H; [contradiction H; reflexivity|].
    cbn [while] in *. rewrite lap_R in *.
    assert (Pk : 0 <= 2 * IZR k * PI) by (apply Rmult_le_pos; [apply Rmult_le_pos; [lra|apply IZR_le in Hk; exact Hk]|lra]).
    assert (E1 : 0 <= s1 x k /\ cos (s1 x k) = cos (rad deg)).
    { unfold s1. split; [lra|]. rewrite <- Cx. replace (2 * IZR k * PI + x) with (x + 2 * INR (Z.to_nat k) * PI).
      - apply cos_period.
      - rewrite INR_IZR_INZ, Z2Nat.id by lia. ring. }
    assert (E2 : 0 <= s2 x k /\ cos (s2 x k) = cos (rad deg)).
    { unfold s2. rewrite plus_IZR. split; [nra|]. rewrite <- Cx, <- (cos_neg x).
      replace (2 * (IZR k + 1) * PI - x) with (- x + 2 * INR (Z.to_nat (k + 1)) * PI).
      - apply cos_period.
      - rewrite INR_IZR_INZ, Z2Nat.id, plus_IZR by lia. ring. }
    destruct (Rleb (s1 x k) (ph_maxDist ph)); [|cbn; eauto].
    destruct (search_ok (s1 x k) acc (proj1 E1) (proj2 E1)) as [acc1 Q1]. rewrite Q1 in *. cbn [bind] in *.
    destruct skip; cbn [bind] in *; [apply IH; [lia|exact H]|].
    destruct (search_ok (s2 x k) acc1 (proj1 E2) (proj2 E2)) as [acc2 Q2]. rewrite Q2 in *. cbn [bind] in *. apply IH; [lia|exact H].
  Qed.
  Lemma calcTime_ok : exists f0, forall fuel, (f0 <= fuel)%nat -> exists l, ph_calcTime fuel ph deg = Ok l.
  Proof.
    destruct (calcTime_terminates ph deg) as [f0 Hf]. destruct (foldDegrees_terminates deg) as [f1 Hf1].
    exists (Nat.max f0 f1). intros fuel Hfuel. specialize (Hf fuel ltac:(lia)). destruct (Hf1 fuel ltac:(lia)) as [x Hx].
    pose proof (foldDegrees_spec _ _ _ Hx) as [Fx Cx]. pose proof (rad_bound x Fx) as Rx.
    unfold ph_calcTime in *. rewrite Hx in *. cbn [bind] in *. rewrite !n_int_R in *. rewrite !py_div_R in * by lra. cbn [bind] in *.
    apply laps_ok; [exact Rx|exact Cx|lia|exact Hf].
  Qed.
End Defined.

(** ** an arrival exists on every interval whose samples differ *)
Lemma Rabs_le_inv : forall x r, Rabs x <= r -> - r <= x <= r.
Proof. intros x r H. pose proof (Rle_abs x). pose proof (Rle_abs (- x)). rewrite Rabs_Ropp in *. lra. Qed.
Lemma snell_exists : forall v p r, 0 < r -> Rabs (v * p) <= r -> exists ang, snell ang v p r.
Proof.
  intros v p r Hr H. assert (Hx : -1 <= v * p / r <= 1).
  { apply Rabs_le_inv in H. split; apply Rmult_le_reg_r with r; try lra;
      unfold Rdiv; rewrite Rmult_assoc, Rinv_l; lra. }
  exists (180 / PI * asin (v * p / r)). apply (asin_snell (v * p / r)); [exact Hr|reflexivity|].
  exists (asin (v * p / r)). split; [|reflexivity]. cbn.
  destruct (Rleb_spec (-1) (v * p / r)); [|lra]. destruct (Rleb_spec (v * p / r) 1); [|lra]. reflexivity.
Qed.
Lemma abs_between : forall v p0 p p1 r, between p0 p p1 -> Rabs (v * p0) <= r -> Rabs (v * p1) <= r -> Rabs (v * p) <= r.
Proof.
  intros v p0 p p1 r B H0 H1. apply Rabs_le_inv in H0, H1. apply Rabs_le.
  assert (M : forall a b, a <= b -> 0 <= v -> v * a <= v * b) by (intros; apply Rmult_le_compat_l; assumption).
  assert (M' : forall a b, a <= b -> v <= 0 -> v * b <= v * a).
  { intros a b Hab Hv. apply Ropp_le_cancel. replace (- (v * a)) with ((- v) * a) by ring. replace (- (v * b)) with ((- v) * b) by ring.
    apply Rmult_le_compat_l; lra. }
  destruct (Rle_dec 0 v) as [Hv|Hv]; destruct B as [[B1 B2]|[B1 B2]].
  - pose proof (M _ _ B1 Hv). pose proof (M _ _ B2 Hv). lra.
  - pose proof (M _ _ B1 Hv). pose proof (M _ _ B2 Hv). lra.
  - pose proof (M' _ _ B1 ltac:(lra)). pose proof (M' _ _ B2 ltac:(lra)). lra.
  - pose proof (M' _ _ B1 ltac:(lra)). pose proof (M' _ _ B2 ltac:(lra)). lra.
Qed.

Lemma interp_exists_on : forall (ph : phase R) i s,
  passes (ph_dist ph) (ph_rayParams ph) i s -> nth_error (ph_dist ph) i <> nth_error (ph_dist ph) (S i) ->
  List.length (ph_time ph) = List.length (ph_dist ph) ->
  (forall d0 d1 p0 p1 p, nth_error (ph_dist ph) i = Some d0 -> nth_error (ph_dist ph) (S i) = Some d1 ->
     nth_error (ph_rayParams ph) i = Some p0 -> nth_error (ph_rayParams ph) (S i) = Some p1 -> on_line d0 p0 d1 p1 s p -> between p0 p p1 ->
     exists tk ic, angles ph p = Ok (tk, ic)) ->
  exists a, linearInterpArrival ph s (Z.of_nat i) = Ok a.
Proof.
  intros ph i s Hp Hd Hlen Ha. pose proof (passes_bound _ _ _ _ Hp) as Hb.
  destruct Hp as [d0 [d1 [p0 [p1 [D0 [D1 [P0 [P1 [B [_ _]]]]]]]]]].
  assert (T : exists t0 t1, nth_error (ph_time ph) i = Some t0 /\ nth_error (ph_time ph) (S i) = Some t1).
  { destruct (nth_error (ph_time ph) i) as [t0|] eqn:E0; [|apply nth_error_None in E0; lia].
    destruct (nth_error (ph_time ph) (S i)) as [t1|] eqn:E1; [|apply nth_error_None in E1; lia]. eauto. }
  destruct T as [t0 [t1 [T0 T1]]].
  assert (Hne : d0 <> d1) by (intros ->; apply Hd; congruence).
  assert (Z0 : forall (l : list R) x, nth_error l i = Some x -> py_index l (Z.of_nat i) = Ok x)
    by (intros l x E; apply py_index_nonneg; [lia|rewrite Nat2Z.id; exact E]).
  assert (Z1 : forall (l : list R) x, nth_error l (S i) = Some x -> py_index l (Z.of_nat i + 1) = Ok x)
    by (intros l x E; apply py_index_nonneg; [lia|replace (Z.to_nat (Z.of_nat i + 1)) with (S i) by lia; exact E]).
  rewrite interp_split. rewrite (Z0 _ _ D0), (Z1 _ _ D1), (Z0 _ _ T0), (Z1 _ _ T1), (Z0 _ _ P0), (Z1 _ _ P1). cbn [bind].
  rewrite !py_div_R by (cbn; lra). cbn [bind].
  match goal with |- context [angles ph ?p] => assert (Hon : on_line d0 p0 d1 p1 s p) end.
  { split; [exact Hne|]. cbn. field. lra. }
  pose proof (on_line_between d0 p0 d1 p1 s _ Hon B) as Hbt.
  destruct (Ha d0 d1 p0 p1 _ D0 D1 P0 P1 Hon Hbt) as [tk [ic E]]. rewrite E. cbn [bind]. eauto.
Qed.
Lemma interp_exists : forall (ph : phase R) i s,
  passes (ph_dist ph) (ph_rayParams ph) i s -> nth_error (ph_dist ph) i <> nth_error (ph_dist ph) (S i) ->
  List.length (ph_time ph) = List.length (ph_dist ph) ->
  (forall p0 p1 p, nth_error (ph_rayParams ph) i = Some p0 -> nth_error (ph_rayParams ph) (S i) = Some p1 -> between p0 p p1 ->
     exists tk ic, angles ph p = Ok (tk, ic)) ->
  exists a, linearInterpArrival ph s (Z.of_nat i) = Ok a.
Proof. intros ph i s Hp Hd Hl Ha. apply interp_exists_on; try assumption. intros d0 d1 p0 p1 p _ _ P0 P1 _ B. exact (Ha p0 p1 p P0 P1 B). Qed.

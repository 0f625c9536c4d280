(** Lemmas about SeismicPhase.calcTime over the reals (properties C06-C09). *)
From Coq Require Import ZArith Bool List String Ascii Lia Reals Lra FinFun.
From Verif Require Import Base Num PyStr VelocityModel SlownessLayer SlownessModel TauModel Legs
  SeismicPhase TimeSpec.
Import ListNotations.
Local Open Scope R_scope.

(** -- folding ----------------------------------------------------------------- *)

Lemma PI_pos : 0 < PI. Proof. exact PI_RGT_0. Qed.

Lemma cos_shift : forall x k, (0 <= k)%Z -> cos (x + 2 * IZR k * PI) = cos x.
Proof.
  intros x k H. rewrite <- (Z2Nat.id k H), <- INR_IZR_INZ. apply cos_period.
Qed.

Lemma cos_shift_Z : forall x k, cos (x + 2 * IZR k * PI) = cos x.
Proof.
  intros x k. destruct (Z.le_gt_cases 0 k) as [H|H]; [apply cos_shift; assumption|].
  rewrite <- (cos_shift (x + 2 * IZR k * PI) (- k)) by lia. rewrite opp_IZR. f_equal. ring.
Qed.

Lemma cos_flip : forall x k, cos (2 * IZR k * PI - x) = cos x.
Proof.
  intros x k. replace (2 * IZR k * PI - x) with (- x + 2 * IZR k * PI) by ring.
  rewrite cos_shift_Z. apply cos_neg.
Qed.

(** the angles with a given cosine *)
Lemma cos_eq_cases : forall s x, 0 <= s -> 0 <= x <= PI -> cos s = cos x ->
  exists k, (0 <= k)%Z /\ (s = 2 * IZR k * PI + x \/ s = 2 * IZR (k + 1) * PI - x).
Proof.
  intros s x Hs Hx Hc. pose proof PI_pos as HP.
  set (k := Int_part (s / (2 * PI))). exists k.
  destruct (base_Int_part (s / (2 * PI))) as [H1 H2]. fold k in H1, H2.
  assert (H3 : 0 <= s / (2 * PI)) by (apply Rle_mult_inv_pos; lra).
  assert (Hk : (0 <= k)%Z).
  { assert (-1 < k)%Z by (apply lt_IZR; lra). lia. }
  assert (E : s = s / (2 * PI) * (2 * PI)) by (field; lra).
  assert (H4 : IZR k * (2 * PI) <= s).
  { rewrite E. apply Rmult_le_compat_r; lra. }
  assert (H5 : s < (IZR k + 1) * (2 * PI)).
  { rewrite E at 1. apply Rmult_lt_compat_r; lra. }
  split; [assumption|].
  set (r := s - 2 * IZR k * PI).
  assert (Hr : cos r = cos x).
  { rewrite <- Hc. rewrite <- (cos_shift_Z r k). unfold r. f_equal. ring. }
  destruct (Rle_dec r PI) as [Hle|Hgt].
  - left. assert (r = x).
    { rewrite <- (acos_cos r), <- (acos_cos x), Hr by (unfold r in *; lra). reflexivity. }
    unfold r in *. lra.
  - right. assert (2 * PI - r = x).
    { rewrite <- (acos_cos (2 * PI - r)) by (unfold r in *; lra).
      rewrite <- (acos_cos x) by lra. f_equal. rewrite <- Hr.
      replace (2 * PI - r) with (2 * IZR 1 * PI - r) by (simpl; ring). apply cos_flip. }
    rewrite plus_IZR. unfold r in *. lra.
Qed.

Lemma rad_bound : forall x, 0 <= x <= 180 -> 0 <= rad x <= PI.
Proof. intros x H. pose proof PI_pos. unfold rad. split.
  - apply Rmult_le_pos; [apply Rmult_le_pos; lra|lra].
  - assert (x * PI <= 180 * PI) by (apply Rmult_le_compat_r; lra). lra.
Qed.

Lemma rad_inj : forall x y, rad x = rad y -> x = y.
Proof. intros x y H. pose proof PI_pos. unfold rad in H.
  assert (x * PI = y * PI) by lra. apply Rmult_eq_reg_r with PI; lra. Qed.

(** the folded distance is unique *)
Lemma folded_unique : forall deg x y, folded deg x -> folded deg y -> x = y.
Proof.
  intros deg x y [Hx Cx] [Hy Cy]. apply rad_inj.
  rewrite <- (acos_cos (rad x)), <- (acos_cos (rad y)) by (apply rad_bound; assumption).
  f_equal. congruence.
Qed.

Lemma wrap360_S : forall {T} {N : Num T} fuel (x : T),
  wrap360 (S fuel) x = if n_ltb (n_int 360) x then wrap360 fuel (n_sub x (n_int 360)) else Ok x.
Proof. intros. unfold wrap360. cbn [while]. destruct (n_ltb (n_int 360) x); reflexivity. Qed.

Lemma wrap360_S_R : forall fuel x,
  wrap360 (S fuel) x = if Rltb 360 x then wrap360 fuel (x - 360) else Ok x.
Proof. intros. rewrite wrap360_S, n_int_R. reflexivity. Qed.

Lemma wrap360_spec : forall fuel x y, 0 <= x -> wrap360 fuel x = Ok y ->
  0 <= y <= 360 /\ exists k, (0 <= k)%Z /\ x = y + 360 * IZR k.
Proof.
  induction fuel as [|fuel IH]; intros x y Hx H; [discriminate|].
  rewrite wrap360_S_R in H.
  destruct (Rltb_spec 360 x) as [Hlt|Hge].
  - apply IH in H; [|lra]. destruct H as [H1 [k [Hk E]]]. split; [assumption|].
    exists (k + 1)%Z. split; [lia|]. rewrite plus_IZR. lra.
  - inversion H; subst. split; [lra|]. exists 0%Z. split; [lia|]. simpl. lra.
Qed.

Lemma wrap360_terminates : forall x, 0 <= x ->
  exists f0, forall fuel, (f0 <= fuel)%nat -> exists y, wrap360 fuel x = Ok y.
Proof.
  intros x Hx.
  assert (G : forall n x, x <= 360 * INR n -> exists y, wrap360 (S n) x = Ok y).
  { clear. induction n as [|n IH]; intros x H; rewrite wrap360_S_R.
    - exists x. simpl in H. destruct (Rltb_spec 360 x); [lra|reflexivity].
    - destruct (Rltb_spec 360 x) as [Hlt|Hge].
      + destruct (IH (x - 360)) as [y Hy]; [rewrite S_INR in H; lra|].
        exists y. exact Hy.
      + exists x. reflexivity. }
  destruct (archimed (x / 360)) as [A _].
  set (n := Z.to_nat (up (x / 360))).
  assert (Hn : x <= 360 * INR n).
  { assert (0 <= x / 360) by lra.
    assert (0 <= up (x / 360))%Z by (apply le_IZR; simpl; lra).
    unfold n. rewrite INR_IZR_INZ, Z2Nat.id by assumption. lra. }
  destruct (G n x Hn) as [y Hy].
  exists (S n). intros fuel Hf. exists y. unfold wrap360 in *.
  eapply while_mono; eassumption.
Qed.

Lemma rad_360 : forall y k, rad (y + 360 * IZR k) = rad y + 2 * IZR k * PI.
Proof. intros. unfold rad. field. Qed.

Lemma rad_opp : forall x, cos (rad (- x)) = cos (rad x).
Proof. intros. replace (rad (- x)) with (- rad x) by (unfold rad; field). apply cos_neg. Qed.

Lemma rad_abs : forall x, cos (rad (Rabs x)) = cos (rad x).
Proof. intros. unfold Rabs. destruct (Rcase_abs x); [apply rad_opp|reflexivity]. Qed.

Lemma rad_flip : forall x, cos (rad (360 - x)) = cos (rad x).
Proof.
  intros. replace (rad (360 - x)) with (2 * IZR 1 * PI - rad x)
    by (unfold rad; simpl; field). apply cos_flip.
Qed.

Lemma foldDegrees_spec : forall fuel (deg x : R), foldDegrees fuel deg = Ok x -> folded deg x.
Proof.
  intros fuel deg x H. unfold foldDegrees in H. inv_bind H.
  apply wrap360_spec in Ha; [|apply Rabs_pos]. destruct Ha as [Hv [k [Hk E]]].
  rewrite ?n_int_R in H. simpl in H, E.
  assert (C : cos (rad v) = cos (rad deg)).
  { rewrite <- (rad_abs deg), E, rad_360, cos_shift_Z. reflexivity. }
  unfold folded.
  destruct (Rltb_spec 180 v); inversion H; subst; clear H.
  - split; [lra|]. rewrite rad_flip. exact C.
  - split; [lra|exact C].
Qed.

Lemma foldDegrees_terminates : forall deg : R,
  exists f0, forall fuel, (f0 <= fuel)%nat -> exists x, foldDegrees fuel deg = Ok x.
Proof.
  intros deg. destruct (wrap360_terminates (Rabs deg) (Rabs_pos deg)) as [f0 H].
  exists f0. intros fuel Hf. destruct (H fuel Hf) as [y Hy].
  unfold foldDegrees. simpl n_abs. rewrite Hy. cbn [bind]. eexists. reflexivity.
Qed.

(** -- one search distance ------------------------------------------------------ *)

Lemma collect_spec : forall {X A} (f : X -> result bool) (g : X -> result A) l acc out,
  foldM (fun acc i => let! hit := f i in
                      if hit then let! a := g i in Ok (acc ++ [a])%list else Ok acc) l acc
    = Ok out ->
  exists hits arrs, out = (acc ++ arrs)%list /\ Forall2 (fun i a => g i = Ok a) hits arrs /\
    (forall i, In i hits <-> In i l /\ f i = Ok true) /\ (NoDup l -> NoDup hits).
Proof.
  intros X A f g. induction l as [|i l IH]; intros acc out H.
  - inversion H; subst. exists [], []. rewrite app_nil_r.
    split; [reflexivity|]. split; [constructor|]. split; [simpl; tauto|auto].
  - simpl in H. inv_bind H. inv_bind Ha. destruct v0.
    + inv_bind Ha. inversion Ha; subst. apply IH in H.
      destruct H as [hits [arrs [E [F [I D]]]]].
      exists (i :: hits), (v0 :: arrs). split; [rewrite E, <- app_assoc; reflexivity|].
      split; [constructor; assumption|]. split.
      * intros j. simpl. rewrite I. split; [intros [?|?]; subst; tauto|intros [[?|?] ?]; tauto].
      * intros Hd. inversion Hd; subst. constructor; [rewrite I; tauto|auto].
    + inversion Ha; subst. apply IH in H. destruct H as [hits [arrs [E [F [I D]]]]].
      exists hits, arrs. split; [assumption|]. split; [assumption|]. split.
      * intros j. simpl. rewrite I. split; [tauto|]. intros [[?|?] ?]; subst; [congruence|tauto].
      * intros Hd. inversion Hd; subst. auto.
Qed.

Lemma Forall2_In_r : forall {A B} (P : A -> B -> Prop) l l' b,
  Forall2 P l l' -> In b l' -> exists a, In a l /\ P a b.
Proof.
  induction 1; simpl; [tauto|]. intros [E|E]; [subst; eauto|].
  destruct (IHForall2 E) as [a [? ?]]; eauto.
Qed.
Lemma Forall2_In_l : forall {A B} (P : A -> B -> Prop) l l' a,
  Forall2 P l l' -> In a l -> exists b, In b l' /\ P a b.
Proof.
  induction 1; simpl; [tauto|]. intros [E|E]; [subst; eauto|].
  destruct (IHForall2 E) as [b [? ?]]; eauto.
Qed.

Lemma zrange_NoDup : forall a b, NoDup (zrange a b).
Proof.
  intros. unfold zrange. apply Injective_map_NoDup; [|apply seq_NoDup].
  intros x y H. lia.
Qed.

Section AnyNum.
  Context {T : Type} {N : Num T} {L : Libm T}.

  (** what linearInterpArrival copies into the arrival *)
  Lemma interp_fields : forall (ph : phase T) s i a, linearInterpArrival ph s i = Ok a ->
    ar_dist a = s /\ ar_index a = i /\ ar_name a = ph_name ph /\ ar_purist a = ph_purist ph /\
    ar_sourceDepth a = ph_sourceDepth ph /\ ar_pierce a = [] /\ ar_path a = [].
  Proof.
    intros ph s i a H. unfold linearInterpArrival in H.
    do 8 inv_bind H. inv_as H as [tk ic] Hx. inversion H; subst. simpl. tauto.
  Qed.

  Lemma search_dist_spec : forall (ph : phase T) s acc out, search_dist ph s acc = Ok out ->
    exists l, out = (acc ++ l)%list /\ NoDup (map ar_index l) /\
      forall a, In a l <->
        (0 <= ar_index a < Z.of_nat (List.length (ph_dist ph)) - 1)%Z /\ ar_dist a = s /\
        ray_hits ph s (ar_index a) = Ok true /\ linearInterpArrival ph s (ar_index a) = Ok a.
  Proof.
    intros ph s acc out H. unfold search_dist in H. apply collect_spec in H.
    destruct H as [hits [arrs [E [F [I D]]]]]. specialize (D (zrange_NoDup _ _)).
    assert (EI : map ar_index arrs = hits).
    { clear - F. induction F; simpl; [reflexivity|]. f_equal; [|assumption].
      apply interp_fields in H. tauto. }
    exists arrs. split; [assumption|]. split; [rewrite EI; assumption|].
    intros a. split.
    - intros Ha. destruct (Forall2_In_r _ _ _ _ F Ha) as [i [Hi Ea]].
      destruct (interp_fields _ _ _ _ Ea) as [E1 [E2 _]]. apply I in Hi.
      rewrite zrange_In in Hi. rewrite E2. tauto.
    - intros [Hr [Es [Hh Ha]]].
      assert (Hin : In (ar_index a) hits) by (apply I; rewrite zrange_In; split; [lia|assumption]).
      destruct (Forall2_In_l _ _ _ _ F Hin) as [b [Hb Eb]]. congruence.
  Qed.
End AnyNum.

(** [ray_hits] over the reals *)
Lemma ray_hits_R : forall (ph : phase R) s i,
  (0 <= i < Z.of_nat (List.length (ph_dist ph)) - 1)%Z ->
  ray_hits ph s i = Ok true <-> passes (ph_dist ph) (ph_rayParams ph) (Z.to_nat i) s.
Proof.
  intros ph s i Hi. unfold ray_hits, passes.
  destruct (py_index_range (ph_dist ph) i ltac:(lia)) as [d0 [E0 N0]].
  destruct (py_index_range (ph_dist ph) (i + 1) ltac:(lia)) as [d1 [E1 N1]].
  rewrite E0, E1. cbn [bind].
  replace (Z.to_nat (i + 1)) with (S (Z.to_nat i)) in N1 by lia.
  change (n_eqb s d1) with (Reqb s d1).
  change (n_leb n_0 (n_mul (n_sub d0 s) (n_sub s d1))) with (Rleb n_0 ((d0 - s) * (s - d1))).
  rewrite n_0_R.
  set (last := (i + 1 =? Z.of_nat (Datatypes.length (ph_dist ph)) - 1)%Z).
  assert (Hlast : last = true <-> S (S (Z.to_nat i)) = List.length (ph_dist ph)).
  { unfold last. rewrite Z.eqb_eq. lia. }
  assert (Hb : 0 <= (d0 - s) * (s - d1) <-> between d0 s d1).
  { unfold between. split.
    - intros H. destruct (Rle_dec d0 s), (Rle_dec s d1); try (left; lra); try (right; lra).
      + destruct (Req_dec d0 s); [subst; right; lra|].
        assert (0 < (s - d0) * (s - d1)) by (apply Rmult_lt_0_compat; lra). lra.
      + destruct (Req_dec s d1); [subst; right; lra|].
        assert (0 < (d0 - s) * (d1 - s)) by (apply Rmult_lt_0_compat; lra). lra.
    - intros [H|H].
      + replace ((d0 - s) * (s - d1)) with ((s - d0) * (d1 - s)) by ring.
        apply Rmult_le_pos; lra.
      + apply Rmult_le_pos; lra. }
  split.
  - intros H.
    destruct (Reqb_spec s d1) as [Es|Es]; simpl in H.
    + destruct last eqn:El; simpl in H; [|discriminate].
      destruct (Rleb_spec 0 ((d0 - s) * (s - d1))); [|discriminate].
      inv_bind H. inv_bind H. apply py_index_nonneg in Ha, Ha0; try lia.
      replace (Z.to_nat (i + 1)) with (S (Z.to_nat i)) in Ha0 by lia.
      exists d0, d1, v, v0. split; [assumption|]. split; [assumption|].
      split; [assumption|]. split; [assumption|]. split; [apply Hb; assumption|].
      split; [intros _; apply Hlast; reflexivity|].
      intros Ep. simpl in H. inversion H as [H1].
      destruct (Reqb_spec v v0); [|contradiction]. simpl in H1.
      destruct (Z.ltb_spec 2 (Z.of_nat (List.length (ph_rayParams ph)))); [discriminate|lia].
    + destruct (Rleb_spec 0 ((d0 - s) * (s - d1))); [|discriminate].
      inv_bind H. inv_bind H. apply py_index_nonneg in Ha, Ha0; try lia.
      replace (Z.to_nat (i + 1)) with (S (Z.to_nat i)) in Ha0 by lia.
      exists d0, d1, v, v0. split; [assumption|]. split; [assumption|].
      split; [assumption|]. split; [assumption|]. split; [apply Hb; assumption|].
      split; [intros; contradiction|].
      intros Ep. simpl in H. inversion H as [H1].
      destruct (Reqb_spec v v0); [|contradiction]. simpl in H1.
      destruct (Z.ltb_spec 2 (Z.of_nat (List.length (ph_rayParams ph)))); [discriminate|lia].
  - intros [d0' [d1' [p0 [p1 [H0 [H1 [P0 [P1 [B [Hl Hp]]]]]]]]]].
    assert (d0' = d0) by congruence. assert (d1' = d1) by congruence. subst d0' d1'.
    assert (Q0 : py_index (ph_rayParams ph) i = Ok p0) by (apply py_index_nonneg; [lia|assumption]).
    assert (Q1 : py_index (ph_rayParams ph) (i + 1) = Ok p1).
    { apply py_index_nonneg; [lia|]. replace (Z.to_nat (i + 1)) with (S (Z.to_nat i)) by lia. assumption. }
    assert (Hfin : Ok (negb (n_eqb p0 p1 &&
              (2 <? Z.of_nat (Datatypes.length (ph_rayParams ph)))%Z)) = Ok true).
    { simpl. destruct (Reqb_spec p0 p1) as [E|E]; [|reflexivity].
      destruct (Z.ltb_spec 2 (Z.of_nat (List.length (ph_rayParams ph)))); [|reflexivity].
      specialize (Hp E). lia. }
    destruct (Rleb_spec 0 ((d0 - s) * (s - d1))) as [_|F]; [|apply Hb in B; contradiction].
    destruct (Reqb_spec s d1) as [Es|Es].
    + apply Hl in Es. apply Hlast in Es. rewrite Es. simpl negb. cbv iota.
      rewrite Q0, Q1. cbn [bind andb]. exact Hfin.
    + simpl andb. cbv iota. rewrite Q0, Q1. cbn [bind]. exact Hfin.
Qed.

(** -- the laps ----------------------------------------------------------------- *)

(** [a] is the arrival made on an interval that passes distance [s] *)
Definition arrives (ph : phase R) (s : R) (a : arrival R) : Prop :=
  exists i, ar_index a = Z.of_nat i /\ passes (ph_dist ph) (ph_rayParams ph) i s /\
            linearInterpArrival ph s (Z.of_nat i) = Ok a.

Lemma passes_bound : forall d p i s, passes d p i s -> (S i < List.length d)%nat.
Proof.
  intros d p i s [d0 [d1 [p0 [p1 [H0 [H1 _]]]]]]. apply nth_error_Some. congruence.
Qed.

Lemma search_dist_R : forall (ph : phase R) s acc out, search_dist ph s acc = Ok out ->
  exists l, out = (acc ++ l)%list /\ NoDup (map ar_index l) /\
    forall a, In a l <-> arrives ph s a.
Proof.
  intros ph s acc out H. apply search_dist_spec in H. destruct H as [l [E [D I]]].
  exists l. split; [assumption|]. split; [assumption|]. intros a. rewrite I. unfold arrives. split.
  - intros [Hr [Es [Hh Ha]]]. exists (Z.to_nat (ar_index a)).
    rewrite Z2Nat.id by lia. split; [reflexivity|]. split; [|assumption].
    apply ray_hits_R; assumption.
  - intros [i [Ei [Hp Ha]]]. pose proof (passes_bound _ _ _ _ Hp). rewrite Ei.
    split; [lia|]. split; [apply interp_fields in Ha; tauto|]. split; [|assumption].
    apply ray_hits_R; [lia|]. rewrite Nat2Z.id. assumption.
Qed.

Lemma arrives_dist : forall ph s a, arrives ph s a -> ar_dist a = s.
Proof. intros ph s a [i [_ [_ H]]]. apply interp_fields in H. tauto. Qed.

(** the two search distances of lap n *)
Definition s1 (x : R) (n : Z) : R := 2 * IZR n * PI + x.
Definition s2 (x : R) (n : Z) : R := 2 * IZR (n + 1) * PI - x.

Lemma lap_R : forall (ph : phase R) x skip n acc,
  lap ph x skip (n, acc) =
  if Rleb (s1 x n) (ph_maxDist ph) then
    let! acc := search_dist ph (s1 x n) acc in
    let! acc := if skip then Ok acc else search_dist ph (s2 x n) acc in
    Ok (inl ((n + 1)%Z, acc))
  else Ok (inr acc).
Proof.
  intros. unfold lap.
  assert (E1 : n_add (n_mul (n_int (n * 2)) m_pi) x = s1 x n).
  { rewrite n_int_R. simpl. unfold s1. rewrite mult_IZR. ring. }
  assert (E2 : n_sub (n_mul (n_int ((n + 1) * 2)) m_pi) x = s2 x n).
  { rewrite n_int_R. simpl. unfold s2. rewrite mult_IZR. ring. }
  rewrite E1, E2. reflexivity.
Qed.

Definition key (a : arrival R) : Z * R := (ar_index a, ar_dist a).

Lemma NoDup_key_same : forall s l, (forall a, In a l -> ar_dist a = s) ->
  NoDup (map ar_index l) -> NoDup (map key l).
Proof.
  induction l as [|a l IH]; simpl; intros Hd Hn; constructor; inversion Hn; subst.
  - rewrite in_map_iff. intros [b [Eb Hb]]. apply H1. rewrite in_map_iff.
    exists b. split; [inversion Eb; reflexivity|assumption].
  - apply IH; auto.
Qed.

Lemma NoDup_app_keys : forall l1 l2 : list (arrival R),
  NoDup (map key l1) -> NoDup (map key l2) ->
  (forall a b, In a l1 -> In b l2 -> ar_dist a <> ar_dist b) -> NoDup (map key (l1 ++ l2)).
Proof.
  induction l1 as [|a l1 IH]; simpl; intros l2 H1 H2 H; [assumption|].
  inversion H1; subst. constructor.
  - rewrite map_app, in_app_iff. intros [F|F]; [contradiction|].
    apply in_map_iff in F. destruct F as [b [E Hb]]. apply (H a b); auto.
    inversion E. congruence.
  - apply IH; auto.
Qed.

Lemma laps_spec : forall (ph : phase R) x skip fuel n acc out, 0 <= x <= PI -> (skip = true -> x = PI) ->
  while fuel (lap ph x skip) (n, acc) = Ok out ->
  exists l, out = (acc ++ l)%list /\
    (forall a, In a l <-> exists k, (n <= k)%Z /\ s1 x k <= ph_maxDist ph /\
                (arrives ph (s1 x k) a \/ (skip = false /\ arrives ph (s2 x k) a))) /\
    (0 < x -> (skip = false -> x < PI) -> NoDup (map key l)).
Proof.
  intros ph x skip fuel. pose proof PI_pos as HP.
  induction fuel as [|fuel IH]; intros n acc out Hx Hs H; [discriminate|].
  cbn [while] in H. rewrite lap_R in H.
  destruct (Rleb_spec (s1 x n) (ph_maxDist ph)) as [Hle|Hgt].
  - inv_bind H. inv_bind Ha. inv_bind Ha. inversion Ha; subst v. clear Ha.
    apply search_dist_R in Haa. destruct Haa as [l1 [E1 [D1 I1]]]. subst v0.
    assert (H2 : exists l2, v1 = ((acc ++ l1) ++ l2)%list /\ NoDup (map ar_index l2) /\
              forall a, In a l2 <-> skip = false /\ arrives ph (s2 x n) a).
    { destruct skip.
      - inversion Haa0. exists []. rewrite app_nil_r. split; [reflexivity|].
        split; [constructor|]. intros a. simpl. intuition discriminate.
      - apply search_dist_R in Haa0. destruct Haa0 as [l2 [E2 [D2 I2]]]. exists l2.
        split; [assumption|]. split; [assumption|]. intros a. rewrite I2. tauto. }
    destruct H2 as [l2 [E2 [D2 I2]]]. subst v1.
    apply IH in H; [|assumption|assumption]. destruct H as [l3 [E3 [I3 D3]]].
    exists (l1 ++ l2 ++ l3)%list. split; [rewrite E3, !app_assoc; reflexivity|]. split.
    + intros a. rewrite !in_app_iff, I1, I2, I3. split.
      * intros [F|[[F1 F2]|[k [Hk F]]]].
        -- exists n. split; [lia|]. tauto.
        -- exists n. split; [lia|]. tauto.
        -- exists k. split; [lia|]. tauto.
      * intros [k [Hk [Hm F]]]. destruct (Z.eq_dec k n) as [->|Hne]; [tauto|].
        right. right. exists k. split; [lia|]. tauto.
    + intros Hx0 Hxp. specialize (D3 Hx0 Hxp).
      apply NoDup_app_keys.
      * apply NoDup_key_same with (s1 x n); [|assumption].
        intros a Ha. apply I1 in Ha. eapply arrives_dist; eassumption.
      * apply NoDup_app_keys; [|assumption|].
        -- apply NoDup_key_same with (s2 x n); [|assumption].
           intros a Ha. apply I2 in Ha. destruct Ha as [_ Ha]. eapply arrives_dist; eassumption.
        -- intros a b Ha Hb. apply I2 in Ha. destruct Ha as [_ Ha]. apply arrives_dist in Ha.
           apply I3 in Hb. destruct Hb as [k [Hk [_ Hb]]].
           assert (IZR (n + 1) <= IZR k) by (apply IZR_le; assumption).
           assert (2 * IZR (n + 1) * PI <= 2 * IZR k * PI) by (apply Rmult_le_compat_r; lra).
           destruct Hb as [Hb|[_ Hb]]; apply arrives_dist in Hb; rewrite Ha, Hb; unfold s1, s2.
           ++ lra.
           ++ rewrite (plus_IZR k). lra.
      * intros a b Ha Hb. apply I1 in Ha. apply arrives_dist in Ha.
        apply in_app_iff in Hb. destruct Hb as [Hb|Hb].
        -- apply I2 in Hb. destruct Hb as [Hsk Hb]. apply arrives_dist in Hb.
           specialize (Hxp Hsk). rewrite Ha, Hb. unfold s1, s2. rewrite plus_IZR. lra.
        -- apply I3 in Hb. destruct Hb as [k [Hk [_ Hb]]].
           assert (IZR (n + 1) <= IZR k) by (apply IZR_le; assumption).
           assert (2 * IZR (n + 1) * PI <= 2 * IZR k * PI) by (apply Rmult_le_compat_r; lra).
           rewrite plus_IZR in *.
           destruct Hb as [Hb|[_ Hb]]; apply arrives_dist in Hb; rewrite Ha, Hb; unfold s1, s2;
             rewrite ?plus_IZR; lra.
  - cbn [bind] in H. inversion H; subst. exists []. rewrite app_nil_r. split; [reflexivity|]. split.
    + intros a. split; [intros []|]. intros [k [Hk [Hm _]]].
      assert (IZR n <= IZR k) by (apply IZR_le; assumption).
      assert (2 * IZR n * PI <= 2 * IZR k * PI) by (apply Rmult_le_compat_r; lra).
      unfold s1 in *. lra.
    + intros. constructor.
Qed.

Lemma calcTime_unfold : forall fuel (ph : phase R) deg l, ph_calcTime fuel ph deg = Ok l ->
  exists x, folded deg x /\ while fuel (lap ph (rad x) (Reqb x 180)) (0%Z, []) = Ok l.
Proof.
  intros fuel ph deg l H. unfold ph_calcTime in H. inv_bind H. inv_bind H.
  apply foldDegrees_spec in Ha. exists v. split; [assumption|].
  rewrite ?n_int_R in *. apply py_div_R_inv in Ha0. destruct Ha0 as [_ E].
  simpl in E. subst v0. exact H.
Qed.

(** the search distances are all non-negative angles equivalent to the request *)
Lemma calcTime_sound : forall fuel (ph : phase R) deg l a, ph_calcTime fuel ph deg = Ok l -> In a l ->
  0 <= ar_dist a /\ cos (ar_dist a) = cos (rad deg) /\ arrives ph (ar_dist a) a.
Proof.
  intros fuel ph deg l a H Hin. apply calcTime_unfold in H. destruct H as [x [[Hx Cx] H]].
  pose proof PI_pos as HP. pose proof (rad_bound x Hx) as Hr.
  apply laps_spec in H; [|assumption|intros E; apply Reqb_true in E; subst; unfold rad; field].
  destruct H as [l' [E [I _]]]. simpl in E. subst l'. apply I in Hin.
  destruct Hin as [k [Hk [_ Ha]]].
  assert (0 <= IZR k) by (apply (IZR_le 0); assumption).
  assert (0 <= 2 * IZR k * PI) by (apply Rmult_le_pos; lra).
  destruct Ha as [Ha|[_ Ha]]; pose proof (arrives_dist _ _ _ Ha) as Ed; rewrite Ed.
  - split; [unfold s1; lra|]. split; [|assumption]. unfold s1.
    rewrite Rplus_comm, cos_shift_Z. assumption.
  - split; [unfold s2; rewrite plus_IZR; lra|]. split; [|assumption]. unfold s2.
    rewrite cos_flip. assumption.
Qed.

Lemma calcTime_complete : forall fuel (ph : phase R) deg l i s, ph_calcTime fuel ph deg = Ok l ->
  0 <= s <= ph_maxDist ph -> cos s = cos (rad deg) ->
  passes (ph_dist ph) (ph_rayParams ph) i s ->
  (exists a, In a l /\ ar_dist a = s /\ ar_index a = Z.of_nat i).
Proof.
  intros fuel ph deg l i s H Hs Hc Hp. pose proof PI_pos as HP.
  apply calcTime_unfold in H. destruct H as [x [[Hx Cx] H]].
  pose proof (rad_bound x Hx) as Hr.
  destruct (cos_eq_cases s (rad x) (proj1 Hs) Hr ltac:(congruence)) as [k [Hk Es]].
  (* the distance is searched in lap k *)
  assert (G : exists k', (0 <= k')%Z /\ s1 (rad x) k' <= ph_maxDist ph /\
              (s = s1 (rad x) k' \/ (Reqb x 180 = false /\ s = s2 (rad x) k'))).
  { destruct Es as [Es|Es].
    - exists k. split; [assumption|]. fold (s1 (rad x) k) in Es. split; [lra|]. left; assumption.
    - destruct (Reqb_spec x 180) as [E|E].
      + exists k. split; [assumption|]. assert (rad x = PI) by (subst; unfold rad; field).
        assert (s = s1 (rad x) k) by (unfold s1; rewrite plus_IZR in Es; lra).
        split; [lra|]. left; assumption.
      + exists k. split; [assumption|]. split.
        * unfold s1. rewrite plus_IZR in Es. lra.
        * right. split; [reflexivity|]. exact Es. }
  destruct G as [k' [Hk' [Hm Hs']]].
  (* since the loop returned, interpolation on interval i succeeded *)
  assert (Hw : exists a, arrives ph s a /\ ar_index a = Z.of_nat i).
  { assert (Gen : forall fuel n acc out, (n <= k')%Z ->
        while fuel (lap ph (rad x) (Reqb x 180)) (n, acc) = Ok out ->
        exists out', exists acc', search_dist ph s acc' = Ok out').
    { clear - Hs' Hm HP. induction fuel as [|fuel IH]; intros n acc out Hn H; [discriminate|].
      cbn [while] in H. rewrite lap_R in H.
      assert (IZR n <= IZR k') by (apply IZR_le; assumption).
      assert (2 * IZR n * PI <= 2 * IZR k' * PI) by (apply Rmult_le_compat_r; lra).
      destruct (Rleb_spec (s1 (rad x) n) (ph_maxDist ph)); [|unfold s1 in *; lra].
      inv_bind H. inv_bind Ha. inv_bind Ha. inversion Ha; subst v.
      destruct (Z.eq_dec n k') as [->|Hne].
      - destruct Hs' as [Hs'|[Hsk Hs']].
        + rewrite <- Hs' in Haa. eauto.
        + rewrite Hsk in Haa0. rewrite <- Hs' in Haa0. eauto.
      - eapply IH; [|eassumption]. lia. }
    destruct (Gen _ _ _ _ Hk' H) as [out' [acc' Hsd]].
    pose proof (passes_bound _ _ _ _ Hp) as Hb.
    unfold search_dist in Hsd. apply collect_spec in Hsd.
    destruct Hsd as [hits [arrs [_ [F [I _]]]]].
    assert (Hin : In (Z.of_nat i) hits).
    { apply I. rewrite zrange_In. split; [lia|]. apply ray_hits_R; [lia|].
      rewrite Nat2Z.id. assumption. }
    destruct (Forall2_In_l _ _ _ _ F Hin) as [a [_ Ha]].
    exists a. destruct (interp_fields _ _ _ _ Ha) as [E1 [E2 _]].
    split; [|assumption]. exists i. tauto. }
  destruct Hw as [a [Ha Ei]]. exists a.
  apply laps_spec in H; [|assumption|intros E; apply Reqb_true in E; subst; unfold rad; field].
  destruct H as [l' [E [I _]]]. simpl in E. subst l'.
  split; [|split; [eapply arrives_dist; eassumption|assumption]].
  apply I. exists k'. split; [assumption|]. split; [assumption|].
  destruct Hs' as [->|[Hsk ->]]; [left|right]; auto.
Qed.

Lemma calcTime_once : forall fuel (ph : phase R) deg l, ph_calcTime fuel ph deg = Ok l ->
  cos (rad deg) <> 1 -> NoDup (map (fun a => (ar_index a, ar_dist a)) l).
Proof.
  intros fuel ph deg l H Hd. pose proof PI_pos as HP.
  apply calcTime_unfold in H. destruct H as [x [[Hx Cx] H]].
  pose proof (rad_bound x Hx) as Hr.
  assert (x <> 0).
  { intros ->. apply Hd. rewrite <- Cx. unfold rad. replace (0 * PI / 180) with 0 by field.
    apply cos_0. }
  apply laps_spec in H; [|assumption|intros E; apply Reqb_true in E; subst; unfold rad; field].
  destruct H as [l' [E [_ D]]]. simpl in E. subst l'. apply D.
  - unfold rad. apply Rmult_lt_0_compat; [apply Rmult_lt_0_compat; lra|lra].
  - intros E. apply Reqb_false in E. destruct Hr as [_ [Hr|Hr]]; [assumption|].
    exfalso. apply E. apply rad_inj. rewrite Hr. unfold rad. field.
Qed.

(** -- getModuloDistDeg ----------------------------------------------------------- *)

Lemma modulo_spec : forall (a : arrival R), exists x, ar_moduloDistDeg a = Ok x /\
  0 <= x <= 180 /\ cos (rad x) = cos (ar_dist a).
Proof.
  intros a. pose proof PI_pos as HP. unfold ar_moduloDistDeg.
  rewrite !n_int_R. change (@m_pi R Libm_R) with PI.
  rewrite py_div_R by lra. cbn [bind].
  change (m_mod (n_mul (180 / PI) (ar_dist a)) 360)
    with (if Reqb 360 0 then Raise ZeroDivisionError
          else Ok (180 / PI * ar_dist a - 360 * IZR (Int_part (180 / PI * ar_dist a / 360)))).
  destruct (Reqb_spec 360 0) as [F|_]; [lra|]. cbn [bind].
  set (y := 180 / PI * ar_dist a). set (k := Int_part (y / 360)).
  set (r := y - 360 * IZR k).
  destruct (base_Int_part (y / 360)) as [H1 H2]. fold k in H1, H2.
  assert (Hr : 0 <= r < 360) by (unfold r; lra).
  assert (C : cos (rad r) = cos (ar_dist a)).
  { rewrite <- (cos_shift_Z (rad r) k). f_equal. unfold rad, r, y. field. lra. }
  change (n_ltb 180 r) with (Rltb 180 r). change (n_sub 360 r) with (360 - r).
  destruct (Rltb_spec 180 r).
  - exists (360 - r). split; [reflexivity|]. split; [lra|]. rewrite rad_flip. exact C.
  - exists r. split; [reflexivity|]. split; [lra|exact C].
Qed.

(** -- interpolation ---------------------------------------------------------------- *)

Lemma interp_values : forall (ph : phase R) s i a, linearInterpArrival ph s (Z.of_nat i) = Ok a ->
  exists d0 d1 t0 t1 p0 p1,
    nth_error (ph_dist ph) i = Some d0 /\ nth_error (ph_dist ph) (S i) = Some d1 /\
    nth_error (ph_time ph) i = Some t0 /\ nth_error (ph_time ph) (S i) = Some t1 /\
    nth_error (ph_rayParams ph) i = Some p0 /\ nth_error (ph_rayParams ph) (S i) = Some p1 /\
    on_line d0 t0 d1 t1 s (ar_time a) /\ on_line d0 p0 d1 p1 s (ar_rayParam a).
Proof.
  intros ph s i a H. unfold linearInterpArrival in H.
  inv_as H as d0 H0. inv_as H as d1 H1. inv_as H as t0 H2. inv_as H as t1 H3.
  inv_as H as p0 H4. inv_as H as p1 H5. inv_as H as r H6. inv_as H as q H7.
  inv_as H as [tk ic] Hx. inversion H; subst; clear H. simpl ar_time. simpl ar_rayParam.
  apply py_index_nonneg in H0, H1, H2, H3, H4, H5; try lia.
  replace (Z.to_nat (Z.of_nat i + 1)) with (S i) in * by lia. rewrite Nat2Z.id in *.
  apply py_div_R_inv in H6, H7. destruct H6 as [D6 E6], H7 as [D7 E7]. simpl in *. subst r q.
  exists d0, d1, t0, t1, p0, p1.
  do 6 (split; [assumption|]). unfold on_line. split; split.
  - lra.
  - field. lra.
  - lra.
  - field. lra.
Qed.

Lemma on_line_between : forall x0 y0 x1 y1 s y, on_line x0 y0 x1 y1 s y -> between x0 s x1 ->
  between y0 y y1.
Proof.
  intros x0 y0 x1 y1 s y [Hd E] B.
  set (r := (s - x0) / (x1 - x0)).
  assert (Ey : y = y0 + (y1 - y0) * r).
  { unfold r. apply Rmult_eq_reg_r with (x1 - x0); [|lra].
    replace ((y0 + (y1 - y0) * ((s - x0) / (x1 - x0))) * (x1 - x0))
      with (y0 * (x1 - x0) + (y1 - y0) * (s - x0)) by (field; lra). lra. }
  assert (Hr : 0 <= r <= 1).
  { unfold r. destruct B as [B|B].
    - split; [apply Rle_mult_inv_pos; lra|].
      apply Rmult_le_reg_r with (x1 - x0); [lra|]. unfold Rdiv. rewrite Rmult_assoc, Rinv_l; lra.
    - replace ((s - x0) / (x1 - x0)) with ((x0 - s) / (x0 - x1)) by (field; lra).
      split; [apply Rle_mult_inv_pos; lra|].
      apply Rmult_le_reg_r with (x0 - x1); [lra|]. unfold Rdiv. rewrite Rmult_assoc, Rinv_l; lra. }
  unfold between. subst y. destruct (Rle_dec y0 y1).
  - left. assert (0 <= (y1 - y0) * r) by (apply Rmult_le_pos; lra).
    assert ((y1 - y0) * r <= (y1 - y0) * 1) by (apply Rmult_le_compat_l; lra). lra.
  - right. assert (0 <= (y0 - y1) * r) by (apply Rmult_le_pos; lra).
    assert ((y0 - y1) * r <= (y0 - y1) * 1) by (apply Rmult_le_compat_l; lra). lra.
Qed.

Lemma on_line_left : forall x0 y0 x1 y1 y, on_line x0 y0 x1 y1 x0 y -> y = y0.
Proof.
  intros x0 y0 x1 y1 y [Hd E]. replace (x0 - x0) with 0 in E by ring.
  apply Rmult_eq_reg_r with (x1 - x0); lra.
Qed.
Lemma on_line_right : forall x0 y0 x1 y1 y, on_line x0 y0 x1 y1 x1 y -> y = y1.
Proof.
  intros x0 y0 x1 y1 y [Hd E]. apply Rmult_eq_reg_r with (x1 - x0); lra.
Qed.

(** -- termination -------------------------------------------------------------------- *)

Lemma foldM_not_diverge : forall {X B} (f : B -> X -> result B) l b,
  (forall b x, f b x <> Diverge) -> foldM f l b <> Diverge.
Proof.
  intros X B f l. induction l as [|x l IH]; simpl; intros b H; [discriminate|].
  specialize (H b x) as Hx. destruct (f b x); simpl; [apply IH; assumption|discriminate|congruence].
Qed.

Lemma bind_not_diverge : forall {A B} (r : result A) (f : A -> result B),
  r <> Diverge -> (forall a, f a <> Diverge) -> bind r f <> Diverge.
Proof. intros A B [a|e|] f H1 H2; simpl; [apply H2|discriminate|congruence]. Qed.

Ltac nd_step :=
  match goal with
  | |- bind _ _ <> Diverge => apply bind_not_diverge
  | |- forall _, _ => intro
  | |- (if ?b then _ else _) <> Diverge => destruct b
  | |- (match ?o with _ => _ end) <> Diverge => destruct o
  | |- Ok _ <> Diverge => discriminate
  | |- Raise _ <> Diverge => discriminate
  end.
Ltac nd := repeat nd_step.

Lemma py_index_nd : forall {A} (l : list A) i, py_index l i <> Diverge.
Proof. intros. unfold py_index. cbv zeta. nd. Qed.
Lemma py_div_nd : forall {T} {N : Num T} (a b : T), py_div a b <> Diverge.
Proof. intros. unfold py_div. nd. Qed.
Lemma v_below_nd : forall {T} {N : Num T} (l : list (vlayer T)) i d, v_below_go i l d <> Diverge.
Proof. induction l; simpl; intros; nd. apply IHl. Qed.
Lemma v_above_nd : forall {T} {N : Num T} (l : list (vlayer T)) i d, v_above_go i l d <> Diverge.
Proof. induction l; simpl; intros; nd. apply IHl. Qed.
Lemma evaluateAt_nd : forall {T} {N : Num T} (l : vlayer T) d p, evaluateAt l d p <> Diverge.
Proof. intros. unfold evaluateAt. nd; apply py_div_nd. Qed.
Lemma evaluateBelow_nd : forall {T} {N : Num T} (m : vmodel T) d p, evaluateBelow m d p <> Diverge.
Proof.
  intros. unfold evaluateBelow. nd; [apply v_below_nd|apply py_index_nd|apply evaluateAt_nd].
Qed.
Lemma evaluateAbove_nd : forall {T} {N : Num T} (m : vmodel T) d p, evaluateAbove m d p <> Diverge.
Proof.
  intros. unfold evaluateAbove. nd; [apply v_above_nd|apply py_index_nd|apply evaluateAt_nd].
Qed.
Lemma str_get_nd : forall s i, str_get s i <> Diverge.
Proof. intros. unfold str_get. nd. Qed.
Lemma asin_nd : forall x : R, m_asin x <> Diverge.
Proof. intros. simpl. nd. Qed.

Lemma interp_nd : forall (ph : phase R) s i, linearInterpArrival ph s i <> Diverge.
Proof.
  intros. unfold linearInterpArrival.
  nd; try apply py_index_nd; try apply py_div_nd; try apply str_get_nd;
    try apply evaluateBelow_nd; try apply evaluateAbove_nd; try apply asin_nd.
Qed.
Lemma ray_hits_nd : forall (ph : phase R) s i, ray_hits ph s i <> Diverge.
Proof. intros. unfold ray_hits. cbv zeta. nd; apply py_index_nd. Qed.
Lemma search_dist_nd : forall (ph : phase R) s acc, search_dist ph s acc <> Diverge.
Proof.
  intros. unfold search_dist. apply foldM_not_diverge. intros.
  nd; [apply ray_hits_nd|apply interp_nd].
Qed.
Lemma lap_nd : forall (ph : phase R) x skip st, lap ph x skip st <> Diverge.
Proof.
  intros ph x skip [n acc]. rewrite lap_R. nd; apply search_dist_nd.
Qed.

Lemma laps_terminate : forall (ph : phase R) x skip m n acc fuel,
  ph_maxDist ph < s1 x (n + Z.of_nat m) -> (m < fuel)%nat ->
  while fuel (lap ph x skip) (n, acc) <> Diverge.
Proof.
  intros ph x skip. induction m as [|m IH]; intros n acc fuel H Hf;
    (destruct fuel as [|fuel]; [lia|]); cbn [while];
    destruct (lap ph x skip (n, acc)) as [[[n' acc']|b]|e|] eqn:E; cbn [bind];
    try discriminate; try (apply lap_nd in E; contradiction).
  - rewrite lap_R in E. rewrite Z.add_0_r in H.
    destruct (Rleb_spec (s1 x n) (ph_maxDist ph)); [lra|discriminate].
  - rewrite lap_R in E. destruct (Rleb_spec (s1 x n) (ph_maxDist ph)); [|discriminate].
    inv_bind E. inv_bind E. inversion E; subst. apply IH; [|lia].
    replace (n + 1 + Z.of_nat m)%Z with (n + Z.of_nat (S m))%Z by lia. assumption.
Qed.

Lemma calcTime_terminates : forall (ph : phase R) deg,
  exists f0, forall fuel, (f0 <= fuel)%nat -> ph_calcTime fuel ph deg <> Diverge.
Proof.
  intros ph deg. pose proof PI_pos as HP.
  destruct (foldDegrees_terminates deg) as [f1 H1].
  destruct (archimed (ph_maxDist ph / (2 * PI))) as [A _].
  set (u := Z.to_nat (up (ph_maxDist ph / (2 * PI)))).
  assert (Hu : forall x, 0 <= x -> ph_maxDist ph < s1 x (0 + Z.of_nat u)).
  { intros x Hx. unfold s1. rewrite Z.add_0_l.
    assert (IZR (up (ph_maxDist ph / (2 * PI))) <= IZR (Z.of_nat u)) by (apply IZR_le; unfold u; lia).
    assert (ph_maxDist ph / (2 * PI) * (2 * PI) < IZR (Z.of_nat u) * (2 * PI))
      by (apply Rmult_lt_compat_r; lra).
    replace (ph_maxDist ph / (2 * PI) * (2 * PI)) with (ph_maxDist ph) in H0 by (field; lra).
    lra. }
  exists (Nat.max f1 (S u)). intros fuel Hf. destruct (H1 fuel ltac:(lia)) as [x Hx].
  unfold ph_calcTime. rewrite Hx. cbn [bind]. rewrite ?n_int_R.
  rewrite py_div_R by lra. cbn [bind].
  apply laps_terminate with u; [|lia].
  apply Hu. apply foldDegrees_spec in Hx. destruct Hx as [Hx _].
  pose proof (rad_bound x Hx) as Hr. exact (proj1 Hr).
Qed.

(** 10^300 degrees as a double: subtracting 360 does not change it *)
Lemma wrap360_B64_diverges : forall fuel, wrap360 fuel (n_lit 1 300 : b64) = Diverge.
Proof.
  induction fuel as [|fuel IH]; [reflexivity|]. rewrite wrap360_S.
  replace (n_ltb (n_int 360) (n_lit 1 300 : b64)) with true by (vm_compute; reflexivity).
  replace (n_sub (n_lit 1 300 : b64) (n_int 360)) with (n_lit 1 300 : b64)
    by (vm_compute; reflexivity).
  exact IH.
Qed.

Lemma calcTime_B64_diverges : forall {L : Libm b64} fuel (ph : phase b64),
  ph_calcTime fuel ph (n_lit 1 300) = Diverge.
Proof.
  intros. unfold ph_calcTime, foldDegrees.
  replace (n_abs (n_lit 1 300 : b64)) with (n_lit 1 300 : b64) by (vm_compute; reflexivity).
  rewrite wrap360_B64_diverges. reflexivity.
Qed.

(** -- the two exceptional cases --------------------------------------------------------- *)

(** distance zero: a ray that has made whole laps is reported twice *)
Lemma calcTime_zero_twice : forall fuel (ph : phase R) deg l a, ph_calcTime fuel ph deg = Ok l ->
  cos (rad deg) = 1 -> In a l -> 0 < ar_dist a <= ph_maxDist ph ->
  exists l1 l2 l3, l = (l1 ++ a :: l2 ++ a :: l3)%list.
Proof.
  intros fuel ph deg l a H Hd Hin Hm. pose proof PI_pos as HP.
  pose proof (calcTime_sound _ _ _ _ _ H Hin) as [Hp [Hc Ha]].
  apply calcTime_unfold in H. destruct H as [x [Fx H]].
  assert (x = 0).
  { apply (folded_unique deg); [assumption|]. split; [lra|]. rewrite Hd.
    unfold rad. replace (0 * PI / 180) with 0 by field. apply cos_0. }
  subst x. destruct (Reqb_spec 0 180) as [F|_]; [lra|].
  replace (rad 0) with 0 in H by (unfold rad; field).
  rewrite Hd in Hc. rewrite <- cos_0 in Hc.
  destruct (cos_eq_cases _ 0 Hp ltac:(lra) Hc) as [k [Hk Es]].
  assert (G : exists k, (1 <= k)%Z /\ ar_dist a = 2 * IZR k * PI).
  { destruct Es as [Es|Es].
    - exists k. split; [|lra]. destruct (Z.eq_dec k 0); [subst; simpl in Es; lra|lia].
    - exists (k + 1)%Z. split; [lia|lra]. }
  clear k Hk Es. destruct G as [k [Hk Ek]].
  (* laps k-1 and k *)
  assert (Gen : forall fuel n acc out, (n < k)%Z ->
     while fuel (lap ph 0 false) (n, acc) = Ok out ->
     exists la lb lc, out = (la ++ a :: lb ++ a :: lc)%list).
  { clear - Hk Ek Hm Ha HP. induction fuel as [|fuel IH]; intros n acc out Hn H; [discriminate|].
    cbn [while] in H. rewrite lap_R in H.
    assert (Hmon : forall j, (j <= k)%Z -> s1 0 j <= ph_maxDist ph).
    { intros j Hj. assert (IZR j <= IZR k) by (apply IZR_le; assumption).
      assert (2 * IZR j * PI <= 2 * IZR k * PI) by (apply Rmult_le_compat_r; lra).
      unfold s1. lra. }
    destruct (Rleb_spec (s1 0 n) (ph_maxDist ph)); [|specialize (Hmon n ltac:(lia)); lra].
    inv_bind H. inv_bind Ha0. inv_bind Ha0. inversion Ha0; subst v. clear Ha0.
    destruct (Z.eq_dec (n + 1) k) as [E|E].
    - destruct fuel as [|fuel]; [discriminate|]. cbn [while] in H. rewrite lap_R in H.
      destruct (Rleb_spec (s1 0 (n + 1)) (ph_maxDist ph)); [|specialize (Hmon (n+1)%Z ltac:(lia)); lra].
      inv_bind H. inv_bind Ha0. inv_bind Ha0. inversion Ha0; subst v. clear Ha0.
      apply search_dist_R in Ha0a0. destruct Ha0a0 as [m2 [E2 [_ I2]]].
      apply search_dist_R in Ha0a1. destruct Ha0a1 as [m3 [E3 [_ I3]]].
      apply search_dist_R in Ha0a2. destruct Ha0a2 as [m4 [E4 [_ I4]]].
      assert (In a m2) by (apply I2; replace (s2 0 n) with (ar_dist a); [assumption|]; unfold s2; rewrite E; lra).
      assert (In a m3) by (apply I3; replace (s1 0 (n + 1)) with (ar_dist a); [assumption|]; unfold s1; rewrite E; lra).
      assert (Hpre : exists tail, out = (v3 ++ tail)%list).
      { clear - H HP. assert (Q : forall fuel n acc out, while fuel (lap ph 0 false) (n, acc) = Ok out ->
            exists tail, out = (acc ++ tail)%list).
        { induction fuel0 as [|f IH]; intros; [discriminate|]. apply laps_spec in H0; [|lra|discriminate].
          destruct H0 as [t [Et _]]. eauto. }
        eauto. }
      destruct Hpre as [tail Et]. subst.
      apply in_split in H0, H1. destruct H0 as [u1 [u2 U]], H1 as [u3 [u4 U']]. subst.
      exists (v0 ++ u1)%list, (u2 ++ u3)%list, (u4 ++ m4 ++ tail)%list.
      repeat (rewrite <- app_assoc; simpl). reflexivity.
    - eapply IH; [|eassumption]. lia. }
  eapply Gen; [|eassumption]. lia.
Qed.

(** the last two samples at the same distance: ZeroDivisionError if that distance is hit *)
Lemma flat_end_raises : forall (ph : phase R) i s,
  passes (ph_dist ph) (ph_rayParams ph) i s ->
  nth_error (ph_dist ph) i = nth_error (ph_dist ph) (S i) ->
  List.length (ph_time ph) = List.length (ph_dist ph) ->
  linearInterpArrival ph s (Z.of_nat i) = Raise ZeroDivisionError.
Proof.
  intros ph i s Hp E Hl. pose proof (passes_bound _ _ _ _ Hp) as Hb.
  destruct Hp as [d0 [d1 [p0 [p1 [H0 [H1 [P0 [P1 _]]]]]]]].
  unfold linearInterpArrival.
  replace (Z.of_nat i + 1)%Z with (Z.of_nat (S i)) by lia. rewrite !py_index_nat.
  rewrite P0, P1, H0, H1.
  destruct (nth_error (ph_time ph) i) as [t0|] eqn:T0;
    [|apply nth_error_None in T0; lia].
  destruct (nth_error (ph_time ph) (S i)) as [t1|] eqn:T1;
    [|apply nth_error_None in T1; lia].
  cbn [bind]. assert (d0 = d1) by congruence. subst d1.
  replace (n_sub d0 d0) with 0 by (simpl; ring). rewrite py_div_R_0. reflexivity.
Qed.

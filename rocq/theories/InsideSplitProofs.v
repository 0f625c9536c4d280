(** Proofs for C57: splitting at a depth inside layers cuts them in pieces. *)
From Coq Require Import ZArith Bool List String Reals Lia Lra Psatz.
From Verif Require Import Base Num PyStr VelocityModel VelSpec VelProofs SlownessLayer SlownessModel
  SlowSpec SlowProofs SlowAddProofs SlowBuildProofs CritSpec CritProofs SlowRealProofs SampleProofs StackSpec StackProofs
  SplitSpec SplitProofs SplitMoreProofs TauModel TauSpec TauProofs PathSpec PathLegProofs MonoSpec LimitSpec LimitProofs
  BullenSpec BullenProofs BullenProps ShellProps ErrSpec ErrProofs SourceSpec SourceProofs InsideSpec InsideProofs InsideRayProofs.
Import ListNotations.
Local Open Scope list_scope.
Local Open Scope R_scope.

Definition solid (rad : R) (y : slayer R) : Prop :=
  BullenSpec.thick y rad /\ slow_pos y /\ sl_topP y <> sl_botP y /\ 0 <= sl_topDepth y.

Lemma spans_R : forall (y : slayer R) p, spans y p <-> strictly_between (sl_topP y) (sl_botP y) p.
Proof.
  intros y p. unfold spans, strictly_between. cbn [n_ltb n_sub n_mul Num_R]. rewrite n_0_R. change (Rltb 0 ((sl_topP y - p) * (p - sl_botP y)) = true)
    with (n_ltb 0 ((sl_topP y - p) * (p - sl_botP y)) = true). rewrite Rltb_lt. split.
  - intros H. destruct (Rtotal_order p (sl_topP y)) as [X|[X|X]].
    + right. split; [|exact X]. apply Rnot_le_lt. intros Y. assert (0 <= (sl_topP y - p) * (sl_botP y - p)) by (apply Rmult_le_pos; lra). lra.
    + rewrite X in H. lra.
    + left. split; [exact X|]. apply Rnot_le_lt. intros Y. assert (0 <= (p - sl_topP y) * (p - sl_botP y)) by (apply Rmult_le_pos; lra). lra.
  - intros [H|H]; nra.
Qed.
Lemma same_spans : forall (y z : slayer R) p, same y z -> spans z p -> spans y p.
Proof. intros y z p [E1 [_ [E2 _]]] H. unfold spans in *. rewrite E1, E2. exact H. Qed.
Lemma same_sym : forall y z : slayer R, same y z -> same z y.
Proof. intros y z [A [B [C D]]]. repeat split; congruence. Qed.
Lemma same_solid : forall rad y z, same y z -> solid rad y -> solid rad z.
Proof.
  intros rad y z [E1 [E2 [E3 E4]]] [[K1 [K2 K3]] [[P1 P2] [Ne T]]]. unfold solid, BullenSpec.thick, slow_pos.
  rewrite <- E1, <- E2, <- E3, <- E4. auto 10.
Qed.
Lemma same_evaluate : forall (y z : slayer R) d rad, same y z -> evaluateAtBullen y d rad = evaluateAtBullen z d rad.
Proof. intros y z d rad [E1 [E2 [E3 E4]]]. unfold evaluateAtBullen. rewrite E1, E2, E3, E4. reflexivity. Qed.

(** a layer cut where it has the slowness *)
Lemma law_cut : forall rad y a b x p, solid rad y -> sl_topDepth y < x < sl_botDepth y -> evaluateAtBullen y x rad = Ok p ->
  halves p y a b -> sl_botDepth a = x -> pieces rad y [a; b] /\ spans y p /\ fat a /\ fat b.
Proof.
  intros rad y a b x p [Hk [Hs [Ne _]]] Hx Ev [H1 [H2 [H3 [H4 [H5 [H6 H7]]]]]] Hb.
  destruct (thick_exists _ _ Hk Hs) as [A [B HP]].
  rewrite (evaluate_run _ _ _ _ _ Hk Hs HP) in Ev by lra. inversion Ev as [Ep]. clear Ev.
  assert (Fa : fat a) by (unfold fat; lra). assert (Fb : fat b) by (unfold fat; lra).
  split; [split|split; [|auto]].
  - rewrite <- H1, <- H2, <- H6, <- H7. constructor. rewrite H3, <- H4, H5. constructor.
  - right. split; [apply Hk|]. intros z Hz.
    assert (Q : forall A B, power_law y rad A B -> power_law a rad A B /\ power_law b rad A B).
    { intros A' B' HP'. destruct (power_law_unique _ _ _ _ _ _ Hk Hs HP HP') as [-> ->]. destruct HP as [E1 E2].
      unfold power_law. rewrite H1, H2, H3, H4, H6, H7, <- H5, Hb, <- Ep. unfold ys. auto. }
    destruct Hz as [<-|[<-|[]]]; (split; [assumption|]; intros A' B' HP'; apply (Q A' B' HP')).
  - apply spans_R. apply (power_inside _ _ _ _ _ Hk Hs HP Ne). lra.
Qed.
Lemma refines_cut : forall rad l1 y l2 l1' a b l2', Forall2 same l1 l1' -> Forall2 same l2 l2' -> pieces rad y [a; b] ->
  refines rad (l1 ++ y :: l2) (l1' ++ a :: b :: l2').
Proof.
  intros rad l1 y l2 l1' a b l2' F1 F2 P. apply refines_app; [apply refines_refl; exact F1|].
  change (a :: b :: l2') with ([a; b] ++ l2'). constructor; [exact P|]. apply refines_refl. exact F2.
Qed.
(** where the layers of a cut list come from *)
Lemma cut_from : forall (l1 : list (slayer R)) y l2 l1' a b l2' j z, Forall2 same l1 l1' -> Forall2 same l2 l2' ->
  nth_error (l1' ++ a :: b :: l2') j = Some z ->
  z = a \/ z = b \/ exists i u, nth_error (l1 ++ y :: l2) i = Some u /\ same u z /\ i <> List.length l1 /\
    j = (if Nat.ltb i (List.length l1) then i else S i).
Proof.
  intros l1 y l2 l1' a b l2' j z F1 F2 Hj.
  assert (G : forall l l' i v, Forall2 same l l' -> nth_error l' i = Some v -> exists u : slayer R, nth_error l i = Some u /\ same u v).
  { clear. intros l l' i v F. revert i. induction F as [|q s l l' Hq F IH]; intros [|i] Hi; try discriminate; [|apply IH; exact Hi].
    exists q. cbn in Hi. inversion Hi; subst. auto. }
  assert (Le : List.length l1 = List.length l1') by (clear - F1; induction F1; cbn [List.length]; congruence).
  destruct (Nat.lt_ge_cases j (List.length l1')) as [X|X].
  - rewrite nth_error_app1 in Hj by assumption. destruct (G _ _ _ _ F1 Hj) as [u [Hu Su]]. right. right. exists j, u.
    split; [rewrite nth_error_app1 by lia; exact Hu|]. split; [exact Su|]. split; [lia|]. destruct (Nat.ltb_spec j (List.length l1)); lia.
  - rewrite nth_error_app2 in Hj by assumption. destruct (j - List.length l1')%nat as [|[|n]] eqn:E; cbn [nth_error] in Hj.
    + left. congruence.
    + right. left. congruence.
    + destruct (G _ _ _ _ F2 Hj) as [u [Hu Su]]. right. right. exists (S (List.length l1 + n)), u.
      split; [rewrite nth_error_app2 by lia; replace (S (List.length l1 + n) - List.length l1)%nat with (S n) by lia; exact Hu|].
      split; [exact Su|]. split; [lia|]. destruct (Nat.ltb_spec (S (List.length l1 + n)) (List.length l1)); lia.
Qed.
(** at most one layer contains a depth *)
Lemma inside_u : forall (ls : list (slayer R)) x i j y z, s_meet ls -> s_upright ls -> nth_error ls i = Some y -> nth_error ls j = Some z ->
  sl_topDepth y < x < sl_botDepth y -> sl_topDepth z <= x <= sl_botDepth z -> i = j.
Proof.
  intros ls x i j y z Hm Hu Hy Hz X Y. destruct (Nat.lt_trichotomy i j) as [L|[L|L]]; [exfalso|exact L|exfalso].
  - pose proof (srt ls Hm Hu i j y z L Hy Hz). lra.
  - pose proof (srt ls Hm Hu j i z y L Hz Hy). lra.
Qed.
Lemma inside_in : forall (ls : list (slayer R)) x y z, s_meet ls -> s_upright ls -> In y ls -> In z ls ->
  sl_topDepth y < x < sl_botDepth y -> sl_topDepth z <= x <= sl_botDepth z -> y = z.
Proof.
  intros ls x y z Hm Hu Hy Hz X Y. apply In_nth_error in Hy, Hz. destruct Hy as [i Hi], Hz as [j Hj].
  assert (i = j) by (eapply inside_u; eassumption). subst j. congruence.
Qed.
Lemma sampled_not_inside : forall (ls : list (slayer R)) x y, s_meet ls -> s_upright ls -> sampled_at ls x -> In y ls ->
  ~ sl_topDepth y < x < sl_botDepth y.
Proof.
  intros ls x y Hm Hu [k [u [v [Hk [_ [Fu [_ [Eu _]]]]]]]] Hy X. apply nth_error_In in Hk. unfold fat in Fu.
  assert (y = u) by (eapply inside_in; [exact Hm|exact Hu|exact Hy|exact Hk|exact X|lra]). subst u. lra.
Qed.

(** identities of the layers after a cut *)
Lemma fresh_ids : forall (l : list (slayer R)) n z, In z (fresh_copy n l) -> (n <= sl_id z < n + Z.of_nat (List.length l))%Z.
Proof.
  induction l as [|y l IH]; intros n z H; cbn [fresh_copy] in H; [destruct H|]. cbn [List.length]. destruct H as [<-|H]; [cbn [sl_id]; lia|].
  apply IH in H. lia.
Qed.
Lemma other_ids : forall rad p w (es : list (Z * slayer R)) out crit next out' crit' next',
  foldM (fixOther_step rad p w) es (out, crit, next) = Ok (out', crit', next') ->
  (next <= next')%Z /\ forall z, In z out' -> In z out \/ (next <= sl_id z)%Z.
Proof.
  intros rad p w es. induction es as [|[n y] es IH]; intros out crit next out' crit' next' H; cbn [foldM] in H.
  - inversion H; subst. split; [lia|auto].
  - inv_as H as [[o c] nx] Hs. apply IH in H. destruct H as [H1 H2]. unfold fixOther_step in Hs. if_in Hs; [|inversion Hs; subst; auto].
    inv_as Hs as d Hd. inv_as Hs as top Ht. inv_as Hs as bot Hb. inversion Hs; subst o c nx. clear Hs.
    apply new_slayer_eq in Ht, Hb. split; [lia|]. intros z Hz. destruct (H2 z Hz) as [Hz'|Hz']; [|right; lia].
    apply In_split_at in Hz'. destruct Hz' as [->|[->|[j [_ Hj]]]]; [subst; right; cbn; lia|subst; right; cbn; lia|].
    left. eapply nth_error_In. exact Hj.
Qed.
Lemma split_ids : forall fuel (m : smodel R) x w m' info, splitLayer fuel m x w = Ok (m', info) -> si_needed info = true ->
  forall u z, In u (sm_layers (si_sMod info) (negb w)) -> In z (sm_layers (si_sMod info) w) -> sl_id u = sl_id z ->
  sl_botDepth u = x \/ sl_topDepth u = x.
Proof.
  intros fuel m x w m' info H Hn u z Hu Hz E. unfold splitLayer in H. inv_as H as n Hnum. inv_as H as y Hy.
  if_in H; [inversion H; subst; discriminate|].
  if_in H.
  { inv_as H as l1 H1. inv_as H as out1 H2. inv_as H as z1 H3. inv_as H as l2 H4. inv_as H as out2 H5. inversion H; subst. discriminate. }
  if_in H.
  { inv_as H as l1 H1. inv_as H as out1 H2. inv_as H as z1 H3. inv_as H as l2 H4. inv_as H as out2 H5. inversion H; subst. discriminate. }
  inv_as H as p Hp. inv_as H as top Htop. inv_as H as bot Hbot. inv_as H as [[other crit'] next'] Ho. 
  assert (E1 : sm_layers (si_sMod info) w = list_split_at (fresh_copy (sm_next m) (sm_layers m w)) (Z.to_nat n) top bot)
    by (inversion H; subst; destruct w; reflexivity).
  assert (E2 : sm_layers (si_sMod info) (negb w) = other) by (inversion H; subst; destruct w; reflexivity).
  rewrite E1 in Hz. rewrite E2 in Hu. clear E1 E2 H. unfold fixOtherLayers in Ho. apply other_ids in Ho. destruct Ho as [_ Ho].
  apply new_slayer_eq in Htop, Hbot.
  set (len := Z.of_nat (List.length (sm_layers m w))) in *.
  assert (Zi : (sl_id z < sm_next m + len + 2)%Z).
  { apply In_split_at in Hz. destruct Hz as [->|[->|[j [_ Hj]]]]; [subst top; cbn; lia|subst bot; cbn; lia|].
    apply nth_error_In, fresh_ids in Hj. fold len in Hj. lia. }
  assert (Q : In u (fresh_copy (sm_next m + len + 2) (sm_layers m (negb w))) -> False).
  { intros Q. apply fresh_ids in Q. lia. }
  destruct (Ho u Hu) as [Hu'|Hu']; [|lia].
  destruct (index_of_id (sl_id y) (sm_layers m (negb w))) as [i|]; [|contradiction].
  apply In_split_at in Hu'. destruct Hu' as [->|[->|[j [_ Hj]]]]; [left; subst top; reflexivity|right; subst bot; reflexivity|].
  exfalso. apply Q. eapply nth_error_In. exact Hj.
Qed.

Lemma negb_of : forall a b : bool, a <> b -> a = negb b.
Proof. intros [] [] Hne; try reflexivity; exfalso; apply Hne; reflexivity. Qed.

(** ** one split *)
Definition one_cut (m : smodel R) (w : bool) (x : R) : Prop := forall p, slowness_inside m w x p ->
  spans_once (sm_layers m (negb w)) p /\
  forall v, In v (sm_layers m (negb w)) -> spans v p ->
    solid (sm_radius m) v /\ (sl_topDepth v < x < sl_botDepth v -> evaluateAtBullen v x (sm_radius m) = Ok p).
Definition kept_inside (m m2 : smodel R) (w : bool) (x : R) : Prop :=
  sampled_at (sm_layers m2 w) x \/
  exists v v', In v (sm_layers m w) /\ In v' (sm_layers m2 w) /\ same v v' /\ well_inside v x /\ sl_botDepth v < sm_radius m.
Definition cut_at (m m2 : smodel R) (w : bool) (x p : R) : Prop :=
  exists l1 y l2 l1' a b l2', sm_layers m w = l1 ++ y :: l2 /\ sm_layers m2 w = l1' ++ a :: b :: l2' /\
    Forall2 same l1 l1' /\ Forall2 same l2 l2' /\ halves p y a b /\ sl_botDepth a = x /\ well_inside y x /\
    evaluateAtBullen y x (sm_radius m) = Ok p /\ solid (sm_radius m) y.

Section Step.
  Variables (fuel : nat) (m : smodel R) (x : R) (w : bool) (m' : smodel R) (info : @splitinfo R).
  Let rad := sm_radius m.
  Hypothesis G : forall v, s_meet (sm_layers m v) /\ s_upright (sm_layers m v).
  Hypothesis Go : forall y, In y (sm_layers m w) -> well_inside y x -> solid rad y.
  Hypothesis Sh : forall u z, In u (sm_layers m w) -> sl_topDepth u < x < sl_botDepth u -> In z (sm_layers m (negb w)) -> sl_id u = sl_id z -> u = z.
  Hypothesis Sp : forall v, source_place m v x.
  Hypothesis Sc : one_cut m w x.
  Hypothesis H : splitLayer fuel m x w = Ok (m', info).

  Lemma forall2_in : forall (l l' : list (slayer R)) i u, Forall2 same l l' -> nth_error l i = Some u -> exists u', nth_error l' i = Some u' /\ same u u'.
  Proof.
    intros l l' i u F. revert i. induction F as [|q s l l' Hq F IH]; intros [|i] Hi; try discriminate; [|apply IH; exact Hi].
    exists s. cbn in Hi. inversion Hi; subst. auto.
  Qed.
  Lemma well_strict : forall (y : slayer R), well_inside y x -> sl_topDepth y < x < sl_botDepth y.
  Proof. intros y [A B]. lra. Qed.
  Lemma lit_mm : @n_lit R Num_R 1 (-6) = / 1000000.
  Proof. change (@n_lit R Num_R) with Rlit; unfold Rlit, powerRZ; simpl; lra. Qed.
  Lemma close_R : forall a b : R, close a b -> Rabs (a - b) < / 1000000.
  Proof.
    intros a b Hc. unfold close in Hc. rewrite lit_mm in Hc. apply Rltb_lt in Hc. exact Hc.
  Qed.

  Lemma step : (si_sMod info = m /\ si_needed info = false /\ sampled_at (sm_layers m w) x) \/
    (si_needed info = true /\ si_moved info = false /\ same_rest m (si_sMod info) /\
     (forall v, refines rad (sm_layers m v) (sm_layers (si_sMod info) v)) /\
     sampled_at (sm_layers (si_sMod info) w) x /\ kept_inside m (si_sMod info) (negb w) x /\
     cut_at m (si_sMod info) w x (si_rayParam info)).
  Proof.
    destruct (splitLayer_cases _ _ _ _ _ _ (proj1 (G w)) (proj2 (G w)) (R_ok _) H) as [k [y [Hs [Hy C]]]].
    destruct (Sp w) as [Sa|[y0 [Iy [Wy By]]]].
    { left. pose proof Sa as [k0 [y0 [z0 [Hy0 [Hz0 [Fy [Fz [Ey Ez]]]]]]]].
      assert (k = k0) by (eapply (shallow_u m w); [exact Hs|eapply k_shallow; [apply G|apply G|exact Hy0|exact Fy|exact Ey]]). subst k0.
      assert (y0 = y) by congruence. subst y0.
      destruct C as [[_ [-> ->]]|[[C _]|[C _]]]; [auto|exfalso; apply C; right; apply Reqb_eq; exact Ey..]. }
    right. pose proof (well_strict _ Wy) as Xy.
    assert (y0 = y).
    { apply In_nth_error in Iy. destruct Iy as [i Hi]. pose proof Hs as [[u [Hu [U1 U2]]] _]. apply Rleb_le in U1, U2.
      assert (i = k) by (eapply inside_u; [apply (G w)|apply (G w)|exact Hi|exact Hu|exact Xy|lra]). subst i. congruence. }
    subst y0. destruct C as [[C _]|[[_ [C _]]|C]].
    { exfalso. destruct C as [C|C]; apply Reqb_eq in C; lra. }
    { exfalso. destruct Wy as [W1 W2]. destruct C as [C|C]; apply close_R in C; rewrite Rabs_left in C; lra. }
    destruct C as [_ [_ [_ [_ [N1 [N2 [Sr [Ev [Cu [top [bot [out [Hh [Hb [Hout Hf]]]]]]]]]]]]]]].
    destruct Hf as [crit [crit' [next [next' Hf]]]]. set (p := si_rayParam info) in *. set (m2 := si_sMod info) in *.
    pose proof (Go y Iy Wy) as So. destruct (law_cut _ _ _ _ _ _ So Xy Ev Hh Hb) as [Py [Spy [Ft Fb]]].
    destruct Cu as [l1 [y1 [l2 [l1' [a [b [l2' [E1 [E2 [E3 [F1 [F2 [Hh' Hb']]]]]]]]]]]]].
    assert (y1 = y). { rewrite E1, nth_error_app2 in Hy by lia. replace (k - List.length l1)%nat with 0%nat in Hy by lia. cbn in Hy. congruence. }
    subst y1. destruct (law_cut _ _ _ _ _ _ So Xy Ev Hh' Hb') as [Py' [_ [Fa' Fb']]].
    assert (Ca : cut_at m m2 w x p) by (exists l1, y, l2, l1', a, b, l2'; auto 12).
    assert (Rw : refines rad (sm_layers m w) (sm_layers m2 w)) by (rewrite E1, E3; apply refines_cut; assumption).
    assert (Mid : forall (q : list (slayer R)) u v q', fat u -> fat v -> sl_botDepth u = x -> sl_topDepth v = x -> sampled_at (q ++ u :: v :: q') x).
    { clear. intros q u v q' A B C D. exists (List.length q), u, v. split; [rewrite nth_error_app2, Nat.sub_diag by lia; reflexivity|].
      split; [rewrite nth_error_app2 by lia; replace (S (List.length q) - List.length q)%nat with 1%nat by lia; reflexivity|]. auto. }
    assert (Sw : sampled_at (sm_layers m2 w) x).
    { rewrite E3. destruct Hh' as [_ [_ [_ [_ [H5 _]]]]]. apply Mid; [assumption..|congruence]. }
    destruct (Sc p) as [On Cn]; [exists y; auto|].
    set (ol := sm_layers m (negb w)) in *. set (n := (sm_next m + Z.of_nat (List.length (sm_layers m w)) + 2)%Z) in *.
    assert (Q : refines rad ol (sm_layers m2 (negb w)) /\ kept_inside m m2 (negb w) x).
    2:{ destruct Q as [Q1 Q2]. split; [exact N1|]. split; [exact N2|]. split; [exact Sr|]. split; [|auto].
        intros v. destruct (Bool.bool_dec v w) as [->|Ne]; [exact Rw|]. rewrite (negb_of v w Ne). exact Q1. }
    destruct (existsb (fun z => (sl_id z =? sl_id y)%Z) ol) eqn:Ex.
    - destruct Hout as [i [z [Hi [Ez ->]]]].
      assert (y = z) by (apply Sh; [exact Iy|exact Xy|eapply nth_error_In; exact Hi|congruence]). subst z.
      destruct (nth_split2 ol i y Hi) as [o1 [o2 [Eo Lo]]].
      assert (Es : list_split_at (fresh_copy n ol) i top bot = fresh_copy n o1 ++ top :: bot :: fresh_copy (n + Z.of_nat (List.length o1) + 1) o2).
      { rewrite Eo, fresh_app. cbn [fresh_copy]. rewrite <- Lo, <- (fresh_length o1 n). rewrite split_at_app. rewrite fresh_length. reflexivity. }
      rewrite Es in Hf.
      apply other_none in Hf.
      + inversion Hf as [[Eq1 Eq2 Eq3]]. change (sm_layers (si_sMod info) (negb w)) with (sm_layers m2 (negb w)) in Eq1. rewrite Eq1, Eo. split.
        * apply refines_cut; [apply fresh_same|apply fresh_same|exact Py].
        * left. rewrite Eq1. destruct Hh as [_ [_ [_ [_ [H5 _]]]]]. apply Mid; [assumption..|congruence].
      + intros j z Hz Hsp. apply In_enumerate, In_nth_error in Hz. destruct Hz as [j' Hj']. destruct (bottom_not_spans _ _ _ _ Hh) as [B1 B2].
        destruct (cut_from o1 y o2 _ top bot _ j' z (fresh_same o1 n) (fresh_same o2 _) Hj') as [->|[->|[i' [u [Hi' [Su [Ne _]]]]]]]; [contradiction..|].
        apply Ne. rewrite Lo. rewrite <- Eo in Hi'. eapply On; [exact Hi'|exact Hi|eapply same_spans; eassumption|exact Spy].
    - subst out. pose proof (fresh_same ol n) as Fs. pose proof (refines_refl rad ol (fresh_copy n ol) Fs) as Rf.
      assert (Gu : forall u, In u ol -> sl_topDepth u <= sl_botDepth u) by (intros u Iu; apply Rleb_le; apply (G (negb w)); exact Iu).
      apply other_fold in Hf.
      2:{ intros i j u v Hu' Hv Su Sv. apply fresh_nth in Hu'. apply fresh_nth in Hv. destruct Hu' as [u0 [Hu0 Eu]], Hv as [v0 [Hv0 Ev0]].
          eapply On; [exact Hu0|exact Hv0|eapply same_spans; eassumption|eapply same_spans; eassumption]. }
      change (sm_layers (si_sMod info) (negb w)) with (sm_layers m2 (negb w)) in Hf.
      destruct Hf as [[_ Eo]|[k' [v' [a' [b' [Hk' [Sv' [Hv [_ [Bd Eo]]]]]]]]]].
      + unfold kept_inside. rewrite Eo. split; [exact Rf|]. destruct (Sp (negb w)) as [Sa|[v [Iv [Wv Bv]]]].
        * left. exact (rf_sampled _ _ _ Rf _ Sa).
        * right. fold ol in Iv. apply In_nth_error in Iv as Hi. destruct Hi as [i Hi]. destruct (forall2_in _ _ _ _ Fs Hi) as [v' [Hv' Sv]].
          exists v, v'. split; [exact Iv|]. split; [eapply nth_error_In; exact Hv'|]. auto.
      + destruct (fresh_nth _ _ _ _ Hk') as [v [Hvk Svv]]. pose proof (same_spans _ _ _ Svv Sv') as Sv.
        destruct (Cn v (nth_error_In _ _ Hvk) Sv) as [Sov Cnv]. pose proof (same_solid _ _ _ Svv Sov) as Sov'. pose proof Sov' as [K [Ps [Ne T0]]].
        destruct (BullenProps.C18_inverse v' rad K Ps T0) as [I1 _]. apply spans_R in Sv' as Sb.
        destruct (I1 p Sb) as [d [D1 [D2 D3]]]. fold rad in Bd. assert (sl_botDepth a' = d) by congruence.
        destruct (law_cut _ _ _ _ _ _ Sov' D2 D3 Hv ltac:(assumption)) as [Pv [_ [Fa2 Fb2]]].
        destruct (nth_split2 _ _ _ Hk') as [o1 [o2 [E4 E5]]].
        assert (R2 : refines rad (fresh_copy n ol) (sm_layers m2 (negb w))).
        { rewrite Eo, E4, <- E5, split_at_app. apply refines_cut; [clear; induction o1; constructor; [apply same_refl|assumption]| |exact Pv].
          clear; induction o2; constructor; [apply same_refl|assumption]. }
        assert (R3 : refines rad ol (sm_layers m2 (negb w))) by (eapply refines_trans; eassumption).
        split; [exact R3|]. destruct (Sp (negb w)) as [Sa|[u [Iu [Wu Bu]]]].
        * left. exact (rf_sampled _ _ _ R3 _ Sa).
        * fold ol in Iu. apply In_nth_error in Iu as Hi. destruct Hi as [i Hi]. destruct (forall2_in _ _ _ _ Fs Hi) as [u' [Hu' Su]].
          destruct (Nat.eq_dec i k') as [->|Nk].
          { left. assert (u = v) by congruence. subst u. pose proof (well_strict _ Wu) as Xu. pose proof (Cnv Xu) as Ex'.
            rewrite (same_evaluate _ _ _ _ Svv) in Ex'. destruct Svv as [_ [V1 [_ V2]]].
            destruct (BullenProps.C18_inverse v' rad K Ps T0) as [_ [I2 _]].
            destruct (I2 x Ne ltac:(lra)) as [p' [P1 [_ P2]]]. fold rad in Ex'. assert (p' = p) by congruence. subst p'.
            assert (d = x) by congruence. subst d. rewrite Eo, E4, <- E5, split_at_app. destruct Hv as [_ [_ [_ [_ [H5 _]]]]].
            apply Mid; [assumption..|congruence]. }
          right. exists u, u'. split; [exact Iu|]. split; [|auto].
          rewrite Eo, E4, <- E5, split_at_app. rewrite E4 in Hu'.
          destruct (Nat.lt_ge_cases i (List.length o1)) as [X|X].
          -- rewrite nth_error_app1 in Hu' by exact X. apply in_or_app. left. eapply nth_error_In. exact Hu'.
          -- rewrite nth_error_app2 in Hu' by exact X. destruct (i - List.length o1)%nat as [|q] eqn:Eq; [lia|]. cbn [nth_error] in Hu'.
             apply in_or_app. right. right. right. eapply nth_error_In. exact Hu'.
  Qed.
End Step.

(** ** both splits *)
Section Two.
  Variables (fuel : nat) (m : smodel R) (x : R) (mS : smodel R) (iS : @splitinfo R).
  Let rad := sm_radius m.
  Hypothesis G : forall v, s_meet (sm_layers m v) /\ s_upright (sm_layers m v).
  Hypothesis Ok0 : forall v y, In y (sm_layers m v) -> lay_ok rad y /\ 0 <= sl_topDepth y.
  Hypothesis Id : ids_ok m.
  Hypothesis Sp : forall v, source_place m v x.
  Hypothesis Sc : forall v, single_cut m v x.
  Hypothesis H1 : splitLayer fuel m x false = Ok (mS, iS).

  Lemma ok_solid : forall v y, In y (sm_layers m v) -> fat y -> sl_botDepth y < rad -> solid rad y.
  Proof.
    intros v y Hy Fy By. unfold fat in Fy. destruct (Ok0 v y Hy) as [[E|[[A [B C]]|E]] T]; [lra|split; auto|lra].
  Qed.
  Lemma in_solid : forall v y, In y (sm_layers m v) -> well_inside y x -> solid rad y.
  Proof.
    intros v y Hy Wy. pose proof (well_strict x y Wy) as X. destruct (Sp v) as [Sa|[z [Hz [Wz Bz]]]].
    - exfalso. eapply (sampled_not_inside (sm_layers m v)); [apply G|apply G|exact Sa|exact Hy|exact X].
    - pose proof (well_strict x z Wz) as Xz.
      assert (y = z) by (eapply (inside_in (sm_layers m v)); [apply G|apply G|exact Hy|exact Hz|exact X|lra]). subst z.
      apply (ok_solid v); [exact Hy|unfold fat; lra|exact Bz].
  Qed.
  Lemma cut_of : forall v, one_cut m v x.
  Proof.
    intros v p Hp. destruct (Sc v p Hp) as [A B]. split; [exact A|]. intros u Hu Su. destruct (B u Hu Su) as [Fu [Bu C]].
    split; [eapply ok_solid; eassumption|exact C].
  Qed.
  Lemma shared_same : forall w u z, In u (sm_layers m w) -> sl_topDepth u < x < sl_botDepth u -> In z (sm_layers m (negb w)) -> sl_id u = sl_id z -> u = z.
  Proof.
    intros w u z Hu _ Hz E. destruct Id as [_ [_ [_ F]]]. destruct w; cbn [sm_layers negb] in Hu, Hz; [apply F; assumption|].
    symmetry. apply F; congruence.
  Qed.

  Definition fine (m2 : smodel R) : Prop :=
    sm_radius m2 = sm_radius m /\ sm_tolerance m2 = sm_tolerance m /\ sm_hiP m2 = sm_hiP m /\ sm_hiS m2 = sm_hiS m /\
    (forall v, refines rad (sm_layers m v) (sm_layers m2 v)).

  (** after the first split the second one finds the layers as it needs them *)
  Definition second (m1 : smodel R) : Prop :=
    sm_radius m1 = sm_radius m /\ (forall v, s_meet (sm_layers m1 v) /\ s_upright (sm_layers m1 v)) /\
    (forall y, In y (sm_layers m1 true) -> well_inside y x -> solid (sm_radius m1) y) /\
    (forall u z, In u (sm_layers m1 true) -> sl_topDepth u < x < sl_botDepth u -> In z (sm_layers m1 (negb true)) -> sl_id u = sl_id z -> u = z) /\
    (forall v, source_place m1 v x) /\ one_cut m1 true x.
  Lemma second_same : second m.
  Proof. split; [reflexivity|]. split; [exact G|]. split; [exact (in_solid true)|]. split; [exact (shared_same true)|]. split; [exact Sp|exact (cut_of true)]. Qed.
  Lemma second_cut : si_needed iS = true -> same_rest m (si_sMod iS) -> (forall v, refines rad (sm_layers m v) (sm_layers (si_sMod iS) v)) ->
    sampled_at (sm_layers (si_sMod iS) false) x -> kept_inside m (si_sMod iS) true x -> cut_at m (si_sMod iS) false x (si_rayParam iS) ->
    second (si_sMod iS).
  Proof.
    intros N1 Sr Rf Sa Ki Cu. set (m1 := si_sMod iS) in *. destruct Sr as [_ [_ [_ [_ [_ [_ [_ [S1 [S2 [S3 [S4 _]]]]]]]]]]].
    assert (G1 : forall v, s_meet (sm_layers m1 v) /\ s_upright (sm_layers m1 v)).
    { intros v. split; [eapply rf_meet; [apply Rf|apply G]|eapply rf_upright; [apply Rf|apply G]]. }
    assert (Or : forall u, In u (sm_layers m1 true) -> sl_topDepth u < x < sl_botDepth u -> exists v, In v (sm_layers m true) /\ same v u /\ well_inside v x).
    { intros u Hu Xu. destruct Ki as [Sb|[v [v' [Iv [Iv' [Sv [Wv Bv]]]]]]].
      - exfalso. eapply (sampled_not_inside (sm_layers m1 true)); [apply G1|apply G1|exact Sb|exact Hu|exact Xu].
      - exists v. split; [exact Iv|]. split; [|exact Wv]. replace u with v'; [exact Sv|]. pose proof (well_strict x v Wv) as Xv. destruct Sv as [_ [T1 [_ T2]]].
        symmetry. eapply (inside_in (sm_layers m1 true)); [apply G1|apply G1|exact Hu|exact Iv'|exact Xu|lra]. }
    assert (Go1 : forall y, In y (sm_layers m1 true) -> well_inside y x -> solid (sm_radius m1) y).
    { intros y Hy Wy. destruct (Or y Hy (well_strict x y Wy)) as [v [Iv [Sv Wv]]]. rewrite S2. eapply same_solid; [exact Sv|]. eapply in_solid; eassumption. }
    assert (Sh1 : forall u z, In u (sm_layers m1 true) -> sl_topDepth u < x < sl_botDepth u -> In z (sm_layers m1 (negb true)) -> sl_id u = sl_id z -> u = z).
    { intros u z Hu Xu Hz E. exfalso. destruct (split_ids _ _ _ _ _ _ H1 N1 u z Hu Hz E); lra. }
    assert (Sp1 : forall v, source_place m1 v x).
    { intros []; [|left; exact Sa]. destruct Ki as [Sb|[v [v' [Iv [Iv' [Sv [Wv Bv]]]]]]]; [left; exact Sb|right].
      exists v'. split; [exact Iv'|]. destruct Sv as [_ [T1 [_ T2]]]. unfold well_inside in *. rewrite S2, <- T1, <- T2. auto. }
    assert (Sc1 : one_cut m1 true x).
    { intros p [u [Hu [Xu Ev]]]. rewrite S2 in Ev. destruct (Or u Hu Xu) as [v [Iv [Sv Wv]]].
      rewrite <- (same_evaluate _ _ _ _ Sv) in Ev. pose proof (well_strict x v Wv) as Xv.
      destruct (cut_of true p) as [On Cn]; [exists v; auto|]. cbn [negb] in *.
      destruct Cu as [l1 [y [l2 [l1' [a [b [l2' [E1 [E2 [F1 [F2 [Hh [Hb [Wy [Ey Sy]]]]]]]]]]]]]]].
      destruct (law_cut _ _ _ _ _ _ Sy (well_strict x y Wy) Ey Hh Hb) as [_ [Spy _]].
      destruct (bottom_not_spans _ _ _ _ Hh) as [B1 B2].
      assert (Ny : spans y p -> p = si_rayParam iS).
      { intros F. assert (Iy : In y (sm_layers m false)) by (rewrite E1; apply in_or_app; right; left; reflexivity).
        destruct (Cn y Iy F) as [_ Q]. specialize (Q (well_strict x y Wy)). congruence. }
      assert (Nab : ~ spans a p /\ ~ spans b p).
      { apply spans_R in Spy. destruct Hh as [A1 [A2 [A3 [A4 [A5 [A6 A7]]]]]]. split; intros F; pose proof F as F'; apply spans_R in F'.
        - rewrite A1, A3 in F'. apply B1. rewrite <- Ny; [exact F|]. apply spans_R. unfold strictly_between in *. lra.
        - rewrite A4, A6 in F'. apply B2. rewrite <- Ny; [exact F|]. apply spans_R. unfold strictly_between in *. lra. }
      destruct Nab as [Na Nb].
      assert (From : forall j z, nth_error (sm_layers m1 false) j = Some z -> spans z p -> exists i u, nth_error (sm_layers m false) i = Some u /\ same u z /\
        j = (if Nat.ltb i (List.length l1) then i else S i)).
      { intros j z Hz Sz. rewrite E2 in Hz. destruct (cut_from l1 y l2 _ _ _ _ _ _ F1 F2 Hz) as [->|[->|[i [u' [A1 [A2 [_ A3]]]]]]]; [contradiction..|].
        exists i, u'. rewrite E1. auto. }
      split.
      - intros i j z z' Hz Hz' Sz Sz'. destruct (From i z Hz Sz) as [i1 [u1 [A1 [A2 A3]]]]. destruct (From j z' Hz' Sz') as [i2 [u2 [C1 [C2 C3]]]].
        assert (i1 = i2) by (eapply On; [exact A1|exact C1|eapply same_spans; eassumption|eapply same_spans; eassumption]). subst. reflexivity.
      - intros z Hz Sz. apply In_nth_error in Hz as Hj. destruct Hj as [j Hj]. destruct (From j z Hj Sz) as [i [u' [A1 [A2 _]]]].
        destruct (Cn u' (nth_error_In _ _ A1) (same_spans _ _ _ A2 Sz)) as [Q _]. rewrite S2. split; [eapply same_solid; eassumption|].
        intros Xz. exfalso. eapply (sampled_not_inside (sm_layers m1 false)); [apply G1|apply G1|exact Sa|exact Hz|exact Xz]. }
    split; [exact S2|]. split; [exact G1|]. split; [exact Go1|]. split; [exact Sh1|]. split; [exact Sp1|exact Sc1].
  Qed.
  Lemma second_ready : second (si_sMod iS).
  Proof.
    destruct (step fuel m x false mS iS G (in_solid false) (shared_same false) Sp (cut_of false) H1) as [[E1 _]|[N1 [M1 [Sr [Rf [Sa [Ki Cu]]]]]]].
    - rewrite E1. exact second_same.
    - apply second_cut; assumption.
  Qed.

  Variables (mP : smodel R) (iP : @splitinfo R).
  Hypothesis H2 : splitLayer fuel (si_sMod iS) x true = Ok (mP, iP).
  Lemma two_splits : fine (si_sMod iP) /\ (forall v, sampled_at (sm_layers (si_sMod iP) v) x) /\
    (si_needed iS = false -> si_sMod iS = m) /\
    (si_needed iS = true \/ si_needed iP = true \/ si_sMod iP = m).
  Proof.
    assert (Uw : forall v y, In y (sm_layers m v) -> sl_topDepth y <= sl_botDepth y) by (intros v y Hy; apply Rleb_le; apply (G v); exact Hy).
    assert (Fr : forall (a b : smodel R) v, a = b -> refines rad (sm_layers a v) (sm_layers b v)).
    { intros a b v ->. apply refines_refl. induction (sm_layers b v); constructor; [apply same_refl|assumption]. }
    destruct (step fuel m x false mS iS G (in_solid false) (shared_same false) Sp (cut_of false) H1) as [[E1 [N1 Sa]]|[N1 [M1 [Sr [Rf [Sa [Ki Cu]]]]]]].
    - rewrite E1 in H2.
      destruct (step fuel m x true mP iP G (in_solid true) (shared_same true) Sp (cut_of true) H2) as [[E2 [N2 Sb]]|[N2 [M2 [Sr [Rf [Sb [Ki Cu]]]]]]].
      + rewrite E2. split; [|split; [|auto]].
        * split; [reflexivity|]. split; [reflexivity|]. split; [reflexivity|]. split; [reflexivity|]. intros v. apply Fr. reflexivity.
        * intros []; assumption.
      + destruct Sr as [_ [_ [_ [_ [_ [_ [_ [S1 [S2 [S3 [S4 _]]]]]]]]]]]. split; [split; [exact S2|auto]|]. split; [|auto].
        intros []; [exact Sb|]. exact (rf_sampled _ _ _ (Rf false) _ Sa).
    - set (m1 := si_sMod iS) in *. pose proof Sr as [_ [_ [_ [_ [_ [_ [_ [S1 [S2 [S3 [S4 _]]]]]]]]]]].
      destruct (second_cut N1 ltac:(assumption) Rf Sa Ki Cu) as [_ [G1 [Go1 [Sh1 [Sp1 Sc1]]]]]. fold m1 in G1, Go1, Sh1, Sp1, Sc1. cbn [negb] in Ki.
      destruct (step fuel m1 x true mP iP G1 Go1 Sh1 Sp1 Sc1 H2) as [[E2 [N2 Sb]]|[N2 [M2 [Sr2 [Rf2 [Sb [_ _]]]]]]].
      + rewrite E2. split; [|split; [|split; [congruence|auto]]].
        * split; [exact S2|auto].
        * intros []; assumption.
      + destruct Sr2 as [_ [_ [_ [_ [_ [_ [_ [T1 [T2 [T3 [T4 _]]]]]]]]]]]. rewrite S2 in Rf2. split; [|split; [|split; [congruence|auto]]].
        * split; [congruence|]. split; [congruence|]. split; [congruence|]. split; [congruence|]. intros v. eapply refines_trans; [apply Uw|apply Rf|apply Rf2].
        * intros []; [exact Sb|]. exact (rf_sampled _ _ _ (Rf2 false) _ Sa).
  Qed.
End Two.

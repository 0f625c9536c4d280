(** Proofs about the sampling limits of a slowness model. *)
From Coq Require Import ZArith Bool List String Reals Lia Lra Psatz.
From Verif Require Import Base Num PyStr VelocityModel VelSpec VelProofs SlownessLayer SlownessModel
  SlowSpec SlowProofs SlowAddProofs SlowBuildProofs CritSpec CritProofs SlowRealProofs.
Import ListNotations.
Local Open Scope list_scope.
Local Open Scope R_scope.

Lemma Rceil_ge : forall x, x <= IZR (Rceil x).
Proof.
  intros x. unfold Rceil. rewrite opp_IZR. destruct (base_Int_part (- x)) as [A B]. lra.
Qed.
Lemma Rceil_lt : forall x, IZR (Rceil x) < x + 1.
Proof.
  intros x. unfold Rceil. rewrite opp_IZR. destruct (base_Int_part (- x)) as [A B]. lra.
Qed.
Lemma Rceil_gt1 : forall x, 1 < x -> (2 <= Rceil x)%Z.
Proof.
  intros x H. pose proof (Rceil_ge x). destruct (Z_le_gt_dec 2 (Rceil x)) as [|G]; [assumption|].
  assert (Rceil x <= 1)%Z by lia. apply IZR_le in H1. lra.
Qed.
Lemma grid_cell : forall n a d t, 0 < d -> a <= t < a + INR n * d ->
  exists k, (k < n)%nat /\ a + INR k * d <= t < a + INR (S k) * d.
Proof.
  induction n as [|n IH]; intros a d t Hd Ht.
  - simpl in Ht. lra.
  - destruct (Rlt_dec t (a + INR n * d)) as [L|L].
    + destruct (IH a d t Hd) as [k [K1 K2]]; [lra|]. exists k. split; [lia|assumption].
    + exists n. split; [lia|lra].
Qed.
Lemma zrange_In : forall a b k, In k (zrange a b) <-> (a <= k < b)%Z.
Proof.
  intros a b k. unfold zrange. rewrite in_map_iff. split.
  - intros [x [<- Hx]]. apply in_seq in Hx. lia.
  - intros H. exists (Z.to_nat (k - a)). split; [lia|]. apply in_seq. lia.
Qed.

Lemma splice_nth : forall f (l : list (slayer R)) j z', nth_error (splice f l) j = Some z' ->
  exists i z, (i <= j)%nat /\ nth_error l i = Some z /\
    ((f (sl_id z) = None /\ z' = z) \/ exists a b, f (sl_id z) = Some (a, b) /\ (z' = a \/ z' = b)).
Proof.
  intros f. induction l as [|y l IH]; intros j z' H; [destruct j; discriminate|].
  cbn [splice flat_map] in H. fold (splice f l) in H. destruct (f (sl_id y)) as [[a b]|] eqn:E; cbn [app] in H.
  - destruct j as [|[|j]]; cbn [nth_error] in H.
    + exists 0%nat, y. split; [lia|]. split; [reflexivity|]. right. exists a, b. split; [assumption|]. inversion H; auto.
    + exists 0%nat, y. split; [lia|]. split; [reflexivity|]. right. exists a, b. split; [assumption|]. inversion H; auto.
    + destruct (IH _ _ H) as [i [z [A [B C]]]]. exists (S i), z. split; [lia|]. split; assumption.
  - destruct j as [|j]; cbn [nth_error] in H.
    + exists 0%nat, y. split; [lia|]. split; [reflexivity|]. left. inversion H; subst; auto.
    + destruct (IH _ _ H) as [i [z [A [B C]]]]. exists (S i), z. split; [lia|]. split; assumption.
Qed.

Lemma not_inside : forall (ls : list (slayer R)) x z, s_meet ls -> s_upright ls -> boundary ls x -> In z ls ->
  ~ (sl_topDepth z < x < sl_botDepth z).
Proof.
  intros ls x z Hm Hu [y [Hy Hx]] Hz [L1 L2].
  apply In_nth_error in Hy, Hz. destruct Hy as [i Hi], Hz as [j Hj].
  assert (Uy := Hu y (nth_error_In _ _ Hi)). apply Rleb_le in Uy.
  destruct (Nat.lt_trichotomy i j) as [L|[->|L]].
  - pose proof (s_sorted ls j i y z Hm Hu Hi Hj L) as X. apply Rleb_le in X. destruct Hx; lra.
  - assert (y = z) by congruence. subst. destruct Hx; lra.
  - pose proof (s_sorted ls i j z y Hm Hu Hj Hi L) as X. apply Rleb_le in X. destruct Hx; lra.
Qed.

(** a list meets if its refinement by cuts does *)
Lemma meet_back : forall f (p : R) (l : list (slayer R)),
  (forall y a b, In y l -> f (sl_id y) = Some (a, b) -> halves p y a b) -> s_meet (splice f l) -> s_meet l.
Proof.
  intros f p. induction l as [|y l IH]; intros Hf Hm; [intros [|i] a b Ha; discriminate|].
  assert (Head : forall z l', l = z :: l' -> n_eqb (sl_botDepth y) (sl_topDepth z) = true).
  { intros z l' ->. 
    assert (Z : exists h t, splice f (z :: l') = h :: t /\ sl_topDepth h = sl_topDepth z).
    { cbn [splice flat_map]. destruct (f (sl_id z)) as [[a b]|] eqn:E; cbn [app]; eexists _, _; (split; [reflexivity|]).
      - destruct (Hf z a b ltac:(right; left; reflexivity) E) as [_ [A _]]. assumption.
      - reflexivity. }
    destruct Z as [h [t [E Eh]]]. change (splice f (y :: z :: l')) with
      ((match f (sl_id y) with Some (a, b) => [a; b] | None => [y] end) ++ splice f (z :: l')) in Hm.
    rewrite E in Hm. destruct (f (sl_id y)) as [[a b]|] eqn:Ey; cbn [app] in Hm.
    - destruct (Hf y a b ltac:(left; reflexivity) Ey) as [_ [_ [_ [_ [_ [_ A]]]]]].
      rewrite <- A, <- Eh. apply (Hm 1%nat); reflexivity.
    - rewrite <- Eh. apply (Hm 0%nat); reflexivity. }
  assert (Tail : s_meet l).
  { apply IH; [intros; eapply Hf; [right|]; eassumption|].
    change (splice f (y :: l)) with ((match f (sl_id y) with Some (a, b) => [a; b] | None => [y] end) ++ splice f l) in Hm.
    destruct (f (sl_id y)) as [[a b]|]; cbn [app] in Hm; repeat apply s_meet_tail in Hm; assumption. }
  intros [|i] a b Ha Hb.
  - destruct l as [|z l']; [discriminate|]. inversion Ha; inversion Hb; subst. eapply Head. reflexivity.
  - exact (Tail i a b Ha Hb).
Qed.
Lemma samples_meet_back : forall (m m' : smodel R), samples m m' -> ids_ok m ->
  (forall w, s_meet (sm_layers m' w)) -> forall w, s_meet (sm_layers m w).
Proof.
  intros m m' H. induction H as [m|m p w m1 m2 H S IH]; intros Hid Hm; [assumption|].
  apply addSlowness_spec in H; [|assumption]. destruct H as [Hid1 [_ [_ [f [A [B [C [D _]]]]]]]].
  specialize (IH Hid1 Hm). intros v.
  apply (meet_back f p).
  - intros y a b Hy F. apply (D y a b); [|assumption].
    assert (I : f (sl_id y) <> None) by congruence. apply C in I. apply in_map_iff in I.
    destruct I as [q [Eq Hq]]. destruct Hid as [_ [_ [_ Ag]]].
    destruct v, w; cbn [sm_layers] in *; try assumption.
    + assert (y = q) by (apply Ag; auto). subst. assumption.
    + assert (q = y) by (apply Ag; auto). subst. assumption.
  - assert (AB : sm_layers m1 v = splice f (sm_layers m v)) by (destruct v, w; assumption).
    rewrite <- AB. apply IH.
Qed.

Section Model.
  Variable vm : vmodel R.
  Hypothesis Hc : contiguous (vm_layers vm).
  Hypothesis Ht : thick (vm_layers vm).
  Hypothesis Hl : forall v, In v (vm_layers vm) -> layer_ok v.

  Definition okm (m : smodel R) : Prop :=
    well_sampled vm m /\ ids_ok m /\
    (forall y, In y (sm_P m) \/ In y (sm_S m) -> sl_topDepth y <= sl_botDepth y) /\
    (forall w, s_meet (sm_layers m w)).
  Lemma okm_step : forall m p w m', addSlowness m p w = Ok m' -> okm m -> okm m'.
  Proof.
    intros m p w m' H [A [B [C D]]]. destruct (s_inv_step vm Hc Ht Hl _ _ _ _ A B C H) as [A' C'].
    split; [assumption|]. split; [apply addSlowness_spec in H; tauto|]. split; [assumption|].
    intros v. apply (addSlowness_keeps _ _ _ _ v H B). apply D.
  Qed.
  Lemma okm_samples : forall m m', samples m m' -> okm m -> okm m'.
  Proof.
    intros m m' H. induction H as [m|m p w m1 m2 H S IH]; intros Hm; [assumption|].
    apply IH. eapply okm_step; eassumption.
  Qed.
  Lemma okm_upright : forall m w y, okm m -> In y (sm_layers m w) -> sl_topDepth y <= sl_botDepth y.
  Proof. intros m w y [_ [_ [U _]]] H. apply U. destruct w; [left|right]; exact H. Qed.
  Lemma okm_s_upright : forall m w, okm m -> s_upright (sm_layers m w).
  Proof. intros m w H y Hy. apply Rleb_le. eapply okm_upright; eassumption. Qed.

  (** a layer of the finer list is part of a layer of the coarser one with no larger number *)
  Definition flat (y : slayer R) : Prop := sl_topP y = sl_botP y.
  Definition refines (l l' : list (slayer R)) : Prop :=
    forall j z', nth_error l' j = Some z' -> exists i z, (i <= j)%nat /\ nth_error l i = Some z /\
      sl_topDepth z <= sl_topDepth z' /\ sl_botDepth z' <= sl_botDepth z.
  Lemma refines_refl : forall l, refines l l.
  Proof. intros l j z H. exists j, z. split; [lia|]. split; [assumption|]. lra. Qed.
  Lemma refines_trans : forall a b c, refines a b -> refines b c -> refines a c.
  Proof.
    intros a b c H1 H2 j z H. destruct (H2 _ _ H) as [i [y [A [B C]]]].
    destruct (H1 _ _ B) as [k [x [D [E F]]]]. exists k, x. split; [lia|]. split; [assumption|]. lra.
  Qed.
  Lemma refines_step : forall m p w m' v, addSlowness m p w = Ok m' -> okm m ->
    refines (sm_layers m v) (sm_layers m' v).
  Proof.
    intros m p w m' v H Hm j z' Hz'. pose proof (okm_step _ _ _ _ H Hm) as Hm'.
    pose proof Hm as [_ [Hid _]]. apply addSlowness_spec in H; [|assumption].
    destruct H as [_ [_ [_ [f [A [B [C [D _]]]]]]]].
    assert (AB : sm_layers m' v = splice f (sm_layers m v)) by (destruct v, w; assumption).
    assert (Hin := nth_error_In _ _ Hz'). rewrite AB in Hz'. apply splice_nth in Hz'.
    destruct Hz' as [i [z [Hi [Hz K]]]]. exists i, z. split; [assumption|]. split; [assumption|].
    destruct K as [[_ ->]|[a [b [F Hab]]]]; [lra|].
    assert (Hzw : In z (sm_layers m w)).
    { assert (I : f (sl_id z) <> None) by congruence. apply C in I. apply in_map_iff in I.
      destruct I as [q [Eq Hq]]. apply nth_error_In in Hz. destruct Hid as [ND1 [ND2 [_ Ag]]].
      destruct v, w; cbn [sm_layers] in *.
      - assumption.
      - assert (z = q) by (apply Ag; auto). subst. assumption.
      - assert (q = z) by (apply Ag; auto). subst. assumption.
      - assumption. }
    destruct (D _ _ _ Hzw F) as [[A1 [A2 [A3 [A4 [A5 [A6 A7]]]]]] _].
    assert (Ia : In a (sm_layers m' v) /\ In b (sm_layers m' v)).
    { rewrite AB. apply nth_error_In in Hz. unfold splice. split; apply in_flat_map; exists z; rewrite F;
        (split; [assumption|]); [left|right; left]; reflexivity. }
    pose proof (okm_upright _ _ _ Hm' (proj1 Ia)). pose proof (okm_upright _ _ _ Hm' (proj2 Ia)).
    destruct Hab; subst; lra.
  Qed.
  Lemma refines_samples : forall m m' v, samples m m' -> okm m -> refines (sm_layers m v) (sm_layers m' v).
  Proof.
    intros m m' v H. induction H as [m|m p w m1 m2 H S IH]; intros Hm; [apply refines_refl|].
    eapply refines_trans; [eapply refines_step; eassumption|]. apply IH. eapply okm_step; eassumption.
  Qed.

  Lemma same_v : forall u v x, In u (vm_layers vm) -> In v (vm_layers vm) ->
    vl_topDepth u < x <= vl_botDepth u -> vl_topDepth v < x <= vl_botDepth v -> u = v.
  Proof.
    intros u v x Hu Hv Xu Xv. destruct (In_nth_layer vm u Hu) as [i Hi]. destruct (In_nth_layer vm v Hv) as [j Hj].
    assert (A : v_layerNumberAbove vm x = Ok i).
    { apply above_iff; [assumption..|]. exists u. split; [assumption|]. split; [apply Rltb_lt|apply Rleb_le]; lra. }
    assert (B : v_layerNumberAbove vm x = Ok j).
    { apply above_iff; [assumption..|]. exists v. split; [assumption|]. split; [apply Rltb_lt|apply Rleb_le]; lra. }
    assert (i = j) by congruence. subst. eapply nth_layer_fun; eassumption.
  Qed.

  (** velocity layers whose sampling is limited *)
  Definition limited (w innerS : bool) (v : vlayer R) : Prop :=
    w = true \/ (vl_topS v <> 0 /\ (innerS = true \/ vl_botDepth v <= vm_iocb vm)).
  Lemma limited_solid : forall w i v, limited w i v -> w = true \/ vl_topS v <> 0.
  Proof. intros w i v [H|[H _]]; auto. Qed.

  (** slowness is monotone or constant within a velocity layer *)
  Lemma slow_line : forall r w v x1 x2, vl_topDepth v < vl_botDepth v ->
    (r - x1) * wvel w v x2 - (r - x2) * wvel w v x1 = (x2 - x1) * wvel w v r.
  Proof. intros r w v x1 x2 H. unfold wvel, line. destruct w; field; lra. Qed.
  Lemma nonflat_K : forall r w v y, In v (vm_layers vm) -> w = true \/ vl_topS v <> 0 -> on_layer r w v y ->
    sl_topDepth y < sl_botDepth y -> (wvel w v r = 0 <-> flat y).
  Proof.
    intros r w v y Hv Hw [O1 [O2 [O3 O4]]] Ty.
    pose proof (v_thick vm Ht v Hv) as Tv.
    pose proof (wvel_pos vm Ht Hl w v (sl_topDepth y) Hv ltac:(lra) Hw) as PT.
    pose proof (wvel_pos vm Ht Hl w v (sl_botDepth y) Hv ltac:(lra) Hw) as PB.
    pose proof (slow_line r w v (sl_topDepth y) (sl_botDepth y) Tv) as E. rewrite <- O3, <- O4 in E.
    assert (E' : (sl_topP y - sl_botP y) * (wvel w v (sl_topDepth y) * wvel w v (sl_botDepth y)) = (sl_botDepth y - sl_topDepth y) * wvel w v r) by (rewrite <- E; ring).
    pose proof (Rmult_lt_0_compat _ _ PT PB) as PP. unfold flat. split; intros F.
    - rewrite F, Rmult_0_r in E'. apply Rmult_integral in E'. lra.
    - rewrite F, Rminus_diag_eq, Rmult_0_l in E' by reflexivity. symmetry in E'. apply Rmult_integral in E'. lra.
  Qed.
  Lemma spans_at : forall r w v y x p, In v (vm_layers vm) -> w = true \/ vl_topS v <> 0 -> on_layer r w v y ->
    sl_topDepth y < x < sl_botDepth y -> ~ flat y -> p * wvel w v x = r - x -> spans y p.
  Proof.
    intros r w v y x p Hv Hw On Hx Hf Hp.
    assert (HK : wvel w v r <> 0) by (intros F; apply Hf; eapply nonflat_K; try eassumption; lra).
    destruct On as [O1 [O2 [O3 O4]]].
    pose proof (v_thick vm Ht v Hv) as Tv.
    pose proof (wvel_pos vm Ht Hl w v (sl_topDepth y) Hv ltac:(lra) Hw) as PT.
    pose proof (wvel_pos vm Ht Hl w v (sl_botDepth y) Hv ltac:(lra) Hw) as PB.
    pose proof (wvel_pos vm Ht Hl w v x Hv ltac:(lra) Hw) as PX.
    pose proof (slow_line r w v (sl_topDepth y) x Tv) as E1. rewrite <- O3, <- Hp in E1.
    pose proof (slow_line r w v x (sl_botDepth y) Tv) as E2. rewrite <- O4, <- Hp in E2.
    set (K := wvel w v r) in *. set (a := wvel w v (sl_topDepth y)) in *. set (b := wvel w v x) in *.
    set (c := wvel w v (sl_botDepth y)) in *.
    unfold spans. apply Rltb_lt. rewrite n_0_R. cbn [n_sub n_mul Num_R].
    assert (F1 : sl_topP y - p = (x - sl_topDepth y) * K / (a * b)).
    { replace ((x - sl_topDepth y) * K) with ((sl_topP y - p) * (a * b)) by (rewrite <- E1; ring). field. lra. }
    assert (F2 : p - sl_botP y = (sl_botDepth y - x) * K / (b * c)).
    { replace ((sl_botDepth y - x) * K) with ((p - sl_botP y) * (b * c)) by (rewrite <- E2; ring). field. lra. }
    rewrite F1, F2.
    replace ((x - sl_topDepth y) * K / (a * b) * ((sl_botDepth y - x) * K / (b * c)))
      with ((K * K) * ((x - sl_topDepth y) * (sl_botDepth y - x)) / ((a * b) * (b * c))) by (field; lra).
    apply Rdiv_lt_0_compat.
    - apply Rmult_lt_0_compat; [nra|]. apply Rmult_lt_0_compat; lra.
    - repeat apply Rmult_lt_0_compat; assumption.
  Qed.
  Lemma depth_unique : forall r w v x1 x2 p, In v (vm_layers vm) -> w = true \/ vl_topS v <> 0 -> wvel w v r <> 0 ->
    p * wvel w v x1 = r - x1 -> p * wvel w v x2 = r - x2 -> x1 = x2.
  Proof.
    intros r w v x1 x2 p Hv Hw HK H1 H2. pose proof (v_thick vm Ht v Hv) as Tv.
    pose proof (slow_line r w v x1 x2 Tv) as E. rewrite <- H1, <- H2 in E.
    assert (Z : (x2 - x1) * wvel w v r = 0) by (rewrite <- E; ring).
    apply Rmult_integral in Z. destruct Z; [lra|contradiction].
  Qed.

  (** a layer through a depth inside a limited velocity layer lies on the same one *)
  Lemma layer_at : forall m w v z x, okm m -> In v (vm_layers vm) -> limited w (sm_allowInnerCoreS m) v ->
    In z (sm_layers m w) -> sl_topDepth z < x < sl_botDepth z -> vl_topDepth v < x <= vl_botDepth v ->
    on_layer (vm_radius vm) w v z /\ (w = false -> ~ In (sl_id z) (map sl_id (sm_P m))).
  Proof.
    intros m w v z x [[_ [_ [WP WS]]] _] Hv Hlim Hz Hx Hxv.
    assert (Q : forall u w', In u (vm_layers vm) -> on_layer (vm_radius vm) w' u z -> u = v).
    { intros u w' Hu [O1 [O2 _]]. apply (same_v u v x); try assumption. lra. }
    destruct w; cbn [sm_layers] in Hz.
    - destruct (WP z Hz ltac:(lra)) as [u [Hu On]]. rewrite <- (Q u true Hu On). split; [assumption|discriminate].
    - destruct (WS z Hz ltac:(lra)) as [[u [Hu [On [Ni _]]]]|[u [Hu [On Up]]]].
      + rewrite <- (Q u false Hu On). auto.
      + exfalso. rewrite (Q u true Hu On) in *. destruct Hlim as [F|[Hs Hi]]; [discriminate|].
        destruct Up as [F|[F1 F2]]; [contradiction|]. destruct Hi as [Hi|Hi]; [congruence|lra].
  Qed.

  (** adding the slowness at a depth makes that depth a boundary *)
  Lemma add_boundary : forall m w v z x p m', okm m -> In v (vm_layers vm) -> limited w (sm_allowInnerCoreS m) v ->
    wvel w v (vm_radius vm) <> 0 ->
    In z (sm_layers m w) -> sl_topDepth z < x < sl_botDepth z -> vl_topDepth v < x <= vl_botDepth v ->
    p * wvel w v x = vm_radius vm - x -> addSlowness m p w = Ok m' -> boundary (sm_layers m' w) x.
  Proof.
    intros m w v z x p m' Hm Hv Hlim HK Hz Hx Hxv Hp H.
    destruct (layer_at m w v z x Hm Hv Hlim Hz Hx Hxv) as [On _].
    pose proof (limited_solid _ _ _ Hlim) as Hw.
    pose proof Hm as [[W1 [W2 _]] [Hid [_ Hmeet]]].
    assert (Hnf : ~ flat z) by (intros F; apply HK; apply (nonflat_K _ w v z Hv Hw On); [lra|assumption]).
    pose proof (spans_at _ _ _ _ _ _ Hv Hw On Hx Hnf Hp) as Sp.
    apply addSlowness_spec0 in H; [|assumption].
    destruct H as [_ [_ [_ [f [A [_ [_ [D E]]]]]]]]. rewrite W1, W2 in *.
    destruct (f (sl_id z)) as [[a b]|] eqn:F.
    2:{ exfalso. assert (Hz' := Hz). apply In_nth_error in Hz'. destruct Hz' as [i Hi].
        apply (E i z Hi) in F. apply F. split; [assumption|].
        destruct Hlim as [Hlim|[Hs Hi']]; [left; assumption|]. right. split.
        - intros [s [S0 S1]]. apply Reqb_eq in S0. rewrite n_0_R in S0. subst s.
          destruct S1 as [[_ S1]|[S1 _]]; [|apply Reqb_eq in S1; lra].
          destruct On as [O1 [O2 _]].
          rewrite (eval_below_in vm Hc Ht v (sl_topDepth z) false Hv) in S1 by lra.
          assert (S2 : wvel false v (sl_topDepth z) = 0) by congruence. assert (0 < wvel false v (sl_topDepth z)); [|lra].
          apply (wvel_pos vm Ht Hl); [assumption|lra|right; assumption].
        - destruct Hi' as [Hi'|Hi']; [left; assumption|]. right. intros j q Hj Hq. apply Rltb_ge.
          destruct On as [_ [O2 _]]. intros L.
          destruct (Nat.eq_dec j i) as [->|Hne]; [assert (q = z) by congruence; subst; lra|].
          pose proof (s_sorted _ i j q z (Hmeet w) (okm_s_upright m w Hm) Hq Hi ltac:(lia)) as X.
          apply Rleb_le in X. lra. }
    destruct (D z a b Hz F) as [_ [Hh [_ [tv [bv [n [_ [HV HP]]]]]]]].
    destruct (split_on_layer vm Hc Ht Hl w v z p tv bv n a b _ Hv Hw On ltac:(lra) HV Sp HP) as [_ [[_ [_ [_ Oa]]] _]].
    destruct Hh as [_ [_ [Ea _]]]. rewrite Ea in Oa.
    exists a. split.
    - rewrite A. unfold splice. apply in_flat_map. exists z. rewrite F. split; [assumption|left; reflexivity].
    - right. eapply depth_unique; eassumption.
  Qed.

  (** [addBoth]: the depth becomes, or stays, a boundary *)
  Lemma addBoth_boundary : forall m w v x p m', okm m -> In v (vm_layers vm) -> limited w (sm_allowInnerCoreS m) v ->
    wvel w v (vm_radius vm) <> 0 -> vl_topDepth v < x <= vl_botDepth v ->
    (exists z, In z (sm_layers m w) /\ sl_topDepth z <= x <= sl_botDepth z) ->
    p * wvel w v x = vm_radius vm - x -> addBoth m p = Ok m' -> boundary (sm_layers m' w) x.
  Proof.
    intros m w v x p m' Hm Hv Hlim HK Hxv [z [Hz Hx]] Hp H.
    unfold addBoth in H. inv_as H as m1 H1.
    pose proof (okm_step _ _ _ _ H1 Hm) as Hm1.
    assert (Keep : boundary (sm_layers m1 w) x -> boundary (sm_layers m' w) x)
      by (apply (addSlowness_keeps _ _ _ _ w H); apply Hm1).
    assert (Keep0 : boundary (sm_layers m w) x -> boundary (sm_layers m1 w) x)
      by (apply (addSlowness_keeps _ _ _ _ w H1); apply Hm).
    destruct (Req_dec (sl_topDepth z) x) as [E|N1]; [apply Keep, Keep0; exists z; auto|].
    destruct (Req_dec (sl_botDepth z) x) as [E|N2]; [apply Keep, Keep0; exists z; auto|].
    assert (Hx' : sl_topDepth z < x < sl_botDepth z) by lra.
    destruct w.
    - apply Keep. eapply add_boundary with (m := m); eassumption.
    - destruct (layer_at m false v z x Hm Hv Hlim Hz Hx' Hxv) as [_ Ni].
      assert (Hz1 : In z (sm_layers m1 false)).
      { apply addSlowness_spec in H1; [|apply Hm]. destruct H1 as [_ [_ [_ [f [_ [B [C _]]]]]]].
        cbn [negb] in B. rewrite B. apply splice_In_keep; [assumption|].
        destruct (f (sl_id z)) eqn:F; [|reflexivity]. exfalso. apply Ni; [reflexivity|]. apply C. congruence. }
      assert (Hin : sm_allowInnerCoreS m1 = sm_allowInnerCoreS m)
        by (apply addSlowness_spec in H1; [|apply Hm]; destruct H1 as [_ [_ [SS _]]]; apply SS).
      eapply add_boundary with (m := m1); try eassumption. rewrite Hin. assumption.
  Qed.

  (** the slowness computed at a depth *)
  Lemma depthInc_p_at : forall m w v x p, okm m -> In v (vm_layers vm) -> limited w (sm_allowInnerCoreS m) v ->
    vl_topDepth v < x < vl_botDepth v -> depthInc_p m (negb w) x = Ok p -> p * wvel w v x = vm_radius vm - x.
  Proof.
    intros m w v x p [[W1 [W2 _]] _] Hv Hlim Hx H. pose proof (limited_solid _ _ _ Hlim) as Hw.
    pose proof (wvel_pos vm Ht Hl w v x Hv ltac:(lra) Hw) as PX.
    unfold depthInc_p, toSlowness in H. rewrite W1, W2 in H. destruct w; cbn [negb] in H.
    - rewrite (eval_above_in vm Hc Ht v x true Hv ltac:(lra)) in H. cbn [bind] in H.
      rewrite n_0_R in H. rewrite (proj2 (Reqb_ne _ 0)) in H by lra. rewrite py_div_R in H by lra.
      assert (E0 : p = (vm_radius vm - x) / wvel true v x) by (change (n_sub (vm_radius vm) x) with (vm_radius vm - x) in H; congruence).
      rewrite E0. field. lra.
    - rewrite (eval_above_in vm Hc Ht v x false Hv ltac:(lra)) in H. cbn [bind] in H.
      rewrite n_0_R in H. rewrite (proj2 (Reqb_ne _ 0)) in H by lra. cbn [orb] in H.
      destruct Hlim as [F|[_ Hi]]; [discriminate|].
      assert (E : negb (sm_allowInnerCoreS m) && n_leb (vm_iocb vm) x = false).
      { destruct Hi as [Hi|Hi]; [rewrite Hi; reflexivity|]. apply andb_false_intro2.
        destruct (n_leb (vm_iocb vm) x) eqn:L; [apply Rleb_le in L; lra|reflexivity]. }
      rewrite E in H. cbn [bind] in H. rewrite (proj2 (Reqb_ne _ 0)) in H by lra. rewrite py_div_R in H by lra.
      assert (E0 : p = (vm_radius vm - x) / wvel false v x) by (change (n_sub (vm_radius vm) x) with (vm_radius vm - x) in H; congruence).
      rewrite E0. field. lra.
  Qed.

  Lemma covered : forall m w y x m', okm m -> In y (sm_layers m w) -> sl_topDepth y <= x <= sl_botDepth y ->
    samples m m' -> exists z, In z (sm_layers m' w) /\ sl_topDepth z <= x <= sl_botDepth z.
  Proof.
    intros m w y x m' Hm Hy Hx Hs. pose proof (okm_samples _ _ Hs Hm) as Hm'.
    apply In_nth_error in Hy. destruct Hy as [k Hk].
    destruct (sm_layers m w) as [|f l] eqn:E; [destruct k; discriminate|].
    assert (Hf : s_meet (f :: l)) by (rewrite <- E; apply Hm).
    assert (Uf : s_upright (f :: l)) by (rewrite <- E; apply okm_s_upright; assumption).
    pose proof (first_holds l f k y Hf Uf Hk) as F1. pose proof (last_holds l f k y Hf Uf Hk) as F2.
    apply Rleb_le in F1, F2.
    destruct (samples_keep _ _ Hs ltac:(apply Hm)) as [_ [_ K]].
    destruct (K w) as [_ [_ K3]]. destruct (K3 f l E) as [z [l' [E' [T1 [_ [B1 _]]]]]].
    destruct (s_cover l' z x) as [j [q [Hq [Q1 Q2]]]].
    - rewrite <- E'. apply Hm'.
    - rewrite <- E'. apply okm_s_upright. assumption.
    - apply Rleb_le. rewrite T1. lra.
    - apply Rleb_le. rewrite B1. lra.
    - apply Rleb_le in Q1, Q2. exists q. split; [rewrite E'; eapply nth_error_In; eassumption|lra].
  Qed.

  (** one layer of the loop *)
  Definition thin_ok (w : bool) (m : smodel R) (z : slayer R) : Prop :=
    forall v, In v (vm_layers vm) -> limited w (sm_allowInnerCoreS m) v -> on_layer (vm_radius vm) w v z ->
      ~ flat z -> sl_botDepth z - sl_topDepth z <= sm_maxDepthInterval m.

  Lemma body_limit : forall m w y m' z, okm m -> 0 < sm_maxDepthInterval m -> In y (sm_layers m w) ->
    depthInc_body (negb w) m y = Ok m' -> In z (sm_layers m' w) ->
    sl_topDepth y <= sl_topDepth z -> sl_botDepth z <= sl_botDepth y -> thin_ok w m z.
  Proof.
    intros m w y m' z Hm Hmax Hy H Hz Z1 Z2 v Hv Hlim On Hnf.
    destruct (Rle_dec (sl_botDepth z - sl_topDepth z) (sm_maxDepthInterval m)) as [|Big]; [assumption|].
    exfalso. apply Rnot_le_lt in Big.
    pose proof (limited_solid _ _ _ Hlim) as Hw.
    unfold depthInc_body in H. cbn [n_ltb n_sub Num_R] in H.
    destruct (Rltb_spec (sm_maxDepthInterval m) (sl_botDepth y - sl_topDepth y)) as [L|L]; [|lra].
    rewrite py_div_R in H by lra. cbn [bind] in H.
    set (q := (sl_botDepth y - sl_topDepth y) / sm_maxDepthInterval m) in *.
    assert (Hq : 1 < q).
    { unfold q. apply Rmult_lt_reg_r with (sm_maxDepthInterval m); [lra|]. unfold Rdiv. rewrite Rmult_assoc, Rinv_l; lra. }
    change (@n_ceil R Num_R q) with (Rceil q) in H. pose proof (Rceil_gt1 q Hq) as N2. pose proof (Rceil_ge q) as NQ.
    rewrite n_int_R in H.
    assert (N0 : 0 < IZR (Rceil q)) by (apply (IZR_lt 0); lia).
    rewrite py_div_R in H by lra. cbn [bind] in H.
    set (num := Rceil q) in *. set (delta := (sl_botDepth y - sl_topDepth y) / IZR num) in *.
    assert (Ed : IZR num * delta = sl_botDepth y - sl_topDepth y) by (unfold delta; field; lra).
    assert (Dpos : 0 < delta) by (unfold delta; apply Rdiv_lt_0_compat; lra).
    assert (Dmax : delta <= sm_maxDepthInterval m).
    { unfold delta. apply Rmult_le_reg_r with (IZR num); [lra|]. unfold Rdiv at 1. rewrite Rmult_assoc, Rinv_l, Rmult_1_r by lra.
      replace (sl_botDepth y - sl_topDepth y) with (q * sm_maxDepthInterval m) by (unfold q; field; lra).
      rewrite Rmult_comm. apply Rmult_le_compat_l; lra. }
    (* the cuts *)
    pose proof (v_thick vm Ht v Hv) as Tv.
    assert (HK : wvel w v (vm_radius vm) <> 0) by (intros F; apply Hnf; apply (nonflat_K _ w v z Hv Hw On); [lra|assumption]).
    assert (Yv : vl_topDepth v <= sl_topDepth y /\ sl_botDepth y <= vl_botDepth v).
    { assert (Mid : sl_topDepth y < (sl_topDepth z + sl_botDepth z) / 2 < sl_botDepth y) by lra.
      destruct On as [O1 [O2 _]].
      destruct (layer_at m w v y _ Hm Hv Hlim Hy Mid ltac:(lra)) as [[A [B _]] _]. auto. }
    assert (Fold : forall ks m1 m2, samples m m1 -> (forall k, In k ks -> (1 <= k < num)%Z) ->
      foldM (fun m k => let! p := depthInc_p m (negb w) (sl_topDepth y + n_int k * delta) in addBoth m p) ks m1 = Ok m2 ->
      samples m1 m2 /\ forall k, In k ks -> boundary (sm_layers m2 w) (sl_topDepth y + IZR k * delta)).
    { induction ks as [|k ks IH]; intros m1 m2 Hs Hk Hf; cbn [foldM] in Hf.
      - inversion Hf; subst. split; [constructor|intros k []].
      - inv_as Hf as m3 H3. inv_as H3 as p Hp.
        pose proof (addBoth_samples _ _ _ H3) as S3.
        assert (Hs3 : samples m m3) by (eapply samples_trans; eassumption).
        destruct (IH m3 m2 Hs3 ltac:(intros; apply Hk; right; assumption) Hf) as [S2 B2].
        split; [eapply samples_trans; eassumption|].
        intros k' [<-|Hk']; [|apply B2; assumption].
        pose proof (okm_samples _ _ Hs Hm) as Hm1. pose proof (okm_samples _ _ Hs3 Hm) as Hm3.
        destruct (samples_keep _ _ S2 ltac:(apply Hm3)) as [_ [_ KK]]. apply (KK w).
        destruct (samples_keep _ _ Hs ltac:(apply Hm)) as [_ [SS _]].
        assert (Hin : sm_allowInnerCoreS m1 = sm_allowInnerCoreS m) by apply SS.
        destruct (Hk k ltac:(left; reflexivity)) as [K1 K2]. apply IZR_le in K1. apply IZR_lt in K2.
        assert (X1 : sl_topDepth y < sl_topDepth y + IZR k * delta < sl_botDepth y) by nra.
        rewrite n_int_R in Hp. cbn [n_add n_mul Num_R] in Hp.
        eapply addBoth_boundary with (v := v) (m := m1); try eassumption.
        + rewrite Hin. assumption.
        + lra.
        + apply (covered m w y _ m1 Hm Hy); [lra|assumption].
        + eapply depthInc_p_at with (m := m1); try eassumption; [rewrite Hin; assumption|lra]. }
    destruct (Fold _ _ _ (samples_refl m) (fun k Hk => proj1 (zrange_In 1 num k) Hk) H) as [Sm B].
    pose proof (okm_samples _ _ Sm Hm) as Hm'.
    (* the grid cell of the top *)
    assert (EN : INR (Z.to_nat num) = IZR num) by (rewrite INR_IZR_INZ, Z2Nat.id by lia; reflexivity).
    destruct (grid_cell (Z.to_nat num) (sl_topDepth y) delta (sl_topDepth z) Dpos) as [k [K1 K2]]; [rewrite EN; lra|].
    destruct (Nat.eq_dec (S k) (Z.to_nat num)) as [E|E].
    - rewrite E, EN in K2. assert (INR k * delta + delta = IZR num * delta) by (rewrite <- EN, <- E, S_INR; ring). lra.
    - assert (Bk : boundary (sm_layers m' w) (sl_topDepth y + INR (S k) * delta)).
      { rewrite INR_IZR_INZ. apply B. apply zrange_In. lia. }
      apply (not_inside _ _ z) in Bk; [|apply Hm'|apply okm_s_upright; assumption|assumption].
      apply Bk. split; [lra|]. rewrite S_INR in *. lra.
  Qed.

  Lemma thin_part : forall m w z z', okm m -> 0 < sm_maxDepthInterval m -> In z (sm_layers m w) -> thin_ok w m z ->
    sl_topDepth z <= sl_topDepth z' -> sl_botDepth z' <= sl_botDepth z -> thin_ok w m z'.
  Proof.
    intros m w z z' Hm Hmax Hz Th Z1 Z2 v Hv Hlim On Hnf.
    destruct (Rle_dec (sl_botDepth z' - sl_topDepth z') (sm_maxDepthInterval m)) as [|Big]; [assumption|].
    exfalso. apply Rnot_le_lt in Big. pose proof (limited_solid _ _ _ Hlim) as Hw.
    assert (Mid : sl_topDepth z < (sl_topDepth z' + sl_botDepth z') / 2 < sl_botDepth z) by lra.
    assert (HK : wvel w v (vm_radius vm) <> 0) by (intros F; apply Hnf; apply (nonflat_K _ w v z' Hv Hw On); [lra|assumption]).
    destruct On as [O1 [O2 _]].
    destruct (layer_at m w v z _ Hm Hv Hlim Hz Mid ltac:(lra)) as [On _].
    assert (sl_botDepth z - sl_topDepth z <= sm_maxDepthInterval m); [|lra].
    apply (Th v Hv Hlim On). intros F. apply HK. apply (nonflat_K _ w v z Hv Hw On); [lra|assumption].
  Qed.
  Lemma thin_setup : forall w m m' z, same_setup m m' -> thin_ok w m z -> thin_ok w m' z.
  Proof.
    intros w m m' z SS H. destruct SS as [_ [_ [_ [E [_ [_ [E' _]]]]]]]. unfold thin_ok in *.
    rewrite E, E'. exact H.
  Qed.
  Lemma setup_sym : forall m m' : smodel R, same_setup m m' -> same_setup m' m.
  Proof. unfold same_setup. intros m m' H. intuition congruence. Qed.

  Lemma depthInc_body_samples : forall fb (s : smodel R) y s', depthInc_body fb s y = Ok s' -> samples s s'.
  Proof.
    intros fb s y s' Hb. unfold depthInc_body in Hb. destruct (n_ltb _ _); [|inversion Hb; constructor].
    inv_bind Hb. inv_bind Hb. refine (foldM_rel samples _ samples_refl samples_trans _ _ _ _ Hb).
    intros b k b' Hk. inv_bind Hk. eapply addBoth_samples. eassumption.
  Qed.

  Lemma loop_limit : forall w fuel i m m', okm m -> 0 < sm_maxDepthInterval m ->
    (forall j z, (j < i)%nat -> nth_error (sm_layers m w) j = Some z -> thin_ok w m z) ->
    for_idx fuel (fun m => sm_layers m w) i (depthInc_body (negb w)) m = Ok m' ->
    forall z, In z (sm_layers m' w) -> thin_ok w m' z.
  Proof.
    intros w. induction fuel as [|fuel IH]; intros i m m' Hm Hmax Hinv H; [discriminate|].
    cbn [for_idx] in H. destruct (nth_error (sm_layers m w) i) as [y|] eqn:Ey.
    - inv_as H as m1 H1. pose proof (depthInc_body_samples _ _ _ _ H1) as S1.
      pose proof (okm_samples _ _ S1 Hm) as Hm1.
      destruct (samples_keep _ _ S1 ltac:(apply Hm)) as [_ [SS _]].
      eapply IH; [| | |exact H]; [assumption|destruct SS as [_ [_ [_ [E _]]]]; rewrite E; assumption|].
      intros j z' Hj Hz'. apply (thin_setup _ _ _ _ SS).
      destruct (refines_samples _ _ w S1 Hm _ _ Hz') as [k [z [Hk [Hz [Z1 Z2]]]]].
      destruct (Nat.eq_dec k i) as [->|Hne].
      + assert (z = y) by congruence. subst z.
        eapply body_limit with (m := m) (y := y); try eassumption; [eapply nth_error_In; eassumption|].
        eapply nth_error_In; eassumption.
      + eapply thin_part with (m := m) (z := z); try eassumption; [eapply nth_error_In; eassumption|].
        eapply Hinv; [|eassumption]. lia.
    - inversion H; subst. intros z Hz. apply In_nth_error in Hz. destruct Hz as [j Hj].
      eapply Hinv; [|eassumption]. apply nth_error_None in Ey.
      assert (j < List.length (sm_layers m' w))%nat by (apply nth_error_Some; congruence). lia.
  Qed.

  Lemma thin_samples : forall w m m', samples m m' -> okm m -> 0 < sm_maxDepthInterval m ->
    (forall z, In z (sm_layers m w) -> thin_ok w m z) -> forall z, In z (sm_layers m' w) -> thin_ok w m' z.
  Proof.
    intros w m m' Hs Hm Hmax H z' Hz'. destruct (samples_keep _ _ Hs ltac:(apply Hm)) as [_ [SS _]].
    apply (thin_setup _ _ _ _ SS). apply In_nth_error in Hz'. destruct Hz' as [j Hj].
    destruct (refines_samples _ _ w Hs Hm _ _ Hj) as [k [z [_ [Hz [Z1 Z2]]]]]. apply nth_error_In in Hz.
    eapply thin_part; try eassumption. apply H. assumption.
  Qed.

  Lemma depthInc_limit : forall fuel m m' w z, okm m -> 0 < sm_maxDepthInterval m ->
    depthIncCheck fuel m = Ok m' -> In z (sm_layers m' w) -> thin_ok w m' z.
  Proof.
    intros fuel m m' w z Hm Hmax H Hz. unfold depthIncCheck in H. inv_as H as m1 H1.
    assert (S1 : samples m m1).
    { exact (for_idx_rel samples _ _ samples_refl samples_trans (depthInc_body_samples true) _ _ _ _ H1). }
    assert (S2 : samples m1 m').
    { exact (for_idx_rel samples _ _ samples_refl samples_trans (depthInc_body_samples false) _ _ _ _ H). }
    pose proof (okm_samples _ _ S1 Hm) as Hm1.
    destruct (samples_keep _ _ S1 ltac:(apply Hm)) as [_ [[_ [_ [_ [E _]]]] _]].
    destruct w.
    - eapply (loop_limit true); [exact Hm1|rewrite E; assumption| |exact H|exact Hz]. intros j q Hj. lia.
    - eapply thin_samples; [exact S2|exact Hm1|rewrite E; assumption| |exact Hz].
      intros q Hq. eapply (loop_limit false); [exact Hm|assumption| |exact H1|exact Hq]. intros j u Hj. lia.
  Qed.
End Model.

(** Between two critical depths the sampled slowness is monotone. *)
From Coq Require Import ZArith Bool List String Reals Lia Lra Psatz.
From Verif Require Import Base Num PyStr VelocityModel VelSpec VelProofs SlownessLayer SlownessModel
  SlowSpec SlowProofs SlowAddProofs SlowBuildProofs CritSpec CritProofs SlowRealProofs SampleProofs StackSpec StackProofs
  TauModel TauSpec PathSpec MonoSpec.
Import ListNotations.
Local Open Scope list_scope.
Local Open Scope R_scope.

(** ** order of the velocity layers *)
Lemma v_sorted : forall ls i j (u v : vlayer R), contiguous ls -> thick ls ->
  nth_error ls i = Some u -> nth_error ls j = Some v -> (i < j)%nat -> vl_botDepth u <= vl_topDepth v.
Proof.
  induction ls as [|x ls IH]; intros i j u v Hc Ht Hu Hv L; [destruct i; discriminate|].
  destruct j as [|j]; [lia|]. cbn [nth_error] in Hv. destruct i as [|i].
  - cbn [nth_error] in Hu. assert (E : x = u) by congruence. subst x.
    eapply below_all_R; [eassumption..|]. eapply nth_error_In; eassumption.
  - cbn [nth_error] in Hu. eapply (IH i j); [eapply contiguous_tail; eassumption|eapply thick_tail; eassumption|eassumption..|lia].
Qed.
Lemma v_thick_R : forall ls (v : vlayer R), thick ls -> In v ls -> vl_topDepth v < vl_botDepth v.
Proof. intros ls v Ht H. apply Rltb_lt, Ht, H. Qed.
Lemma v_meet : forall ls i (u v : vlayer R), contiguous ls -> nth_error ls i = Some u -> nth_error ls (S i) = Some v ->
  vl_botDepth u = vl_topDepth v.
Proof.
  induction ls as [|x ls IH]; intros i u v Hc Hu Hv; [destruct i; discriminate|].
  destruct i as [|i].
  - cbn [nth_error] in Hu, Hv. destruct ls as [|z ls]; [discriminate|]. cbn [nth_error] in Hv.
    assert (x = u) by congruence. assert (z = v) by congruence. subst. apply contiguous_head in Hc. apply Reqb_eq in Hc. exact Hc.
  - cbn [nth_error] in Hu. eapply IH; [eapply contiguous_tail; eassumption|eassumption|exact Hv].
Qed.

(** ** which profile the search for critical depths sees *)
Section Profile.
  Variables (vm : vmodel R) (innerS : bool).
  Hypothesis Hc : contiguous (vm_layers vm).
  Hypothesis Ht : thick (vm_layers vm).

  Lemma profile_fun : forall w v a b a' b', profile vm innerS w v a b -> profile vm innerS w v a' b' -> a' = a /\ b' = b.
  Proof.
    intros w v a b a' b' [[F H]|[F H]] [[F' H']|[F' H']]; try contradiction; eapply ends_fun; eassumption.
  Qed.
  Lemma not_as_p : forall i v, nth_error (vm_layers vm) i = Some v -> ~ uses_P vm innerS v -> ~ s_as_p vm innerS i v.
  Proof.
    intros i v Hv Hn [F|[E [j [a [b [Hj [Ha [Hb [F1 [F2 F3]]]]]]]]]].
    - apply Hn. left. apply Reqb_eq in F. rewrite n_0_R in F. exact F.
    - apply Hn. right. split; [exact E|]. apply Rltb_lt in F3.
      pose proof (v_sorted _ _ _ _ _ Hc Ht Ha Hv Hj). lra.
  Qed.
  Lemma fluid_as_p : forall i v, vl_topS v = 0 -> s_as_p vm innerS i v.
  Proof. intros i v E. left. apply Reqb_eq. rewrite n_0_R. exact E. Qed.
  (** the two neighbours as the search sees them, for some wave type *)
  Lemma profile_seen : forall w i u v ut ub vt vb, fluid_above_inner_core vm innerS ->
    nth_error (vm_layers vm) i = Some u -> nth_error (vm_layers vm) (S i) = Some v ->
    profile vm innerS w u ut ub -> profile vm innerS w v vt vb ->
    exists w', ends_of vm innerS w' i u ut ub /\ ends_of vm innerS w' (S i) v vt vb.
  Proof.
    intros w i u v ut ub vt vb Hfi Hu Hv Pu Pv. destruct w.
    - exists true. destruct Pu as [[_ Pu]|[F _]]; [|exfalso; apply F; left; reflexivity].
      destruct Pv as [[_ Pv]|[F _]]; [|exfalso; apply F; left; reflexivity]. split; left; auto.
    - assert (D : forall x a b, profile vm innerS false x a b ->
          (uses_P vm innerS x /\ ends true x a b) \/ (~ uses_P vm innerS x /\ ends false x a b)).
      { intros x a b [[[X|X] E]|[X E]]; [discriminate|left; auto|right; split; [|exact E]]. intros Y. apply X. right. exact Y. }
      apply D in Pu, Pv. clear D.
      assert (TL := v_meet _ _ _ _ Hc Hu Hv). assert (TU := v_thick_R _ _ Ht (nth_error_In _ _ Hu)).
      destruct Pu as [[Xu Eu]|[Xu Eu]], Pv as [[Xv Ev]|[Xv Ev]].
      + exists true. split; left; auto.
      + exists false. assert (vl_topS u = 0).
        { destruct Xu as [Xu|[X1 X2]]; [exact Xu|]. exfalso. apply Xv. right. split; [exact X1|lra]. }
        split; [right; left; split; [reflexivity|split; [apply fluid_as_p; assumption|assumption]]|].
        right. right. split; [reflexivity|]. split; [|assumption]. apply not_as_p; assumption.
      + exists false. assert (vl_topS v = 0).
        { destruct Xv as [Xv|[X1 X2]]; [exact Xv|]. destruct Hfi as [X|X]; [congruence|]. exfalso. apply Xu. left.
          apply (X u v); [exists i; auto|]. split; [|exact X2]. apply Rnot_le_lt. intros Y. apply Xu. right. auto. }
        split; [|right; left; split; [reflexivity|split; [apply fluid_as_p; assumption|assumption]]].
        right. right. split; [reflexivity|]. split; [|assumption]. apply not_as_p; assumption.
      + exists false. split; right; right; (split; [reflexivity|]; split; [apply not_as_p; assumption|assumption]).
  Qed.
  Lemma seen_turn : forall w i u v ut ub vt vb, fluid_above_inner_core vm innerS ->
    nth_error (vm_layers vm) i = Some u -> nth_error (vm_layers vm) (S i) = Some v ->
    profile vm innerS w u ut ub -> profile vm innerS w v vt vb -> ~ critical vm innerS i ->
    ub = vt /\ 0 <= (ut - ub) * (vt - vb).
  Proof.
    intros w i u v ut ub vt vb Hfi Hu Hv Pu Pv Hn.
    destruct (profile_seen _ _ _ _ _ _ _ _ Hfi Hu Hv Pu Pv) as [w' [E1 E2]].
    assert (K : ~ (n_eqb ub vt = false \/ n_ltb (n_mul (n_sub ut ub) (n_sub ub vb)) n_0 = true)).
    { intros X. apply Hn. exists u, v, w'. split; [assumption|]. split; [assumption|]. exists ut, ub, vt, vb. auto. }
    assert (E : ub = vt).
    { destruct (Req_dec ub vt) as [|X]; [assumption|]. exfalso. apply K. left. apply Reqb_ne. exact X. }
    split; [exact E|]. subst vt. apply Rnot_lt_le. intros X. apply K. right. apply Rltb_lt. rewrite n_0_R. exact X.
  Qed.
End Profile.

(** ** splitting keeps the direction *)
Definition same_way (y z : slayer R) : Prop := 0 <= (sl_topP y - sl_botP y) * (sl_topP z - sl_botP z).
(** [z] is a part of [y] *)
Definition part_of (z y : slayer R) : Prop :=
  sl_topDepth y <= sl_topDepth z /\ sl_botDepth z <= sl_botDepth y /\
  exists k, 0 < k /\ sl_topP z - sl_botP z = k * (sl_topP y - sl_botP y).
Lemma part_refl : forall y, part_of y y.
Proof. intros y. split; [lra|]. split; [lra|]. exists 1. lra. Qed.
Lemma part_same : forall y z y' z', part_of y' y -> part_of z' z -> same_way y z -> same_way y' z'.
Proof.
  intros y z y' z' [_ [_ [k [K E]]]] [_ [_ [l [L F]]]] H. unfold same_way in *. rewrite E, F.
  replace (k * (sl_topP y - sl_botP y) * (l * (sl_topP z - sl_botP z)))
    with ((k * l) * ((sl_topP y - sl_botP y) * (sl_topP z - sl_botP z))) by ring.
  apply Rmult_le_pos; [|exact H]. apply Rlt_le, Rmult_lt_0_compat; assumption.
Qed.
Lemma part_self : forall y a b, part_of a y -> part_of b y -> same_way a b.
Proof.
  intros y a b Ha Hb. eapply part_same; [exact Ha|exact Hb|]. unfold same_way. apply Rle_0_sqr.
Qed.
Lemma ratio_part : forall t p b : R, 0 < (t - p) * (p - b) -> exists k, 0 < k /\ t - p = k * (t - b).
Proof.
  intros t p b H. assert (t - b <> 0).
  { intros E. assert (b = t) by lra. subst b. pose proof (Rle_0_sqr (t - p)) as Q. unfold Rsqr in Q. lra. }
  exists ((t - p) / (t - b)). split.
  - destruct (Rlt_le_dec 0 (t - b)) as [L|L].
    + apply Rdiv_lt_0_compat; [nra|exact L].
    + assert (t - p < 0) by nra. replace ((t - p) / (t - b)) with ((p - t) / (b - t)) by (field; lra).
      apply Rdiv_lt_0_compat; lra.
  - field. assumption.
Qed.
Lemma halves_part : forall p y a b, halves p y a b -> spans y p -> sl_topDepth a <= sl_botDepth a -> sl_topDepth b <= sl_botDepth b ->
  part_of a y /\ part_of b y.
Proof.
  intros p y a b [A1 [A2 [A3 [A4 [A5 [A6 A7]]]]]] Hs Ua Ub. unfold spans in Hs. apply Rltb_lt in Hs. rewrite n_0_R in Hs.
  cbn [n_mul n_sub Num_R] in Hs. split.
  - split; [lra|]. split; [lra|]. rewrite A1, A3. apply ratio_part. exact Hs.
  - split; [lra|]. split; [lra|]. rewrite A4, A6.
    destruct (ratio_part (sl_botP y) p (sl_topP y)) as [k [K E]]; [nra|]. exists k. split; [exact K|]. lra.
Qed.

(** the layers between two critical depths, pairwise *)
Definition no_crit (cs : list R) (y z : slayer R) : Prop := forall c, In c cs -> ~ (sl_botDepth y <= c <= sl_topDepth z).
Definition turn_free (cs : list R) (y z : slayer R) : Prop := no_crit cs y z -> same_way y z.
Lemma turn_part : forall cs y z y' z', part_of y' y -> part_of z' z -> turn_free cs y z -> turn_free cs y' z'.
Proof.
  intros cs y z y' z' Py Pz H N. eapply part_same; [exact Py|exact Pz|]. apply H. intros c Hc X. apply (N c Hc).
  destruct Py as [_ [B _]], Pz as [A _]. lra.
Qed.
Lemma FOP_nth : forall {A} (P : A -> A -> Prop) l,
  ForallOrdPairs P l <-> (forall i j a b, (i < j)%nat -> nth_error l i = Some a -> nth_error l j = Some b -> P a b).
Proof.
  intros A P. induction l as [|x l IH]; split.
  - intros _ i j a b _ H. destruct i; discriminate.
  - constructor.
  - intros H i j a b L Ha Hb. inversion H as [|x' l' F G]; subst. destruct j as [|j]; [lia|]. cbn [nth_error] in Hb.
    destruct i as [|i]; cbn [nth_error] in Ha.
    + inversion Ha; subst. rewrite Forall_forall in F. apply F. eapply nth_error_In; eassumption.
    + apply (proj1 IH G i j); [lia|assumption..].
  - intros H. constructor.
    + apply Forall_forall. intros z Hz. apply In_nth_error in Hz. destruct Hz as [j Hj]. apply (H 0%nat (S j)); [lia|reflexivity|exact Hj].
    + apply IH. intros i j a b L Ha Hb. apply (H (S i) (S j)); [lia|assumption..].
Qed.
Lemma splice_pairs : forall cs f l,
  (forall y a b, In y l -> f (sl_id y) = Some (a, b) -> part_of a y /\ part_of b y) ->
  ForallOrdPairs (turn_free cs) l -> ForallOrdPairs (turn_free cs) (splice f l).
Proof.
  intros cs f. induction l as [|y l IH]; intros Hp H; [constructor|].
  inversion H as [|y' l' F G]; subst. specialize (IH (fun u a b Hu => Hp u a b (or_intror Hu)) G).
  assert (K : forall y', part_of y' y -> Forall (turn_free cs y') (splice f l)).
  { intros y' Py. apply Forall_forall. intros z' Hz'. unfold splice in Hz'. apply in_flat_map in Hz'. destruct Hz' as [z [Hz Hz']].
    rewrite Forall_forall in F. destruct (f (sl_id z)) as [[a b]|] eqn:E.
    - destruct (Hp z a b (or_intror Hz) E) as [Pa Pb]. destruct Hz' as [<-|[<-|[]]].
      + eapply turn_part; [exact Py|exact Pa|]. apply F. exact Hz.
      + eapply turn_part; [exact Py|exact Pb|]. apply F. exact Hz.
    - destruct Hz' as [<-|[]]. eapply turn_part; [exact Py|apply part_refl|]. apply F. exact Hz. }
  cbn [splice flat_map]. fold (splice f l). destruct (f (sl_id y)) as [[a b]|] eqn:E; cbn [app].
  - destruct (Hp y a b (or_introl eq_refl) E) as [Pa Pb]. constructor; [|constructor; [apply K; exact Pb|exact IH]].
    constructor; [|apply K; exact Pa]. intros _. eapply part_self; eassumption.
  - constructor; [apply K, part_refl|exact IH].
Qed.

Definition slanted (y : slayer R) : Prop := sl_topDepth y < sl_botDepth y -> sl_topP y <> sl_botP y.
Section Keep.
  Variable vm : vmodel R.
  Hypothesis Hc : contiguous (vm_layers vm).
  Hypothesis Ht : thick (vm_layers vm).
  Hypothesis Hl : forall v, In v (vm_layers vm) -> layer_ok v.

  (** every layer put in is a part of the one taken out *)
  Lemma step_parts : forall m p w m' v, addSlowness m p w = Ok m' -> okm vm m ->
    exists f, sm_layers m' v = splice f (sm_layers m v) /\
      forall y a b, In y (sm_layers m v) -> f (sl_id y) = Some (a, b) -> part_of a y /\ part_of b y /\ sl_topP y <> sl_botP y.
  Proof.
    intros m p w m' v H Hm. pose proof (okm_step vm Hc Ht Hl _ _ _ _ H Hm) as Hm'.
    pose proof Hm as [_ [Hid _]]. apply addSlowness_spec in H; [|assumption].
    destruct H as [_ [_ [_ [f [A [B [C [D E]]]]]]]]. exists f.
    assert (AB : sm_layers m' v = splice f (sm_layers m v)) by (destruct v, w; assumption).
    split; [exact AB|]. intros z a b Hz F.
    assert (Hzw : In z (sm_layers m w)).
    { assert (I : f (sl_id z) <> None) by congruence. apply C in I. apply in_map_iff in I.
      destruct I as [q [Eq Hq]]. destruct Hid as [ND1 [ND2 [_ Ag]]].
      destruct v, w; cbn [sm_layers] in *.
      - assumption.
      - assert (z = q) by (apply Ag; auto). subst. assumption.
      - assert (q = z) by (apply Ag; auto). subst. assumption.
      - assumption. }
    destruct (D _ _ _ Hzw F) as [A1 A2].
    assert (Ia : In a (sm_layers m' v) /\ In b (sm_layers m' v)).
    { rewrite AB. unfold splice. split; apply in_flat_map; exists z; rewrite F;
        (split; [assumption|]); [left|right; left]; reflexivity. }
    pose proof (okm_upright vm _ _ _ Hm' (proj1 Ia)) as Ua. pose proof (okm_upright vm _ _ _ Hm' (proj2 Ia)) as Ub.
    assert (Sp : spans z p).
    { apply In_nth_error in Hzw. destruct Hzw as [i Hi]. specialize (E i z Hi).
      destruct (n_ltb n_0 (n_mul (n_sub (sl_topP z) p) (n_sub p (sl_botP z)))) eqn:X; [exact X|].
      exfalso. assert (Q : f (sl_id z) = None); [|congruence]. apply E. intros [Y _]. unfold spans in Y. congruence. }
    destruct (halves_part p z a b A1 Sp Ua Ub) as [P1 P2]. split; [exact P1|]. split; [exact P2|].
    intros X. unfold spans in Sp. apply Rltb_lt in Sp. rewrite n_0_R in Sp. cbn [n_mul n_sub Num_R] in Sp. rewrite <- X in Sp.
    pose proof (Rle_0_sqr (sl_topP z - p)) as Q. unfold Rsqr in Q. lra.
  Qed.
  Lemma pairs_samples : forall cs m m' v, samples m m' -> okm vm m ->
    ForallOrdPairs (turn_free cs) (sm_layers m v) -> Forall slanted (sm_layers m v) ->
    ForallOrdPairs (turn_free cs) (sm_layers m' v) /\ Forall slanted (sm_layers m' v).
  Proof.
    intros cs m m' v H. induction H as [m|m p w m1 m2 H S IH]; intros Hm F G; [auto|].
    apply IH; [eapply okm_step; eassumption| |].
    - destruct (step_parts _ _ _ _ v H Hm) as [f [-> K]]. apply splice_pairs; [|exact F].
      intros y a b Hy E. destruct (K y a b Hy E) as [K1 [K2 _]]. auto.
    - destruct (step_parts _ _ _ _ v H Hm) as [f [-> K]]. apply Forall_forall. intros z' Hz'.
      unfold splice in Hz'. apply in_flat_map in Hz'. destruct Hz' as [z [Hz Hz']]. rewrite Forall_forall in G.
      destruct (f (sl_id z)) as [[a b]|] eqn:E.
      + destruct (K z a b Hz E) as [[_ [_ [k [K1 E1]]]] [[_ [_ [l [L1 E2]]]] NE]].
        destruct Hz' as [<-|[<-|[]]]; intros _ X.
        * assert (Y : k * (sl_topP z - sl_botP z) = 0) by lra. apply Rmult_integral in Y. lra.
        * assert (Y : l * (sl_topP z - sl_botP z) = 0) by lra. apply Rmult_integral in Y. lra.
      + destruct Hz' as [<-|[]]. apply G. exact Hz.
  Qed.
End Keep.

(** ** the first sampling *)
Section Start.
  Variable m : smodel R.
  Let vm := sm_vMod m.
  Let innerS := sm_allowInnerCoreS m.
  Hypothesis Hc : contiguous (vm_layers vm).
  Hypothesis Ht : thick (vm_layers vm).
  Hypothesis Hl : forall l, In l (vm_layers vm) -> layer_ok l.
  Hypothesis Hf : fluid_runs (vm_layers vm) (sm_fluid m).
  Variable cs : list R.
  Hypothesis Hcs : forall i v, critical vm innerS i -> nth_error (vm_layers vm) (S i) = Some v -> In (vl_topDepth v) cs.

  Lemma profile_ends : forall w v, In v (vm_layers vm) ->
    exists pv : bool, (pv = true <-> follows_P vm innerS w v) /\ profile vm innerS w v (top_of pv v) (bot_of pv v).
  Proof.
    intros w v Hv. destruct (layer_facts m Ht Hl v Hv) as [A [B [C _]]].
    assert (E6 : @n_lit R _ 6371 0 = 6371) by (exact (Rlit_0 6371)).
    assert (D : follows_P vm innerS w v \/ ~ follows_P vm innerS w v).
    { unfold follows_P, uses_P. destruct w; [auto|]. destruct (Req_dec (vl_topS v) 0); [auto|].
      destruct innerS eqn:Ei; [right; intros [X|[X|[X _]]]; congruence|].
      destruct (Rle_dec (vm_iocb vm) (vl_topDepth v)); [auto|right]. intros [X|[X|[_ X]]]; [discriminate|contradiction..]. }
    destruct D as [D|D].
    - exists true. split; [tauto|]. left. split; [exact D|]. unfold ends. rewrite E6.
      split; (rewrite py_div_R; [reflexivity|lra]).
    - exists false. split; [split; [discriminate|contradiction]|]. right. split; [exact D|]. unfold ends. rewrite E6.
      assert (N : vl_topS v <> 0) by (intros X; apply D; right; left; exact X).
      split; (rewrite py_div_R; [reflexivity|tauto]).
  Qed.

  Definition drawn (w : bool) (y : slayer R) : Prop :=
    (exists v, In v (vm_layers vm) /\ sl_topDepth y = vl_topDepth v /\ sl_botDepth y = vl_botDepth v /\
       profile vm innerS w v (sl_topP y) (sl_botP y)) \/
    (sl_topDepth y = sl_botDepth y /\ (sl_topP y = sl_botP y \/ In (sl_topDepth y) cs)).

  Lemma drawn_profile : forall w v y, In v (vm_layers vm) -> sl_topDepth y = vl_topDepth v -> sl_botDepth y = vl_botDepth v ->
    (exists pv : bool, (pv = true <-> follows_P vm innerS w v) /\ sl_topP y = top_of pv v /\ sl_botP y = bot_of pv v) ->
    drawn w y.
  Proof.
    intros w v y Hv E1 E2 [pv [P [E3 E4]]]. left. exists v. do 3 (split; [assumption|]).
    destruct (profile_ends w v Hv) as [qv [Q HQ]]. assert (qv = pv).
    { destruct qv, pv; try reflexivity; exfalso; [assert (X : false = true) by (apply P, Q; reflexivity)|
        assert (X : false = true) by (apply Q, P; reflexivity)]; discriminate. }
    subst qv. rewrite E3, E4. exact HQ.
  Qed.

  Lemma jump_critical : forall i u v w a b, nth_error (vm_layers vm) i = Some u -> nth_error (vm_layers vm) (S i) = Some v ->
    (exists ut, ends_of vm innerS w i u ut a) -> (exists vb, ends_of vm innerS w (S i) v b vb) -> a <> b ->
    In (vl_botDepth u) cs.
  Proof.
    intros i u v w a b Hu Hv [ut Eu] [vb Ev] N. rewrite (v_meet _ _ _ _ Hc Hu Hv). apply (Hcs i v); [|exact Hv].
    exists u, v, w. do 2 (split; [assumption|]). exists ut, a, b, vb. do 2 (split; [assumption|]). left. apply Reqb_ne. exact N.
  Qed.
  Lemma ends_P : forall v, In v (vm_layers vm) -> ends true v (top_of true v) (bot_of true v).
  Proof.
    intros v Hv. destruct (layer_facts m Ht Hl v Hv) as [A [B [C _]]].
    assert (E6 : @n_lit R _ 6371 0 = 6371) by (exact (Rlit_0 6371)). unfold ends. rewrite E6.
    split; (rewrite py_div_R; [reflexivity|lra]).
  Qed.
  Lemma ends_S : forall v, In v (vm_layers vm) -> vl_topS v <> 0 -> ends false v (top_of false v) (bot_of false v).
  Proof.
    intros v Hv N. destruct (layer_facts m Ht Hl v Hv) as [A [B [C _]]].
    assert (E6 : @n_lit R _ 6371 0 = 6371) by (exact (Rlit_0 6371)). unfold ends. rewrite E6.
    split; (rewrite py_div_R; [reflexivity|tauto]).
  Qed.

  Lemma drawn_step : forall i u v Ps Ss next st', nth_error (vm_layers vm) i = Some u -> nth_error (vm_layers vm) (S i) = Some v ->
    (forall y, In y Ps -> drawn true y) -> (forall y, In y Ss -> drawn false y) ->
    coarse_step m (Ps, Ss, next, u) v = Ok st' ->
    exists Ps' Ss' next', st' = (Ps', Ss', next', v) /\
      (forall y, In y Ps' -> drawn true y) /\ (forall y, In y Ss' -> drawn false y).
  Proof.
    intros i u v Ps Ss next st' Hu Hv DP DS H.
    pose proof (nth_error_In _ _ Hu) as Iu. pose proof (nth_error_In _ _ Hv) as Iv.
    apply coarse_step_out in H; [|assumption..].
    destruct H as [Pz [Sz [nx [cP [cS [E [A1 [A2 [A3 [A4 [A5 [A6 [A7 Z]]]]]]]]]]]]].
    exists (Ps ++ Pz ++ [cP]), (Ss ++ Sz ++ [cS]), nx. split; [exact E|]. clear E.
    destruct (layer_facts m Ht Hl u Iu) as [F1 [F2 [F3 F4]]]. destruct (layer_facts m Ht Hl v Iv) as [G1 [G2 [G3 G4]]].
    pose proof (v_meet _ _ _ _ Hc Hu Hv) as TL.
    assert (KP : drawn true cP).
    { apply (drawn_profile true v); [assumption..|]. exists true. split; [|auto]. split; [intros _; left; reflexivity|reflexivity]. }
    assert (KS : drawn false cS).
    { apply (drawn_profile false v); [assumption..|]. destruct A7 as [[X [Y Y']]|[X [_ [_ [Y Y']]]]].
      - exists true. split; [|auto]. split; [intros _; right; exact X|reflexivity].
      - exists false. split; [|auto]. split; [discriminate|]. intros [W|W]; [discriminate|contradiction]. }
    assert (KZ : (forall y, In y Pz -> drawn true y) /\ (forall y, In y Sz -> drawn false y)).
    { destruct Z as [[-> [-> _]]|[zP [zS [-> [-> [ZJ [Z1 [Z2 [Z3 [Z4 [Z5 [Z6 Z7]]]]]]]]]]]]; [split; intros y []|].
      assert (JP : sl_topP zP = sl_botP zP \/ In (sl_topDepth zP) cs).
      { destruct (Req_dec (sl_topP zP) (sl_botP zP)) as [X|X]; [auto|right]. rewrite Z3.
        eapply (jump_critical i u v true _ _ Hu Hv); [| |exact X].
        - exists (top_of true u). left. split; [reflexivity|]. rewrite Z5. apply ends_P. exact Iu.
        - exists (bot_of true v). left. split; [reflexivity|]. rewrite Z6, TL. apply ends_P. exact Iv. }
      assert (DZ : forall w, drawn w zP) by (intros w; right; split; [congruence|exact JP]).
      split; intros y [<-|[]]; [apply DZ|].
      destruct Z7 as [[-> _]|[NF [NI [Y1 [Y2 [Y3 [Y4 [Y5 Y6]]]]]]]]; [apply DZ|].
      right. split; [congruence|]. destruct (Req_dec (sl_topP zS) (sl_botP zS)) as [X|X]; [auto|right]. rewrite Y1.
      assert (NB : forall k, (k <= S i)%nat -> ~ (innerS = false /\ below_fluid vm k)).
      { intros k Lk [EI [j [a [b [Hj [Ha [Hb [B1 [B2 B3]]]]]]]]]. destruct NI as [NI|NI]; [fold innerS in NI; congruence|].
        apply Rltb_lt in B3. fold vm in NI.
        assert (AU : vl_botDepth a <= vl_botDepth u); [|clear - AU B3 NI; lra]. destruct (Nat.eq_dec j i) as [->|Nj].
        - assert (a = u) by congruence. subst. lra.
        - pose proof (v_sorted _ _ _ _ _ Hc Ht Ha Hu ltac:(lia)) as AV. clear - AV F4. lra. }
      eapply (jump_critical i u v false _ _ Hu Hv); [| |exact X].
      - destruct (Req_dec (vl_topS u) 0) as [Q|Q].
        + exists (top_of true u). right. left. split; [reflexivity|]. split; [apply fluid_as_p; exact Q|].
          rewrite (Y3 (proj1 F3 Q)). apply ends_P. exact Iu.
        + exists (top_of false u). right. right. split; [reflexivity|]. split.
          * intros [W|W]; [|apply (NB i) in W; [contradiction|lia]]. apply Reqb_eq in W. rewrite n_0_R in W. contradiction.
          * rewrite (Y4 (fun X' => Q (proj2 F3 X'))). apply ends_S; assumption.
      - destruct (Req_dec (vl_topS v) 0) as [Q|Q].
        + exists (bot_of true v). right. left. split; [reflexivity|]. split; [apply fluid_as_p; exact Q|].
          rewrite (Y5 Q). rewrite TL. apply ends_P. exact Iv.
        + exists (bot_of false v). right. right. split; [reflexivity|]. split.
          * intros [W|W]; [|apply (NB (S i)) in W; [contradiction|lia]]. apply Reqb_eq in W. rewrite n_0_R in W. contradiction.
          * rewrite (Y6 Q). rewrite TL. apply ends_S; assumption. }
    split; intros y Hy; rewrite !in_app_iff in Hy.
    - destruct Hy as [Hy|[Hy|[<-|[]]]]; [apply DP|apply KZ|exact KP]; assumption.
    - destruct Hy as [Hy|[Hy|[<-|[]]]]; [apply DS|apply KZ|exact KS]; assumption.
  Qed.

  Lemma drawn_first : forall first next st', In first (vm_layers vm) ->
    coarse_step m ([], [], next, vl_surface first) first = Ok st' ->
    exists Ps Ss next', st' = (Ps, Ss, next', first) /\
      (forall y, In y Ps -> drawn true y) /\ (forall y, In y Ss -> drawn false y).
  Proof.
    intros first next st' Iv H. apply coarse_step_out in H; [|assumption..].
    destruct H as [Pz [Sz [nx [cP [cS [E [A1 [A2 [A3 [A4 [A5 [A6 [A7 Z]]]]]]]]]]]]].
    subst st'.
    assert (KP : drawn true cP).
    { apply (drawn_profile true first); [assumption..|]. exists true. split; [|auto]. split; [intros _; left; reflexivity|reflexivity]. }
    assert (KS : drawn false cS).
    { apply (drawn_profile false first); [assumption..|]. destruct A7 as [[X [Y Y']]|[X [_ [_ [Y Y']]]]].
      - exists true. split; [|auto]. split; [intros _; right; exact X|reflexivity].
      - exists false. split; [|auto]. split; [discriminate|]. intros [W|W]; [discriminate|contradiction]. }
    destruct Z as [[-> [-> _]]|[zP [zS [-> [-> [ZJ _]]]]]]; cbn [app].
    - exists [cP], [cS], nx. split; [reflexivity|]. split; intros y [<-|[]]; assumption.
    - exfalso. cbn [vl_surface vl_botP vl_botS] in ZJ. tauto.
  Qed.

  Lemma drawn_fold : forall ls l0 u Ps Ss next st', vm_layers vm = l0 ++ u :: ls ->
    (forall y, In y Ps -> drawn true y) -> (forall y, In y Ss -> drawn false y) ->
    foldM (coarse_step m) ls (Ps, Ss, next, u) = Ok st' ->
    exists Ps' Ss' next' v, st' = (Ps', Ss', next', v) /\
      (forall y, In y Ps' -> drawn true y) /\ (forall y, In y Ss' -> drawn false y).
  Proof.
    induction ls as [|v ls IH]; intros l0 u Ps Ss next st' E DP DS H; cbn [foldM] in H.
    - inversion H; subst. exists Ps, Ss, next, u. auto.
    - inv_as H as st Ha.
      assert (Hu : nth_error (vm_layers vm) (List.length l0) = Some u).
      { rewrite E, nth_error_app2, Nat.sub_diag by lia. reflexivity. }
      assert (Hv : nth_error (vm_layers vm) (S (List.length l0)) = Some v).
      { rewrite E, nth_error_app2 by lia. replace (S (List.length l0) - List.length l0)%nat with 1%nat by lia. reflexivity. }
      destruct (drawn_step _ _ _ _ _ _ _ Hu Hv DP DS Ha) as [P' [S' [n' [-> [D1 D2]]]]].
      eapply (IH (l0 ++ [u]) v); [rewrite <- app_assoc; exact E|exact D1|exact D2|exact H].
  Qed.
  Lemma drawn_start : forall m0, coarse_start m m0 -> forall w y, In y (sm_layers m0 w) -> drawn w y.
  Proof.
    intros m0 [first [Ps [Ss [next [v [Hi [Hfold ->]]]]]]].
    fold vm in Hi, Hfold.
    assert (El : exists f ls, vm_layers vm = f :: ls).
    { clear - Hi. destruct (vm_layers vm) as [|f ls]; [discriminate|eauto]. }
    destruct El as [f [ls El]]. rewrite El in Hi, Hfold.
    change (@Ok (vlayer R) f = Ok first) in Hi. inversion Hi; subst first. cbn [foldM] in Hfold.
    inv_as Hfold as st Ha. assert (In f (vm_layers vm)) as Hv by (rewrite El; left; reflexivity).
    apply drawn_first in Ha; [|exact Hv]. destruct Ha as [Pa [Sa [na [-> [D1 D2]]]]].
    eapply (drawn_fold ls []) in Hfold; [|exact El|exact D1|exact D2].
    destruct Hfold as [Ps' [Ss' [n' [p' [E [A B]]]]]]. inversion E; subst.
    intros w y Hy. destruct w; [apply A|apply B]; exact Hy.
  Qed.

  Hypothesis Hflat : no_flat vm innerS.
  Hypothesis Hfi : fluid_above_inner_core vm innerS.

  (** no critical depth between two layers: the slowness goes the same way in both *)
  Lemma same_chain : forall w n i u v ut ub vt vb,
    nth_error (vm_layers vm) i = Some u -> nth_error (vm_layers vm) (i + n)%nat = Some v ->
    profile vm innerS w u ut ub -> profile vm innerS w v vt vb ->
    (forall c, In c cs -> ~ (vl_botDepth u <= c <= vl_topDepth v)) -> 0 < (ut - ub) * (vt - vb).
  Proof.
    intros w. induction n as [|n IH]; intros i u v ut ub vt vb Hu Hv Pu Pv N.
    - replace (i + 0)%nat with i in Hv by lia. assert (v = u) by congruence. subst v.
      destruct (profile_fun _ _ _ _ _ _ _ _ Pu Pv) as [-> ->].
      pose proof (Hflat w u ut ub (nth_error_In _ _ Hu) Pu). apply Rsqr_pos_lt. lra.
    - assert (Hx : exists x, nth_error (vm_layers vm) (i + n)%nat = Some x).
      { destruct (nth_error (vm_layers vm) (i + n)%nat) as [x|] eqn:E; [eauto|]. exfalso. apply nth_error_None in E.
        assert (i + S n < List.length (vm_layers vm))%nat by (apply nth_error_Some; congruence). lia. }
      destruct Hx as [x Hx]. destruct (profile_ends w x (nth_error_In _ _ Hx)) as [pv [_ Px]].
      replace (i + S n)%nat with (S (i + n)) in Hv by lia.
      pose proof (v_meet _ _ _ _ Hc Hx Hv) as TL. pose proof (v_thick_R _ _ Ht (nth_error_In _ _ Hx)) as TX.
      pose proof (v_thick_R _ _ Ht (nth_error_In _ _ Hu)) as TU.
      assert (LU : vl_botDepth u <= vl_botDepth x).
      { destruct n as [|n]; [replace (i + 0)%nat with i in Hx by lia; assert (x = u) by congruence; subst; lra|].
        pose proof (v_sorted _ _ _ _ _ Hc Ht Hu Hx ltac:(lia)). lra. }
      pose proof (IH i u x ut ub _ _ Hu Hx Pu Px ltac:(intros c Ic X; apply (N c Ic); lra)) as K1.
      assert (NC : ~ critical vm innerS (i + n)).
      { intros X. apply (N (vl_topDepth v)); [eapply Hcs; eassumption|lra]. }
      destruct (seen_turn vm innerS Hc Ht w _ _ _ _ _ _ _ Hfi Hx Hv Px Pv NC) as [_ K2].
      pose proof (Hflat w v vt vb (nth_error_In _ _ Hv) Pv) as K3.
      set (a := ut - ub) in *. set (b := top_of pv x - bot_of pv x) in *. set (c := vt - vb) in *.
      assert (c <> 0) by (unfold c; lra). clearbody a b c. clear - K1 K2 H.
      destruct (Rlt_le_dec 0 b); destruct (Rlt_le_dec 0 a); destruct (Rlt_le_dec 0 c); nra.
  Qed.

  Lemma start_pairs : forall m0, coarse_start m m0 -> forall w, s_meet (sm_layers m0 w) ->
    (forall y, In y (sm_layers m0 w) -> sl_topDepth y <= sl_botDepth y) ->
    ForallOrdPairs (turn_free cs) (sm_layers m0 w) /\ Forall slanted (sm_layers m0 w).
  Proof.
    intros m0 H w Hm Hu. pose proof (drawn_start m0 H w) as D. split.
    - apply FOP_nth. intros i j y z L Hy Hz NC. unfold same_way.
      assert (LD : sl_botDepth y <= sl_topDepth z).
      { apply Rleb_le. eapply (s_sorted _ j i y z); [exact Hm| |exact Hy|exact Hz|exact L].
        intros q Hq. apply Rleb_le, Hu. exact Hq. }
      pose proof (nth_error_In _ _ Hy) as Iy. pose proof (nth_error_In _ _ Hz) as Iz.
      destruct (D y Iy) as [[u [Iu [U1 [U2 U3]]]]|[U1 U2]].
      + destruct (D z Iz) as [[v [Iv [V1 [V2 V3]]]]|[V1 V2]].
        * destruct (In_nth_error _ _ Iu) as [iu Hiu]. destruct (In_nth_error _ _ Iv) as [iv Hiv].
          pose proof (v_thick_R _ _ Ht Iu). pose proof (v_thick_R _ _ Ht Iv).
          assert (Lt : (iu <= iv)%nat).
          { destruct (Nat.le_gt_cases iu iv) as [|X]; [assumption|exfalso].
            pose proof (v_sorted _ _ _ _ _ Hc Ht Hiv Hiu X). lra. }
          apply Rlt_le. eapply (same_chain w (iv - iu) iu u v); [exact Hiu| |exact U3|exact V3|].
          -- replace (iu + (iv - iu))%nat with iv by lia. exact Hiv.
          -- intros c Ic X. apply (NC c Ic). rewrite U2, V1. exact X.
        * destruct V2 as [V2|V2]; [rewrite V2; lra|]. exfalso. apply (NC _ V2). lra.
      + destruct U2 as [U2|U2]; [rewrite U2; lra|]. exfalso. apply (NC _ U2). lra.
    - apply Forall_forall. intros y Hy X. destruct (D y Hy) as [[u [Iu [U1 [U2 U3]]]]|[U1 U2]]; [|lra].
      eapply Hflat; eassumption.
  Qed.
End Start.

(** ** the constructed model *)
Lemma picks_in : forall {A} (P : nat -> Prop) n (l : list A) out, picks P n l out ->
  forall k a, nth_error l k = Some a -> P (n + k)%nat -> In ((n + k)%nat, a) out.
Proof.
  intros A P n l out H. induction H as [n|n a l out Hp H IH|n a l out Hp H IH]; intros k x Hk Hx.
  - destruct k; discriminate.
  - destruct k as [|k].
    + cbn [nth_error] in Hk. inversion Hk; subst. left. rewrite Nat.add_0_r. reflexivity.
    + right. replace (n + S k)%nat with (S n + k)%nat in * by lia. apply IH; assumption.
  - destruct k as [|k].
    + exfalso. rewrite Nat.add_0_r in Hx. contradiction.
    + replace (n + S k)%nat with (S n + k)%nat in * by lia. apply IH; assumption.
Qed.
Lemma mapM_depths : forall fuel (m : smodel R) l crit,
  mapM (fun cd => let! pn := fix_crit_num fuel m (cd_depth cd) true in
                  let! sn := fix_crit_num fuel m (cd_depth cd) false in
                  Ok (mkCD (cd_depth cd) (cd_vel cd) pn sn)) l = Ok crit ->
  map cd_depth crit = map cd_depth l.
Proof.
  intros fuel m. induction l as [|c l IH]; intros crit H; cbn [mapM] in H.
  - inversion H; reflexivity.
  - inv_as H as x Hx. inv_as H as xs Hxs. inversion H; subst. inv_as Hx as pn H1. inv_as Hx as sn H2.
    inversion Hx; subst. cbn [map cd_depth]. rewrite (IH _ Hxs). reflexivity.
Qed.

Lemma constructed_pairs : forall {L : Libm R} fuel vm dp Dp dz dx err innerS tol (m : smodel R),
  newSlownessModel fuel vm dp Dp dz dx err innerS tol = Ok m ->
  thick (vm_layers vm) -> vm_radius vm = 6371 -> no_flat vm innerS -> fluid_above_inner_core vm innerS ->
  forall w, ForallOrdPairs (turn_free (map cd_depth (sm_crit m))) (sm_layers m w) /\ Forall slanted (sm_layers m w).
Proof.
  intros L fuel vm dp Dp dz dx err innerS tol m H Ht Hr Hnf Hfi w.
  unfold newSlownessModel in H. apply createSample_steps in H.
  destruct H as [m1 [m0 [m5 [crit [Hv [Hf [Hc [Hs [Hm [E Hval]]]]]]]]]].
  assert (Hne : vm_layers vm <> []).
  { intros En. destruct Hc as [first [_ [_ [_ [_ [Hi _]]]]]].
    pose proof (findCritical_spec _ _ Hf) as [F1 _]. cbn in F1. rewrite F1, En in Hi. discriminate. }
  apply (validate_iff _ (model_numbers_R _) Hne) in Hv. cbn [sm_init sm_vMod] in Hv. destruct Hv as [_ [Hco Hl]].
  pose proof (findCritical_exact _ _ Hf) as [out [Hpk [Hcr Fl]]].
  pose proof (findCritical_spec _ _ Hf) as [F1 [F2 [F3 _]]].
  pose proof (findCritical_inner _ _ Hf) as F4.
  cbn [sm_set_radius sm_vMod sm_radius sm_init sm_allowInnerCoreS] in *.
  assert (I0 : well_sampled vm m0 /\ ids_ok m0 /\
    (forall y, In y (sm_P m0) \/ In y (sm_S m0) -> sl_topDepth y <= sl_botDepth y)).
  { rewrite <- F1. apply (coarse_start_inv m1); try rewrite F1; auto. }
  destruct I0 as [I0 [Id0 U0]].
  destruct (samples_keep _ _ Hs Id0) as [Id5 [SS5 _]].
  assert (SS0 : same_setup m1 m0) by (apply coarse_start_spec in Hc; apply Hc).
  assert (M5 : forall w, s_meet (sm_layers m5 w)).
  { intros u. assert (G : stack_good (sm_radius (sm_set_crit m5 crit)) (sm_layers (sm_set_crit m5 crit) u)).
    { apply valid_stacks; [apply Reqb_eq; reflexivity|subst m; assumption]. }
    replace (sm_layers m5 u) with (sm_layers (sm_set_crit m5 crit) u) by (destruct u; reflexivity). apply G. }
  pose proof (samples_meet_back _ _ Hs Id0 M5) as M0.
  assert (Hm0 : okm vm m0) by (unfold okm; auto).
  assert (Ecr : map cd_depth (sm_crit m) = map cd_depth (sm_crit m1)).
  { subst m. cbn [sm_set_crit sm_crit]. rewrite (mapM_depths _ _ _ _ Hm).
    assert (sm_crit m5 = sm_crit m1); [|congruence].
    pose proof (same_setup_trans _ _ _ SS0 SS5) as SS. unfold same_setup in SS. decompose [and] SS. congruence. }
  rewrite Ecr.
  replace (sm_layers m w) with (sm_layers m5 w) by (subst m; destruct w; reflexivity).
  assert (SP : ForallOrdPairs (turn_free (map cd_depth (sm_crit m1))) (sm_layers m0 w) /\ Forall slanted (sm_layers m0 w)).
  { apply (start_pairs m1); rewrite ?F1, ?F4; try assumption.
    - intros i v Hi Hv. rewrite Hcr. cbn [map]. right. rewrite map_app, in_app_iff. left.
      apply in_map_iff. exists (cd_of (S i, v)). split; [reflexivity|]. apply in_map.
      apply (picks_in _ _ _ _ Hpk (S i) v Hv). exact Hi.
    - exact (M0 w).
    - intros y Hy. apply U0. destruct w; auto. }
  destruct SP as [SP1 SP2]. exact (pairs_samples vm Hco Ht Hl _ _ _ _ Hs Hm0 SP1 SP2).
Qed.

(** ** the layers of a branch *)
Lemma one_way : forall (ls : list (slayer R)) n i, (i + n <= List.length ls)%nat ->
  (forall k y, (i <= k < i + n)%nat -> nth_error ls k = Some y -> sl_botP y <= sl_topP y) \/
  (exists k y, (i <= k < i + n)%nat /\ nth_error ls k = Some y /\ sl_topP y < sl_botP y).
Proof.
  intros ls. induction n as [|n IH]; intros i L; [left; intros; lia|].
  destruct (IH i ltac:(lia)) as [A|[k [y [A B]]]]; [|right; exists k, y; split; [lia|exact B]].
  destruct (nth_error ls (i + n)) as [x|] eqn:E; [|apply nth_error_None in E; lia].
  destruct (Rle_lt_dec (sl_botP x) (sl_topP x)) as [X|X].
  - left. intros k y Hk Hy. destruct (Nat.eq_dec k (i + n)) as [->|N]; [|apply (A k); [lia|assumption]].
    assert (y = x) by congruence. subst. exact X.
  - right. exists (i + n)%nat, x. split; [lia|]. auto.
Qed.
Lemma steady_range : forall (ls : list (slayer R)) i j, s_join ls -> (j < List.length ls)%nat ->
  Forall slanted ls -> (forall y, In y ls -> sl_topDepth y <= sl_botDepth y) ->
  (forall k l y z, (i <= k < l)%nat -> (l <= j)%nat -> nth_error ls k = Some y -> nth_error ls l = Some z -> same_way y z) ->
  falls ls i j \/ rises ls i j.
Proof.
  intros ls i j Hj L Hs Hu Hp. rewrite Forall_forall in Hs.
  assert (Q : forall k y, nth_error ls k = Some y -> sl_botP y = sl_topP y -> sl_topDepth y = sl_botDepth y).
  { intros k y Hy E. pose proof (nth_error_In _ _ Hy) as I. pose proof (Hu y I).
    destruct (Req_dec (sl_topDepth y) (sl_botDepth y)) as [|N]; [assumption|]. exfalso. apply (Hs y I); [lra|congruence]. }
  assert (J : forall k y z, nth_error ls k = Some y -> nth_error ls (S k) = Some z -> sl_botP y = sl_topP z).
  { intros k y z Hy Hz. apply Reqb_eq. eapply Hj; eassumption. }
  destruct (Nat.le_gt_cases i j) as [Lij|Lij]; [|left; intros k y Hk; lia].
  destruct (one_way ls (S j - i) i ltac:(lia)) as [A|[k0 [y0 [K [Hy0 B]]]]].
  - left. intros k y Hk Hy. split; [apply (A k); [lia|assumption]|]. split; [eapply Q; eassumption|].
    intros z Hkj Hz. rewrite (J _ _ _ Hy Hz). lra.
  - right. intros k y Hk Hy. split; [|split; [eapply Q; eassumption|]].
    + destruct (Nat.eq_dec k k0) as [->|N]; [assert (y = y0) by congruence; subst; lra|].
      destruct (Nat.lt_ge_cases k k0) as [Lk|Lk].
      * pose proof (Hp k k0 y y0 ltac:(lia) ltac:(lia) Hy Hy0) as W. unfold same_way in W. nra.
      * pose proof (Hp k0 k y0 y ltac:(lia) ltac:(lia) Hy0 Hy) as W. unfold same_way in W. nra.
    + intros z Hkj Hz. rewrite (J _ _ _ Hy Hz). lra.
Qed.

(** nothing lies strictly between two consecutive numbers of an increasing list *)
Lemma gap_free : forall (l : list R), (forall i a b, nth_error l i = Some a -> nth_error l (S i) = Some b -> a < b) ->
  forall i a b c, nth_error l i = Some a -> nth_error l (S i) = Some b -> In c l -> ~ (a < c < b).
Proof.
  intros l Hl. assert (M : forall n i a b, nth_error l i = Some a -> nth_error l (i + n)%nat = Some b -> a <= b).
  { induction n as [|n IH]; intros i a b Ha Hb.
    - rewrite Nat.add_0_r in Hb. assert (a = b) by congruence. lra.
    - destruct (nth_error l (i + n)%nat) as [x|] eqn:E.
      + pose proof (IH i a x Ha E). replace (i + S n)%nat with (S (i + n)) in Hb by lia. pose proof (Hl _ _ _ E Hb). lra.
      + exfalso. apply nth_error_None in E. assert (i + S n < List.length l)%nat by (apply nth_error_Some; congruence). lia. }
  intros i a b c Ha Hb Hc X. apply In_nth_error in Hc. destruct Hc as [k Hk].
  destruct (Nat.le_gt_cases k i) as [L|L].
  - pose proof (M (i - k)%nat k c a Hk). replace (k + (i - k))%nat with i in H by lia. specialize (H Ha). lra.
  - pose proof (M (k - S i)%nat (S i) b c Hb). replace (S i + (k - S i))%nat with k in H by lia. specialize (H Hk). lra.
Qed.
Lemma branch_gap : forall cr (bs : list (tbranch R)) b c, tiles cr bs -> b_upright bs -> In b bs -> In c (map cd_depth cr) ->
  ~ (tb_top b < c < tb_bot b).
Proof.
  intros cr bs b c [El Ti] Hu Hb Hc. apply In_nth_error in Hb. destruct Hb as [n Hn].
  assert (Ln : (n < List.length bs)%nat) by (apply nth_error_Some; congruence).
  assert (E : forall k, (k < List.length bs)%nat -> exists b' x y, nth_error bs k = Some b' /\
     nth_error (map cd_depth cr) k = Some x /\ nth_error (map cd_depth cr) (S k) = Some y /\ tb_top b' = x /\ tb_bot b' = y).
  { intros k Lk. destruct (nth_error bs k) as [b'|] eqn:E1; [|apply nth_error_None in E1; lia].
    destruct (nth_error cr k) as [x|] eqn:E2; [|apply nth_error_None in E2; lia].
    destruct (nth_error cr (S k)) as [y|] eqn:E3; [|apply nth_error_None in E3; lia].
    exists b', (cd_depth x), (cd_depth y). split; [reflexivity|].
    split; [rewrite nth_error_map, E2; reflexivity|]. split; [rewrite nth_error_map, E3; reflexivity|].
    eapply Ti; eassumption. }
  destruct (E n Ln) as [b' [x [y [H1 [H2 [H3 [H4 H5]]]]]]]. assert (b' = b) by congruence. subst b'. rewrite H4, H5.
  apply (gap_free (map cd_depth cr)) with (i := n); [|assumption..].
  intros i p q Hp Hq. assert (Li : (i < List.length bs)%nat).
  { assert (S i < List.length (map cd_depth cr))%nat by (apply nth_error_Some; congruence). rewrite map_length in H. lia. }
  destruct (E i Li) as [b1 [x1 [y1 [G1 [G2 [G3 [G4 G5]]]]]]].
  pose proof (Hu b1 (nth_error_In _ _ G1)) as U. apply Rltb_lt in U.
  assert (p = x1) by congruence. assert (q = y1) by congruence. subst p q. lra.
Qed.
Lemma branch_inside : forall (ls : list (slayer R)) top bot i j, s_meet ls -> s_upright ls -> top < bot ->
  deepest ls top i -> shallowest ls bot j ->
  (j < List.length ls)%nat /\
  (forall k y, (i <= k < j)%nat -> nth_error ls k = Some y -> top < sl_botDepth y) /\
  (forall k y, (i < k <= j)%nat -> nth_error ls k = Some y -> sl_topDepth y < bot).
Proof.
  intros ls top bot i j Hm Hu Lt [[yi [Hi [I1 I2]]] Di] [[yj [Hj [J1 J2]]] Dj].
  apply Rleb_le in I1, I2, J1, J2.
  assert (Lj : (j < List.length ls)%nat) by (apply nth_error_Some; congruence).
  split; [exact Lj|].
  assert (Srt : forall k l y z, (k < l)%nat -> nth_error ls k = Some y -> nth_error ls l = Some z -> sl_botDepth y <= sl_topDepth z).
  { intros k l y z L Hy Hz. apply Rleb_le. eapply (s_sorted ls l k); eassumption. }
  assert (Up : forall k y, nth_error ls k = Some y -> sl_topDepth y <= sl_botDepth y).
  { intros k y Hy. apply Rleb_le, Hu. eapply nth_error_In; eassumption. }
  split.
  - intros k y Hk Hy. assert (T : top <= sl_botDepth y).
    { destruct (Nat.eq_dec k i) as [->|N]; [assert (y = yi) by congruence; subst; lra|].
      pose proof (Srt i k yi y ltac:(lia) Hi Hy). pose proof (Up _ _ Hy). lra. }
    destruct T as [T|T]; [exact T|exfalso].
    destruct (nth_error ls (S k)) as [z|] eqn:Ez; [|apply nth_error_None in Ez; lia].
    assert (M : sl_botDepth y = sl_topDepth z) by (apply Reqb_eq; eapply Hm; eassumption).
    assert (S k <= i)%nat; [|lia]. apply (Di _ z Ez). split; apply Rleb_le; [lra|]. pose proof (Up _ _ Ez). lra.
  - intros k y Hk Hy. assert (T : sl_topDepth y <= bot).
    { destruct (Nat.eq_dec k j) as [->|N]; [assert (y = yj) by congruence; subst; lra|].
      pose proof (Srt k j y yj ltac:(lia) Hy Hj). pose proof (Up _ _ Hy). lra. }
    destruct T as [T|T]; [exact T|exfalso]. destruct k as [|k]; [lia|].
    destruct (nth_error ls k) as [z|] eqn:Ez; [|apply nth_error_None in Ez; lia].
    assert (M : sl_botDepth z = sl_topDepth y) by (apply Reqb_eq; eapply Hm; eassumption).
    assert (j <= k)%nat; [|lia]. apply (Dj _ z Ez). split; apply Rleb_le; [|lra]. pose proof (Up _ _ Ez). lra.
Qed.

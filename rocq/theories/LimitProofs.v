(** Proofs for C52. *)
From Coq Require Import ZArith Bool List String Reals Lia Lra Sorting.Sorted.
From Verif Require Import Base Num PyStr VelocityModel VelSpec VelProofs SlownessLayer SlownessModel
  SlowSpec SlowProofs SlowAddProofs SlowBuildProofs SlowProps CritSpec CritProofs CritProps SlowRealProofs SampleProofs StackSpec StackProofs
  TauModel TauSpec TauProofs TauBuildProofs TauProps PathSpec MonoSpec MonoProofs MonoProps ZoneProofs ZoneProps LimitSpec.
Import ListNotations.
Local Open Scope list_scope.

Section Functions.
  Context {T : Type} {N : Num T} {O : NumOrd T}.
  Local Open Scope num_scope.

  Lemma py_min_is : forall a b : T, n_ok a -> n_ok b ->
    (py_min a b = a \/ py_min a b = b) /\ py_min a b <=? a = true /\ py_min a b <=? b = true /\ n_ok (py_min a b).
  Proof.
    intros a b Ha Hb. unfold py_min. destruct (b <? a) eqn:E.
    - split; [auto|]. split; [apply ltb_leb; exact E|]. split; [apply leb_refl; exact Hb|exact Hb].
    - split; [auto|]. split; [apply leb_refl; exact Ha|]. split; [apply ltb_false_leb; assumption|exact Ha].
  Qed.
  Lemma big_ok : n_ok (n_lit 1 300 : T).
  Proof. destruct (ord_lit_ok 1 300) as [H|H]; [exact H|lia]. Qed.

  Lemma meet_tail : forall (y : slayer T) ls, s_meet (y :: ls) -> s_meet ls.
  Proof. intros y ls H i a b Ha Hb. exact (H (S i) a b Ha Hb). Qed.
  Lemma upright_tail : forall (y : slayer T) ls, s_upright (y :: ls) -> s_upright ls.
  Proof. intros y ls H z Hz. apply H. right. exact Hz. Qed.
  Lemma later : forall (y z : slayer T) ls, s_meet (y :: ls) -> s_upright (y :: ls) -> In z ls ->
    sl_botDepth y <=? sl_topDepth z = true /\ sl_botDepth y <=? sl_botDepth z = true.
  Proof.
    intros y z ls Hm Hu Hz. apply In_nth_error in Hz as Hk. destruct Hk as [k Hk].
    assert (A : sl_botDepth y <=? sl_topDepth z = true)
      by (apply (s_sorted (y :: ls) (S k) 0%nat); [assumption|assumption|reflexivity|exact Hk|lia]).
    split; [exact A|]. eapply ord_trans; [exact A|]. apply Hu. right. exact Hz.
  Qed.

  Lemma minTurn_go_least : forall {L : Libm T} radius x (ls : list (slayer T)) mp r,
    s_meet ls -> s_upright ls -> n_ok x -> n_ok mp -> (forall y, In y ls -> n_ok (sl_botP y)) -> ends_at_depth ls x ->
    minTurn_go radius x ls mp = Ok r -> least (fun s => s = mp \/ ended ls x s \/ upper_side ls x s) r.
  Proof.
    intros L radius x. induction ls as [|y ls IH]; intros mp r Hm Hu Hx Hmp Hp He H.
    - destruct He as [y [[] _]].
    - cbn [minTurn_go] in H. pose proof (Hp y (or_introl eq_refl)) as Py.
      pose proof (Hu y (or_introl eq_refl)) as Uy.
      destruct (sl_botDepth y =? x) eqn:E.
      + inversion H; subst r. destruct (py_min_is mp (sl_botP y) Hmp Py) as [A [B [C _]]].
        assert (S0 : shallowest (y :: ls) x 0).
        { split; [|intros; lia]. exists y. split; [reflexivity|]. split; [eapply ord_trans; [exact Uy|apply eqb_leb; exact E]|].
          apply eqb_geb. exact E. }
        split.
        * destruct A as [->| ->]; [left; reflexivity|right; right]. exists 0%nat, y. auto.
        * intros s [->|[[z [Hz [Lt _]]]|[i [z [Hi [Hz ->]]]]]]; [exact B| |].
          -- exfalso. assert (F : x <=? sl_botDepth z = true).
             { destruct Hz as [<-|Hz]; [apply eqb_geb; exact E|].
               destruct (later y z ls Hm Hu Hz) as [_ F]. eapply ord_trans; [apply eqb_geb; exact E|exact F]. }
             rewrite (ltb_not_leb _ _ Lt) in F. discriminate.
          -- destruct Hi as [_ Hi]. destruct S0 as [[y0 [Hy0 Hh]] _]. cbn in Hy0. inversion Hy0; subst y0.
             assert (i = 0%nat) by (specialize (Hi 0%nat y eq_refl Hh); lia). subst i. cbn in Hz. inversion Hz; subst z. exact C.
      + destruct (sl_botDepth y >? x) eqn:G.
        * exfalso. destruct He as [z [Hz Ez]]. destruct Hz as [<-|Hz]; [congruence|].
          destruct (later y z ls Hm Hu Hz) as [_ F]. assert (K : sl_botDepth y <=? x = true) by (eapply ord_trans; [exact F|apply eqb_leb; exact Ez]).
          rewrite (ltb_not_leb _ _ G) in K. discriminate.
        * assert (Lt : sl_botDepth y <? x = true).
          { assert (Oy : n_ok (sl_botDepth y)) by (apply ord_leb_ok in Uy; tauto).
            destruct (ord_trichotomy (sl_botDepth y) x Oy Hx) as [K|[K|K]]; [exact K|congruence|congruence]. }
          destruct (py_min_is mp (sl_botP y) Hmp Py) as [A [B [C D]]].
          apply IH in H; [|eapply meet_tail; eassumption|eapply upright_tail; eassumption|assumption|assumption|intros; apply Hp; right; assumption|].
          2:{ destruct He as [z [Hz Ez]]. destruct Hz as [<-|Hz]; [congruence|]. exists z. auto. }
          assert (Nh : ~ holds y x) by (intros [_ F]; rewrite (ltb_not_leb _ _ Lt) in F; discriminate).
          assert (Up : forall s, upper_side (y :: ls) x s <-> upper_side ls x s).
          { intros s. split.
            - intros [i [z [[[z' [Hz' Hh]] Hi] [Hz ->]]]]. destruct i as [|i].
              + cbn in Hz'. inversion Hz'; subst. contradiction.
              + exists i, z. split; [|split; [exact Hz|reflexivity]]. split; [exists z'; split; [exact Hz'|exact Hh]|].
                intros j u Hu' Hh'. specialize (Hi (S j) u Hu' Hh'). lia.
            - intros [i [z [[[z' [Hz' Hh]] Hi] [Hz ->]]]]. exists (S i), z. split; [|split; [exact Hz|reflexivity]].
              split; [exists z'; split; [exact Hz'|exact Hh]|]. intros [|j] u Hu' Hh'.
              + cbn in Hu'. inversion Hu'; subst. contradiction.
              + specialize (Hi j u Hu' Hh'). lia. }
          destruct H as [H1 H2]. split.
          -- destruct H1 as [->|[[z [Hz [Lz ->]]]|H1]].
             ++ destruct A as [->| ->]; [left; reflexivity|right; left]. exists y. split; [left; reflexivity|]. auto.
             ++ right. left. exists z. split; [right; exact Hz|]. auto.
             ++ right. right. apply Up. exact H1.
          -- pose proof (H2 _ (or_introl eq_refl)) as K. intros s [->|[[z [Hz [Lz ->]]]|Hs]].
             ++ eapply ord_trans; eassumption.
             ++ destruct Hz as [<-|Hz]; [eapply ord_trans; eassumption|]. apply H2. right. left. exists z. auto.
             ++ apply H2. right. right. apply Up. exact Hs.
  Qed.

  Lemma in_hi_zone_iff : forall (m : smodel T) w x, depthInHighSlowness m x (n_lit 1 300) w = true <-> in_hi_zone m w x.
  Proof.
    intros m w x. unfold depthInHighSlowness, in_hi_zone. rewrite existsb_exists.
    split; intros [z [Hz H]]; exists z; (split; [exact Hz|]).
    - rewrite !andb_true_iff, orb_true_iff, andb_true_iff in H. tauto.
    - rewrite !andb_true_iff, orb_true_iff, andb_true_iff. tauto.
  Qed.

  Lemma shallowest_ends : forall (ls : list (slayer T)) x i y, s_meet ls -> s_upright ls -> ends_at_depth ls x ->
    shallowest ls x i -> nth_error ls i = Some y -> sl_botDepth y =? x = true.
  Proof.
    intros ls x i y Hm Hu [z [Hz Ez]] [[y' [Hy' [H1 H2]]] Hi] Hy. assert (y' = y) by congruence. subst y'.
    apply In_nth_error in Hz as Hk. destruct Hk as [k Hk].
    assert (Hh : holds z x).
    { split; [eapply ord_trans; [apply Hu; exact Hz|apply eqb_leb; exact Ez]|apply eqb_geb; exact Ez]. }
    pose proof (Hi k z Hk Hh) as L.
    assert (K : sl_botDepth y <=? x = true).
    { destruct (Nat.eq_dec i k) as [->|Ne]; [assert (y = z) by congruence; subst; apply eqb_leb; exact Ez|].
      eapply ord_trans; [|apply (proj1 Hh)]. apply (s_sorted ls k i); try assumption. lia. }
    rewrite ord_eqb, K, H2; reflexivity.
  Qed.

  Lemma minTurn_spec : forall {L : Libm T} fuel (m : smodel T) x w r,
    s_meet (sm_layers m w) -> s_upright (sm_layers m w) -> n_ok x -> (forall y, In y (sm_layers m w) -> n_ok (sl_botP y)) ->
    ends_at_depth (sm_layers m w) x -> getMinTurnRayParam fuel m x w = Ok r ->
    (in_hi_zone m w x -> least (fun s => s = n_lit 1 300 \/ ended (sm_layers m w) x s \/ upper_side (sm_layers m w) x s) r) /\
    (~ in_hi_zone m w x -> upper_side (sm_layers m w) x r).
  Proof.
    intros L fuel m x w r Hm Hu Hx Hp He H. unfold getMinTurnRayParam in H. rewrite <- in_hi_zone_iff.
    destruct (depthInHighSlowness m x (n_lit 1 300) w) eqn:E.
    - split; [intros _|intros F; exfalso; apply F; reflexivity]. eapply minTurn_go_least; try eassumption. apply big_ok.
    - split; [discriminate|intros _]. inv_as H as n Hn. inv_as H as y Hy.
      apply above_sound in Hn; [|assumption..]. destruct Hn as [N0 Hn]. apply layer_py_Z in Hy; [|exact N0].
      pose proof (shallowest_ends _ _ _ _ Hm Hu He Hn Hy) as Ey. rewrite eqb_sym, Ey in H. inversion H; subst r.
      exists (Z.to_nat n), y. auto.
  Qed.

  Lemma minRay_spec : forall {L : Libm T} fuel (m : smodel T) x w r,
    s_meet (sm_layers m w) -> s_upright (sm_layers m w) -> n_ok x ->
    (forall y, In y (sm_layers m w) -> n_ok (sl_topP y) /\ n_ok (sl_botP y)) ->
    ends_at_depth (sm_layers m w) x -> getMinRayParam fuel m x w = Ok r ->
    exists q, getMinTurnRayParam fuel m x w = Ok q /\
      least (fun s => s = q \/ upper_side (sm_layers m w) x s \/ lower_side (sm_layers m w) x s) r.
  Proof.
    intros L fuel m x w r Hm Hu Hx Hp He H. unfold getMinRayParam in H.
    inv_as H as q Hq. inv_as H as na Hna. inv_as H as a Ha. inv_as H as nb Hnb. inv_as H as b Hb.
    apply above_sound in Hna; [|assumption..]. destruct Hna as [N0 Hna]. apply layer_py_Z in Ha; [|exact N0].
    apply below_sound in Hnb; [|assumption..]. destruct Hnb as [N1 Hnb]. apply layer_py_Z in Hb; [|exact N1].
    pose proof (shallowest_ends _ _ _ _ Hm Hu He Hna Ha) as Ea. rewrite Ea in H. inversion H; subst r. clear H.
    exists q. split; [exact Hq|].
    assert (Oq : n_ok q).
    { destruct (minTurn_spec fuel m x w q Hm Hu Hx (fun y Hy => proj2 (Hp y Hy)) He Hq) as [Z1 Z2].
      destruct (depthInHighSlowness m x (n_lit 1 300) w) eqn:E.
      - destruct (proj1 (Z1 (proj1 (in_hi_zone_iff _ _ _) E))) as [->|[[y [Hy [_ ->]]]|[i [y [_ [Hy ->]]]]]]; [apply big_ok|apply Hp; exact Hy|].
        apply Hp. eapply nth_error_In. exact Hy.
      - assert (Nz : ~ in_hi_zone m w x) by (rewrite <- in_hi_zone_iff, E; discriminate).
        destruct (Z2 Nz) as [i [y [_ [Hy ->]]]]. apply Hp. eapply nth_error_In. exact Hy. }
    destruct (Hp a (nth_error_In _ _ Ha)) as [_ Oa]. destruct (Hp b (nth_error_In _ _ Hb)) as [Ob _].
    destruct (py_min_is q (sl_botP a) Oq Oa) as [A1 [A2 [A3 A4]]].
    destruct (py_min_is (py_min q (sl_botP a)) (sl_topP b) A4 Ob) as [B1 [B2 [B3 B4]]].
    split.
    - destruct B1 as [->| ->].
      + destruct A1 as [->| ->]; [left; reflexivity|right; left]. exists (Z.to_nat na), a. auto.
      + right; right. exists (Z.to_nat nb), b. auto.
    - intros s [->|[[i [y [Hi [Hy ->]]]]|[i [y [Hi [Hy ->]]]]]].
      + exact (ord_trans _ _ _ B2 A2).
      + assert (i = Z.to_nat na).
        { destruct Hi as [[y1 [Y1 Y2]] Hi], Hna as [[y2 [Y3 Y4]] Hna]. specialize (Hi _ _ Y3 Y4). specialize (Hna _ _ Y1 Y2). lia. }
        subst i. assert (y = a) by congruence. subst y. exact (ord_trans _ _ _ B2 A3).
      + assert (i = Z.to_nat nb).
        { destruct Hi as [[y1 [Y1 Y2]] Hi], Hnb as [[y2 [Y3 Y4]] Hnb]. specialize (Hi _ _ Y3 Y4). specialize (Hnb _ _ Y1 Y2). lia. }
        subst i. assert (y = b) by congruence. subst y. exact B3.
  Qed.
End Functions.

(** ** layers of zero thickness *)
Local Open Scope R_scope.

Lemma splice_fat : forall f (p : R) (ls : list (slayer R)) a, In a ls -> fat a ->
  (forall y a b, In y ls -> f (sl_id y) = Some (a, b) -> spans y p /\ halves p y a b /\ (fat y -> fat a /\ fat b)) ->
  (exists u, In u (splice f ls) /\ fat u /\ sl_topDepth u = sl_topDepth a /\ sl_topP u = sl_topP a) /\
  (exists u, In u (splice f ls) /\ fat u /\ sl_botDepth u = sl_botDepth a /\ sl_botP u = sl_botP a).
Proof.
  intros f p ls a Ha Fa H. destruct (f (sl_id a)) as [[u v]|] eqn:E.
  - destruct (H a u v Ha E) as [_ [[A1 [A2 [A3 [A4 [A5 [A6 A7]]]]]] Hf]]. destruct (Hf Fa) as [Fu Fv].
    assert (I : In u (splice f ls) /\ In v (splice f ls)).
    { unfold splice. split; apply in_flat_map; exists a; rewrite E; (split; [exact Ha|]); [left|right; left]; reflexivity. }
    split; [exists u|exists v]; tauto.
  - assert (I : In a (splice f ls)) by (unfold splice; apply in_flat_map; exists a; rewrite E; split; [exact Ha|left; reflexivity]).
    split; exists a; auto.
Qed.
Lemma splice_squeezed : forall f (p : R) (ls : list (slayer R)),
  (forall y, In y ls -> sl_topDepth y <= sl_botDepth y) ->
  (forall y a b, In y ls -> f (sl_id y) = Some (a, b) -> spans y p /\ halves p y a b /\ (fat y -> fat a /\ fat b)) ->
  squeezed ls -> (forall y, In y (splice f ls) -> sl_topDepth y <= sl_botDepth y) -> squeezed (splice f ls).
Proof.
  intros f p ls Up H Sq Up' y Hy Zy.
  assert (G : exists z, In z ls /\ sl_topDepth z = sl_botDepth z /\ sl_topDepth z = sl_topDepth y /\
    btw (sl_topP y) (sl_topP z) (sl_botP z) /\ btw (sl_botP y) (sl_topP z) (sl_botP z)).
  { unfold splice in Hy. apply in_flat_map in Hy. destruct Hy as [z [Hz Hy]].
    destruct (f (sl_id z)) as [[a b]|] eqn:E.
    - destruct (H z a b Hz E) as [Sp [[A1 [A2 [A3 [A4 [A5 [A6 A7]]]]]] Hf]].
      assert (Sz : sl_topDepth z = sl_botDepth z).
      { destruct (Up z Hz) as [F|F]; [|exact F]. destruct (Hf F) as [Fa Fb]. unfold fat in *.
        destruct Hy as [<-|[<-|[]]]; lra. }
      assert (Ua : sl_topDepth a <= sl_botDepth a /\ sl_topDepth b <= sl_botDepth b).
      { split; apply Up'; unfold splice; apply in_flat_map; exists z; rewrite E; (split; [exact Hz|]); [left|right; left]; reflexivity. }
      unfold spans in Sp. apply Rltb_lt in Sp. rewrite n_0_R in Sp. cbn [n_mul n_sub Num_R] in Sp.
      assert (Bp : btw p (sl_topP z) (sl_botP z)).
      { clear - Sp. unfold btw. destruct (Rle_lt_dec (sl_topP z) p); [left|right]; split; try lra; nra. }
      exists z. split; [exact Hz|]. split; [exact Sz|].
      destruct Hy as [<-|[<-|[]]]; rewrite ?A1, ?A3, ?A4, ?A6.
      + split; [congruence|]. split; [unfold btw; clear; lra|exact Bp].
      + split; [lra|]. split; [exact Bp|unfold btw; clear; lra].
    - destruct Hy as [<-|[]]. exists z. split; [exact Hz|]. split; [exact Zy|]. split; [reflexivity|]. unfold btw. clear. lra. }
  destruct G as [z [Hz [Zz [Ez [B1 B2]]]]]. destruct (Sq z Hz Zz) as [a [b [Ha [Hb [Fa [Fb [E1 [E2 [C1 C2]]]]]]]]].
  destruct (splice_fat f p ls a Ha Fa H) as [_ [a' [Ia [Fa' [Da Pa]]]]].
  destruct (splice_fat f p ls b Hb Fb H) as [[b' [Ib [Fb' [Db Pb]]]] _].
  exists a', b'. do 4 (split; [assumption|]). split; [congruence|]. split; [congruence|]. rewrite Pa, Pb.
  clear - B1 B2 C1 C2. unfold btw in *. split; lra.
Qed.
Lemma squeezed_samples : forall vm, contiguous (vm_layers vm) -> thick (vm_layers vm) ->
  (forall v, In v (vm_layers vm) -> layer_ok v) ->
  forall m m' v, samples m m' -> okm vm m -> squeezed (sm_layers m v) -> squeezed (sm_layers m' v).
Proof.
  intros vm Hc Ht Hl m m' v H. induction H as [m|m p w m1 m2 H S IH]; intros Hm Sq; [exact Sq|].
  pose proof (okm_step vm Hc Ht Hl _ _ _ _ H Hm) as Hm1. apply IH; [exact Hm1|].
  pose proof Hm as [A [B [C _]]]. destruct (s_inv_cuts vm Hc Ht Hl _ _ _ _ A B C H) as [_ [f [E F]]].
  rewrite E. apply (splice_squeezed f p).
  - intros y Hy. exact (okm_upright vm _ _ _ Hm Hy).
  - intros y a b Hy. exact (F v y a b Hy).
  - exact Sq.
  - intros y Hy. rewrite <- E in Hy. exact (okm_upright vm _ _ _ Hm1 Hy).
Qed.

(** the initial layers *)
Definition spaced (ls : list (slayer R)) : Prop :=
  forall k y, nth_error ls k = Some y -> sl_topDepth y = sl_botDepth y ->
    exists k' a b, k = S k' /\ nth_error ls k' = Some a /\ nth_error ls (S k) = Some b /\ fat a /\ fat b.
Definition ends_fat (ls : list (slayer R)) : Prop := exists l c, ls = l ++ [c] /\ fat c.
Lemma spaced_more : forall ls c, spaced ls -> fat c -> spaced (ls ++ [c]).
Proof.
  intros ls c H Fc k y Hk Zy. destruct (Nat.lt_ge_cases k (List.length ls)) as [L|L].
  - rewrite nth_error_app1 in Hk by exact L. destruct (H k y Hk Zy) as [k' [a [b [E [Ha [Hb F]]]]]].
    exists k', a, b. split; [exact E|]. split; [rewrite nth_error_app1; [exact Ha|lia]|].
    split; [|exact F]. rewrite nth_error_app1; [exact Hb|]. apply nth_error_Some. congruence.
  - rewrite nth_error_app2 in Hk by exact L. destruct (k - List.length ls)%nat as [|j]; [|destruct j; discriminate].
    cbn in Hk. assert (y = c) by congruence. subst y. unfold fat in Fc. lra.
Qed.
Lemma spaced_more2 : forall ls z c, spaced ls -> ends_fat ls -> fat c -> spaced (ls ++ [z] ++ [c]).
Proof.
  intros ls z c H [l [e [El Fe]]] Fc k y Hk Zy. destruct (Nat.lt_ge_cases k (List.length ls)) as [L|L].
  - rewrite nth_error_app1 in Hk by exact L. destruct (H k y Hk Zy) as [k' [a [b [E [Ha [Hb F]]]]]].
    exists k', a, b. split; [exact E|]. split; [rewrite nth_error_app1; [exact Ha|lia]|].
    split; [|exact F]. rewrite nth_error_app1; [exact Hb|]. apply nth_error_Some. congruence.
  - rewrite nth_error_app2 in Hk by exact L. destruct (k - List.length ls)%nat as [|[|j]] eqn:Ek; [| |destruct j; discriminate].
    + assert (k = List.length ls) by lia. subst k. exists (List.length l), e, c.
      split; [rewrite El, app_length; cbn; lia|].
      split; [rewrite El, <- app_assoc, nth_error_app2, Nat.sub_diag by lia; reflexivity|].
      split; [rewrite nth_error_app2 by lia; replace (S (List.length ls) - List.length ls)%nat with 1%nat by lia; reflexivity|]. auto.
    + cbn in Hk. assert (y = c) by congruence. subst y. unfold fat in Fc. lra.
Qed.

Section Start.
  Variable m : smodel R.
  Let vm := sm_vMod m.
  Hypothesis Hc : contiguous (vm_layers vm).
  Hypothesis Ht : thick (vm_layers vm).
  Hypothesis Hl : forall l, In l (vm_layers vm) -> layer_ok l.
  Hypothesis Hf : fluid_runs (vm_layers vm) (sm_fluid m).
  Let good ls := spaced ls /\ ends_fat ls.
  Lemma spaced_fold : forall ls Ps Ss next u st', (forall v, In v ls -> In v (vm_layers vm)) -> good Ps -> good Ss ->
    foldM (coarse_step m) ls (Ps, Ss, next, u) = Ok st' ->
    exists Ps' Ss' next' v, st' = (Ps', Ss', next', v) /\ good Ps' /\ good Ss'.
  Proof.
    induction ls as [|v ls IH]; intros Ps Ss next u st' Hi GP GS H; cbn [foldM] in H.
    - inversion H; subst. exists Ps, Ss, next, u. auto.
    - inv_as H as st Ha. assert (Iv : In v (vm_layers vm)) by (apply Hi; left; reflexivity).
      apply coarse_step_out in Ha; [|assumption..].
      destruct Ha as [Pz [Sz [nx [cP [cS [E [A1 [A2 [A3 [A4 [A5 [A6 [A7 Z]]]]]]]]]]]]]. subst st.
      assert (Tv : vl_topDepth v < vl_botDepth v) by (apply Rltb_lt, Ht, Iv).
      assert (FP : fat cP) by (unfold fat; rewrite A1, A2; exact Tv).
      assert (FS : fat cS) by (unfold fat; rewrite A5, A6; exact Tv).
      eapply IH; [intros x Hx; apply Hi; right; exact Hx| | |exact H].
      + split; [|exists (Ps ++ Pz), cP; rewrite <- app_assoc; auto].
        destruct Z as [[-> _]|[zP [zS [-> _]]]]; [apply spaced_more; [apply GP|exact FP]|apply spaced_more2; [apply GP|apply GP|exact FP]].
      + split; [|exists (Ss ++ Sz), cS; rewrite <- app_assoc; auto].
        destruct Z as [[_ [-> _]]|[zP [zS [_ [-> _]]]]]; [apply spaced_more; [apply GS|exact FS]|apply spaced_more2; [apply GS|apply GS|exact FS]].
  Qed.
  Lemma spaced_start : forall m0, coarse_start m m0 -> forall w, spaced (sm_layers m0 w).
  Proof.
    intros m0 [first [Ps [Ss [next [v [Hi [Hfold ->]]]]]]]. fold vm in Hi, Hfold.
    assert (El : exists f ls, vm_layers vm = f :: ls) by (clear - Hi; destruct (vm_layers vm) as [|f ls]; [discriminate|eauto]).
    destruct El as [f [ls El]]. rewrite El in Hi, Hfold.
    change (@Ok (vlayer R) f = Ok first) in Hi. inversion Hi; subst first. cbn [foldM] in Hfold.
    inv_as Hfold as st Ha. assert (In f (vm_layers vm)) as Hv by (rewrite El; left; reflexivity).
    apply coarse_step_out in Ha; [|assumption..].
    destruct Ha as [Pz [Sz [nx [cP [cS [E [A1 [A2 [A3 [A4 [A5 [A6 [A7 Z]]]]]]]]]]]]]. subst st.
    assert (Tv : vl_topDepth f < vl_botDepth f) by (apply Rltb_lt, Ht, Hv).
    assert (FP : fat cP) by (unfold fat; rewrite A1, A2; exact Tv).
    assert (FS : fat cS) by (unfold fat; rewrite A5, A6; exact Tv).
    destruct Z as [[-> [-> _]]|[zP [zS [-> [-> [ZJ _]]]]]]; cbn [app] in Hfold.
    2:{ exfalso. cbn [vl_surface vl_botP vl_botS] in ZJ. tauto. }
    assert (Nil : spaced []) by (intros [|k] y; discriminate).
    apply spaced_fold in Hfold.
    - destruct Hfold as [P' [S' [n' [v' [E [G1 G2]]]]]]. inversion E; subst. intros []; [apply G1|apply G2].
    - intros x Hx. rewrite El. right. exact Hx.
    - split; [apply (spaced_more []); assumption|]. exists [], cP. auto.
    - split; [apply (spaced_more []); assumption|]. exists [], cS. auto.
  Qed.
End Start.

Lemma spaced_squeezed : forall ls, spaced ls -> s_meet ls -> s_join ls -> squeezed ls.
Proof.
  intros ls Sp Hm Hj y Hy Zy. apply In_nth_error in Hy. destruct Hy as [k Hk].
  destruct (Sp k y Hk Zy) as [k' [a [b [-> [Ha [Hb [Fa Fb]]]]]]].
  pose proof (Hm _ _ _ Ha Hk) as M1. pose proof (Hm _ _ _ Hk Hb) as M2. pose proof (Hj _ _ _ Ha Hk) as J1. pose proof (Hj _ _ _ Hk Hb) as J2.
  apply Reqb_eq in M1, M2, J1, J2. exists a, b.
  split; [eapply nth_error_In; eassumption|]. split; [eapply nth_error_In; eassumption|].
  do 2 (split; [assumption|]). split; [exact M1|]. split; [congruence|]. unfold btw. rewrite J1, J2. lra.
Qed.

(** facts on constructed models *)
Lemma constructed_squeezed : forall {L : Libm R} fuel vm dp Dp dz dx err innerS tol (m : smodel R),
  newSlownessModel fuel vm dp Dp dz dx err innerS tol = Ok m -> thick (vm_layers vm) -> vm_radius vm = 6371 ->
  forall w, squeezed (sm_layers m w).
Proof.
  intros L fuel vm dp Dp dz dx err innerS tol m H Ht Hr w.
  unfold newSlownessModel in H. apply createSample_steps in H.
  destruct H as [m1 [m0 [m5 [crit [Hv [Hf [Hc [Hs [Hm [E Hval]]]]]]]]]].
  assert (Hne : vm_layers vm <> []).
  { intros En. destruct Hc as [first [_ [_ [_ [_ [Hi _]]]]]].
    pose proof (findCritical_spec _ _ Hf) as [F1 _]. cbn in F1. rewrite F1, En in Hi. discriminate. }
  apply (validate_iff _ (model_numbers_R _) Hne) in Hv. cbn [sm_init sm_vMod] in Hv. destruct Hv as [_ [Hco Hl]].
  pose proof (findCritical_exact _ _ Hf) as [out [Hpk [Hcr Fl]]].
  pose proof (findCritical_spec _ _ Hf) as [F1 [F2 [F3 _]]].
  cbn [sm_set_radius sm_vMod sm_radius sm_init sm_allowInnerCoreS] in *.
  assert (I0 : well_sampled vm m0 /\ ids_ok m0 /\
    (forall y, In y (sm_P m0) \/ In y (sm_S m0) -> sl_topDepth y <= sl_botDepth y)).
  { rewrite <- F1. apply (coarse_start_inv m1); try rewrite F1; auto. }
  destruct I0 as [I0 [Id0 U0]].
  assert (G5 : forall w, stack_good (sm_radius m5) (sm_layers m5 w)).
  { intros u. assert (G : stack_good (sm_radius (sm_set_crit m5 crit)) (sm_layers (sm_set_crit m5 crit) u)).
    { apply valid_stacks; [apply Reqb_eq; reflexivity|subst m; assumption]. }
    replace (sm_layers m5 u) with (sm_layers (sm_set_crit m5 crit) u) by (destruct u; reflexivity). exact G. }
  pose proof (samples_meet_back _ _ Hs Id0 (fun u => proj1 (proj2 (G5 u)))) as M0.
  assert (Hm0 : okm vm m0) by (unfold okm; auto).
  replace (sm_layers m w) with (sm_layers m5 w) by (subst m; destruct w; reflexivity).
  apply (squeezed_samples vm Hco Ht Hl m0); [exact Hs|exact Hm0|].
  apply spaced_squeezed; [|apply M0|].
  - apply (spaced_start m1); rewrite ?F1; assumption.
  - apply (samples_join _ _ w Hs Id0). apply G5.
Qed.

Lemma tau_limits : forall {L : Libm R} fuel fuel' vm dp Dp dz dx err innerS tol (m : smodel R) t,
  newSlownessModel fuel vm dp Dp dz dx err innerS tol = Ok m -> newTauModel fuel' m = Ok t -> thick (vm_layers vm) ->
  forall w,
  (forall b, In b (branches t w) -> getMinTurnRayParam fuel' m (tb_bot b) w = Ok (tb_minTurnRP b) /\
     getMinRayParam fuel' m (tb_bot b) w = Ok (tb_minRP b)) /\
  (forall b y, nth_error (branches t w) 0 = Some b -> nth_error (sm_layers m w) 0 = Some y -> tb_maxRP b = sl_topP y) /\
  (forall i a b c c', nth_error (branches t w) i = Some a -> nth_error (branches t w) (S i) = Some b ->
     nth_error (sm_crit m) i = Some c -> nth_error (sm_crit m) (S i) = Some c' ->
     next_max m w (tb_maxRP a) c c' (tb_maxRP b)).
Proof.
  intros L fuel fuel' vm dp Dp dz dx err innerS tol m t H HT Ht w.
  pose proof (validated_contiguous _ _ _ _ _ _ _ _ _ _ _ H) as Hc.
  destruct (crit_increasing _ _ _ H (R_ok _) Hc Ht (C44_surface_once vm innerS)) as [Hi Hn].
  pose proof (createSample_built _ _ _ H (R_ok _)) as [_ [_ [_ [G [_ [_ [Cr _]]]]]]].
  apply newTauModel_inv in HT. destruct HT as [_ [_ [_ [HB _]]]]. specialize (HB w).
  destruct (G w) as [_ [G2 _]].
  apply make_branches_spec in HB; [|exact G2|eapply good_upright; apply G| |exact Hi|exact Hn].
  2:{ intros c Hcin. apply crit_bnd. apply Cr. assumption. }
  destruct HB as [_ [B [C D]]]. split; [|split; assumption]. intros b Hb. destruct (B b Hb) as [_ [_ [B1 B2]]]. auto.
Qed.

(** layer numbers of critical depths *)
Lemma constructed_nums : forall {L : Libm R} fuel vm dp Dp dz dx err innerS tol (m : smodel R),
  newSlownessModel fuel vm dp Dp dz dx err innerS tol = Ok m ->
  forall w c, In c (sm_crit m) -> exists i y, deepest (sm_layers m w) (cd_depth c) i /\ nth_error (sm_layers m w) i = Some y /\
    ((if w then cd_pNum c else cd_sNum c) = Z.of_nat i \/ sl_botDepth y = cd_depth c).
Proof.
  intros L fuel vm dp Dp dz dx err innerS tol m H w c Hc.
  destruct (C23_constructed_valid _ _ _ _ _ _ _ _ _ _ H (proj2 (Reqb_eq _ _) eq_refl)) as [_ [_ G]].
  destruct (G w) as [Sg _]. pose proof (good_upright _ _ Sg) as Up. assert (Hm : s_meet (sm_layers m w)) by apply Sg.
  unfold newSlownessModel in H. apply createSample_steps in H.
  destruct H as [m1 [m0 [m5 [crit [_ [_ [_ [_ [Hmap [E _]]]]]]]]]].
  assert (El : forall u, sm_layers m u = sm_layers m5 u) by (intros u; subst m; destruct u; reflexivity).
  rewrite El in *. subst m. cbn [sm_set_crit sm_crit] in Hc.
  assert (K : exists cd pn sn, fix_crit_num fuel m5 (cd_depth cd) true = Ok pn /\ fix_crit_num fuel m5 (cd_depth cd) false = Ok sn /\
    c = mkCD (cd_depth cd) (cd_vel cd) pn sn).
  { clear - Hmap Hc. revert crit Hmap Hc. induction (sm_crit m5) as [|x l IH]; intros crit Hmap Hc; cbn [mapM] in Hmap.
    - inversion Hmap; subst. destruct Hc.
    - inv_as Hmap as a Ha. inv_as Hmap as l' Hl'. inversion Hmap; subst crit. destruct Hc as [<-|Hc]; [|eapply IH; eauto].
      inv_as Ha as pn Hp. inv_as Ha as sn Hs. exists x, pn, sn. split; [exact Hp|]. split; [exact Hs|]. congruence. }
  destruct K as [cd [pn [sn [Kp [Ks ->]]]]]. cbn [cd_depth cd_pNum cd_sNum].
  assert (Kw : fix_crit_num fuel m5 (cd_depth cd) w = Ok (if w then pn else sn)) by (destruct w; assumption).
  clear Kp Ks. generalize dependent (if w then pn else sn). intros n Kw. unfold fix_crit_num in Kw.
  inv_as Kw as k Hk. inv_as Kw as y Hy.
  apply below_sound in Hk; [|assumption|assumption|apply R_ok]. destruct Hk as [K0 Hk]. apply layer_py_Z in Hy; [|exact K0].
  exists (Z.to_nat k), y. split; [exact Hk|]. split; [exact Hy|].
  destruct ((k =? Z.of_nat (List.length (sm_layers m5 w)) - 1)%Z && n_eqb (sl_botDepth y) (cd_depth cd)) eqn:B.
  - right. apply andb_true_iff in B. apply Reqb_eq. tauto.
  - left. rewrite Z2Nat.id by exact K0. congruence.
Qed.

(** within a range of layers slowness is between the values at its ends *)
Lemma range_between : forall (ls : list (slayer R)) i j yi yj, falls ls i j \/ rises ls i j -> (i <= j)%nat ->
  nth_error ls i = Some yi -> nth_error ls j = Some yj ->
  forall k y, (i <= k <= j)%nat -> nth_error ls k = Some y ->
  btw (sl_topP y) (sl_topP yi) (sl_botP yj) /\ btw (sl_botP y) (sl_topP yi) (sl_botP yj).
Proof.
  intros ls i j yi yj Hs Lij Hi Hj.
  assert (All : forall k, (k < List.length ls)%nat -> exists y, nth_error ls k = Some y).
  { intros k Lk. destruct (nth_error ls k) as [y|] eqn:E; [eauto|apply nth_error_None in E; lia]. }
  assert (Lj : (j < List.length ls)%nat) by (apply nth_error_Some; congruence).
  destruct Hs as [Hs|Hs].
  - assert (A : forall n y, (i + n <= j)%nat -> nth_error ls (i + n) = Some y -> sl_topP y <= sl_topP yi).
    { induction n as [|n IH]; intros y Ln Hy.
      - replace (i + 0)%nat with i in Hy by lia. assert (y = yi) by congruence. subst. lra.
      - destruct (All (i + n)%nat ltac:(lia)) as [x Hx]. pose proof (IH x ltac:(lia) Hx).
        destruct (Hs (i + n)%nat x ltac:(lia) Hx) as [B [_ C]]. specialize (C y ltac:(lia)).
        replace (S (i + n)) with (i + S n)%nat in C by lia. specialize (C Hy). lra. }
    assert (B : forall n y, (i <= j - n)%nat -> nth_error ls (j - n) = Some y -> sl_botP yj <= sl_botP y).
    { induction n as [|n IH]; intros y Ln Hy.
      - replace (j - 0)%nat with j in Hy by lia. assert (y = yj) by congruence. subst. lra.
      - destruct (Nat.eq_dec (j - S n) (j - n)) as [E|NE]; [rewrite E in Hy; apply IH; [lia|exact Hy]|].
        destruct (All (j - n)%nat ltac:(lia)) as [x Hx]. pose proof (IH x ltac:(lia) Hx).
        destruct (Hs (j - S n)%nat y ltac:(lia) Hy) as [_ [_ C]]. specialize (C x ltac:(lia)).
        replace (S (j - S n)) with (j - n)%nat in C by lia. specialize (C Hx).
        destruct (Hs (j - n)%nat x ltac:(lia) Hx) as [D _]. lra. }
    intros k y Lk Hy. pose proof (A (k - i)%nat y ltac:(lia)) as A'. replace (i + (k - i))%nat with k in A' by lia. specialize (A' Hy).
    pose proof (B (j - k)%nat y ltac:(lia)) as B'. replace (j - (j - k))%nat with k in B' by lia. specialize (B' Hy).
    destruct (Hs k y Lk Hy) as [D _]. unfold btw. lra.
  - assert (A : forall n y, (i + n <= j)%nat -> nth_error ls (i + n) = Some y -> sl_topP yi <= sl_topP y).
    { induction n as [|n IH]; intros y Ln Hy.
      - replace (i + 0)%nat with i in Hy by lia. assert (y = yi) by congruence. subst. lra.
      - destruct (All (i + n)%nat ltac:(lia)) as [x Hx]. pose proof (IH x ltac:(lia) Hx).
        destruct (Hs (i + n)%nat x ltac:(lia) Hx) as [B [_ C]]. specialize (C y ltac:(lia)).
        replace (S (i + n)) with (i + S n)%nat in C by lia. specialize (C Hy). lra. }
    assert (B : forall n y, (i <= j - n)%nat -> nth_error ls (j - n) = Some y -> sl_botP y <= sl_botP yj).
    { induction n as [|n IH]; intros y Ln Hy.
      - replace (j - 0)%nat with j in Hy by lia. assert (y = yj) by congruence. subst. lra.
      - destruct (Nat.eq_dec (j - S n) (j - n)) as [E|NE]; [rewrite E in Hy; apply IH; [lia|exact Hy]|].
        destruct (All (j - n)%nat ltac:(lia)) as [x Hx]. pose proof (IH x ltac:(lia) Hx).
        destruct (Hs (j - S n)%nat y ltac:(lia) Hy) as [_ [_ C]]. specialize (C x ltac:(lia)).
        replace (S (j - S n)) with (j - n)%nat in C by lia. specialize (C Hx).
        destruct (Hs (j - n)%nat x ltac:(lia) Hx) as [D _]. lra. }
    intros k y Lk Hy. pose proof (A (k - i)%nat y ltac:(lia)) as A'. replace (i + (k - i))%nat with k in A' by lia. specialize (A' Hy).
    pose proof (B (j - k)%nat y ltac:(lia)) as B'. replace (j - (j - k))%nat with k in B' by lia. specialize (B' Hy).
    destruct (Hs k y Lk Hy) as [D _]. unfold btw. lra.
Qed.

Section Past.
  Variable ls : list (slayer R).
  Hypothesis Hm : s_meet ls.
  Hypothesis Hu : s_upright ls.
  Hypothesis Hj : s_join ls.
  Hypothesis Hq : squeezed ls.
  Hypothesis H0 : forall y, nth_error ls 0 = Some y -> sl_topDepth y = 0.

  Lemma srt : forall k l y z, (k < l)%nat -> nth_error ls k = Some y -> nth_error ls l = Some z -> sl_botDepth y <= sl_topDepth z.
  Proof. intros k l y z L Hy Hz. apply Rleb_le. eapply (s_sorted ls l k); eassumption. Qed.
  Lemma upr : forall y, In y ls -> sl_topDepth y <= sl_botDepth y.
  Proof. intros y Hy. apply Rleb_le. exact (Hu y Hy). Qed.
  Lemma top_pos : forall y, In y ls -> 0 <= sl_topDepth y.
  Proof.
    intros y Hy. apply In_nth_error in Hy. destruct Hy as [k Hk].
    destruct (nth_error ls 0) as [f|] eqn:E0; [|destruct ls; [destruct k; discriminate|discriminate]].
    pose proof (H0 f eq_refl) as T. destruct k as [|k]; [assert (y = f) by congruence; subst; lra|].
    pose proof (srt 0%nat (S k) f y ltac:(lia) E0 Hk). pose proof (upr f (nth_error_In _ _ E0)). lra.
  Qed.
  Lemma first_past : forall f s, nth_error ls 0 = Some f -> down_past ls 0 s -> s = sl_topP f.
  Proof.
    intros f s Hf [y [Hy Hs]].
    assert (NZ : forall z, In z ls -> sl_botDepth z <= 0 -> False).
    { intros z Hz Lz. pose proof (top_pos z Hz). pose proof (upr z Hz).
      destruct (Hq z Hz ltac:(lra)) as [a [b [Ha [_ [Fa [_ [Ea _]]]]]]]. pose proof (top_pos a Ha). unfold fat in Fa. lra. }
    destruct Hs as [[Ht ->]|[Hb _]]; [|destruct (NZ y Hy Hb)].
    apply In_nth_error in Hy. destruct Hy as [[|k] Hk]; [congruence|exfalso].
    pose proof (srt 0%nat (S k) f y ltac:(lia) Hf Hk). apply (NZ f (nth_error_In _ _ Hf)). lra.
  Qed.

  Variables (c c' : R) (i j k : nat) (yi yj yk : slayer R).
  Hypothesis Lt : c < c'.
  Hypothesis Di : deepest ls c i.
  Hypothesis Hi : nth_error ls i = Some yi.
  Hypothesis Dj : shallowest ls c' j.
  Hypothesis Hyj : nth_error ls j = Some yj.
  Hypothesis Hst : falls ls i j \/ rises ls i j.
  Lemma i_holds : sl_topDepth yi <= c <= sl_botDepth yi.
  Proof. destruct Di as [[y [Hy [A B]]] _]. assert (y = yi) by congruence. subst y. apply Rleb_le in A, B. lra. Qed.
  Lemma j_holds : sl_topDepth yj <= c' <= sl_botDepth yj.
  Proof. destruct Dj as [[y [Hy [A B]]] _]. assert (y = yj) by congruence. subst y. apply Rleb_le in A, B. lra. Qed.
  Lemma from_i : forall n y, nth_error ls n = Some y -> c < sl_botDepth y -> (i <= n)%nat.
  Proof.
    intros n y Hn L. destruct (Nat.lt_ge_cases n i) as [X|X]; [|exact X]. pose proof (srt n i y yi X Hn Hi). pose proof i_holds. lra.
  Qed.
  Lemma to_j : forall n y, nth_error ls n = Some y -> sl_topDepth y < c' -> (n <= j)%nat.
  Proof.
    intros n y Hn L. destruct (Nat.lt_ge_cases j n) as [X|X]; [|exact X]. pose proof (srt j n yj y X Hyj Hn). pose proof j_holds. lra.
  Qed.
  Lemma ij : (i <= j)%nat.
  Proof. apply (to_j i yi Hi). pose proof i_holds. lra. Qed.
  (** inside the branch *)
  Lemma inside_branch : forall n y, nth_error ls n = Some y -> c < sl_botDepth y -> sl_topDepth y < c' ->
    btw (sl_topP y) (sl_topP yi) (sl_botP yj) /\ btw (sl_botP y) (sl_topP yi) (sl_botP yj).
  Proof.
    intros n y Hn A B. apply (range_between ls i j yi yj Hst ij Hi Hyj n); [|exact Hn].
    split; [eapply from_i; eassumption|eapply to_j; eassumption].
  Qed.
  Lemma yi_past : down_past ls c (sl_topP yi).
  Proof. exists yi. split; [eapply nth_error_In; eassumption|]. left. split; [apply i_holds|reflexivity]. Qed.
  Lemma fat_end : forall n a, nth_error ls n = Some a -> fat a -> sl_botDepth a = c' -> a = yj.
  Proof.
    intros n a Hn Fa Ea. unfold fat in Fa. assert (L1 : (n <= j)%nat) by (apply (to_j n a Hn); lra).
    destruct Dj as [_ Dj']. assert (j <= n)%nat; [|assert (n = j) by lia; congruence]. apply (Dj' n a Hn). split; apply Rleb_le; lra.
  Qed.
  (** from above to the upper side of [c'] *)
  Lemma to_step : forall s, down_to ls c' s -> exists s', s' <= s /\ (down_past ls c s' \/ s' = sl_botP yj).
  Proof.
    intros s [y [Hy [T Hs]]]. apply In_nth_error in Hy as Hn. destruct Hn as [n Hn]. pose proof (upr y Hy) as Uy.
    assert (In1 : c < sl_botDepth y -> btw s (sl_topP yi) (sl_botP yj)).
    { intros A. destruct (inside_branch n y Hn A T) as [B1 B2]. destruct Hs as [->|[_ ->]]; assumption. }
    destruct (Rle_lt_dec (sl_botDepth y) c) as [L|L].
    - exists s. split; [lra|]. left. exists y. split; [exact Hy|]. destruct Hs as [->|[_ ->]]; [left|right]; split; auto; lra.
    - destruct (In1 L) as [B|B]; [exists (sl_topP yi); split; [lra|left; exact yi_past]|exists (sl_botP yj); split; [lra|right; reflexivity]].
  Qed.
  Hypothesis Dk : deepest ls c' k.
  Hypothesis Hyk : nth_error ls k = Some yk.
  Hypothesis Tk : sl_topDepth yk = c'.
  Lemma fat_begin : forall n b, nth_error ls n = Some b -> fat b -> sl_topDepth b = c' -> b = yk.
  Proof.
    intros n b Hn Fb Eb. unfold fat in Fb. destruct Dk as [_ Dk']. assert (L1 : (n <= k)%nat) by (apply (Dk' n b Hn); split; apply Rleb_le; lra).
    destruct (Nat.eq_dec n k) as [->|X]; [congruence|]. pose proof (srt n k b yk ltac:(lia) Hn Hyk). lra.
  Qed.
  Lemma past_step : forall s, down_past ls c' s ->
    exists s', s' <= s /\ (down_past ls c s' \/ s' = sl_botP yj \/ s' = sl_topP yk).
  Proof.
    intros s [y [Hy Hs]]. apply In_nth_error in Hy as Hn. destruct Hn as [n Hn]. pose proof (upr y Hy) as Uy.
    destruct (Rlt_le_dec (sl_topDepth y) c') as [L|L].
    - destruct (to_step s) as [s' [A B]]; [|exists s'; tauto].
      exists y. split; [exact Hy|]. split; [exact L|]. destruct Hs as [[_ ->]|[? ->]]; auto.
    - assert (E : sl_topDepth y = c') by (destruct Hs as [[? _]|[? _]]; lra).
      destruct Uy as [F|Z].
      + assert (y = yk) by (apply (fat_begin n); assumption). subst y. exists s. split; [lra|]. right. right.
        destruct Hs as [[_ ->]|[X _]]; [reflexivity|lra].
      + destruct (Hq y Hy Z) as [a [b [Ha [Hb [Fa [Fb [Ea [Eb [B1 B2]]]]]]]]].
        apply In_nth_error in Ha, Hb. destruct Ha as [na Ha], Hb as [nb Hb].
        assert (a = yj) by (apply (fat_end na); [assumption|assumption|congruence]).
        assert (b = yk) by (apply (fat_begin nb); [assumption|assumption|congruence]). subst a b.
        assert (B : btw s (sl_botP yj) (sl_topP yk)) by (destruct Hs as [[_ ->]|[_ ->]]; assumption).
        destruct B as [B|B]; [exists (sl_botP yj)|exists (sl_topP yk)]; (split; [lra|]); auto.
  Qed.
End Past.

(** ** greatest ray parameters *)
Lemma R_min_least : forall (P : R -> Prop) a b, (P a \/ P b) -> py_min a b <= a /\ py_min a b <= b /\ (py_min a b = a \/ py_min a b = b).
Proof.
  intros P a b _. destruct (py_min_is a b (R_ok _) (R_ok _)) as [A [B [C _]]]. apply Rleb_le in B, C. auto.
Qed.
Lemma R_min : forall a b : R, py_min a b <= a /\ py_min a b <= b /\ (py_min a b = a \/ py_min a b = b).
Proof. intros a b. apply (R_min_least (fun _ => True)). auto. Qed.

Section Grow.
  Context {L : Libm R}.
  Variables (fuel fuel' : nat) (vm : vmodel R) (dp Dp dz dx err : R) (innerS : bool) (tol : R) (m : smodel R) (t : tmodel R).
  Hypothesis H : newSlownessModel fuel vm dp Dp dz dx err innerS tol = Ok m.
  Hypothesis HT : newTauModel fuel' m = Ok t.
  Hypothesis Ht : thick (vm_layers vm).
  Hypothesis Hr : vm_radius vm = 6371.
  Hypothesis Hnf : no_flat vm innerS.
  Hypothesis Hfi : fluid_above_inner_core vm innerS.
  Variable w : bool.
  Let ls := sm_layers m w.

  Lemma g_good : s_meet ls /\ s_upright ls /\ s_join ls /\ squeezed ls /\ (forall y, nth_error ls 0 = Some y -> sl_topDepth y = 0) /\
    exists l y, ls = l ++ [y] /\ sl_botDepth y = 6371.
  Proof.
    destruct (C23_constructed_valid _ _ _ _ _ _ _ _ _ _ H (proj2 (Reqb_eq _ _) eq_refl)) as [_ [_ G]].
    destruct (G w) as [Sg [l [y [E1 E2]]]]. split; [apply Sg|]. split; [exact (good_upright _ _ Sg)|]. split; [apply Sg|].
    split; [exact (constructed_squeezed _ _ _ _ _ _ _ _ _ _ H Ht Hr w)|].
    split. - intros z Hz. destruct Sg as [S0 _]. specialize (S0 z Hz). apply Reqb_eq in S0. rewrite n_0_R in S0. lra.
    - exists l, y. split; [exact E1|]. apply Reqb_eq in E2. lra.
  Qed.
  Lemma g_bnd : forall c, In c (sm_crit m) -> bnd ls (cd_depth c).
  Proof.
    intros c Hc. pose proof (createSample_built _ _ _ H (R_ok _)) as [_ [_ [_ [_ [_ [_ [Cr _]]]]]]]. apply crit_bnd. apply Cr. exact Hc.
  Qed.
  Lemma g_bot : forall c, In c (sm_crit m) -> cd_depth c <= 6371.
  Proof.
    intros c Hc. destruct (C23_constructed_valid _ _ _ _ _ _ _ _ _ _ H (proj2 (Reqb_eq _ _) eq_refl)) as [_ [_ G]].
    destruct (G w) as [Sg _]. destruct Sg as [_ [_ [_ Sg]]].
    destruct (g_bnd c Hc) as [y [Hy X]]. destruct (Sg y Hy) as [_ [_ [A B]]]. apply Rleb_le in A, B.
    destruct X as [X|X]; apply Reqb_eq in X; lra.
  Qed.
  (** the layer below a critical depth above the centre *)
  Lemma g_below : forall c, In c (sm_crit m) -> cd_depth c < 6371 ->
    exists i y, deepest ls (cd_depth c) i /\ nth_error ls i = Some y /\ sl_topDepth y = cd_depth c /\
      (if w then cd_pNum c else cd_sNum c) = Z.of_nat i.
  Proof.
    intros c Hc Lc. destruct g_good as [Gm [Gu [_ [_ [_ [l [e [El Ee]]]]]]]].
    destruct (constructed_nums _ _ _ _ _ _ _ _ _ _ H w c Hc) as [i [y [D [Hy N]]]]. fold ls in D, Hy.
    assert (He : In e ls) by (rewrite El; apply in_or_app; right; left; reflexivity).
    assert (Le : n_ltb (cd_depth c) (sl_botDepth e) = true) by (apply Rltb_lt; lra).
    pose proof (deepest_top ls (cd_depth c) i y e Gm Gu (g_bnd c Hc) D Hy He Le) as Tp. apply Reqb_eq in Tp.
    exists i, y. split; [exact D|]. split; [exact Hy|]. split; [exact Tp|]. destruct N as [N|N]; [exact N|exfalso].
    apply In_nth_error in He. destruct He as [n Hn].
    destruct (Nat.lt_ge_cases i n) as [X|X].
    - destruct (nth_error ls (S i)) as [z|] eqn:Ez.
      + pose proof (Gm i y z Hy Ez) as X'. apply Reqb_eq in X'.
        pose proof (upr ls Gu z (nth_error_In _ _ Ez)). destruct D as [_ D].
        assert (S i <= i)%nat; [|lia]. apply (D (S i) z Ez). split; apply Rleb_le; lra.
      + apply nth_error_None in Ez. assert (n < List.length ls)%nat by (apply nth_error_Some; congruence). lia.
    - assert (sl_botDepth e <= sl_botDepth y); [|lra].
      destruct (Nat.eq_dec n i) as [->|X']; [assert (e = y) by congruence; subst; lra|].
      pose proof (srt ls Gm Gu n i e y ltac:(lia) Hn Hy). pose proof (upr ls Gu y (nth_error_In _ _ Hy)). lra.
  Qed.

  Lemma down_past_mono : forall x x' s, x <= x' -> down_past ls x s -> down_past ls x' s.
  Proof. intros x x' s Lx [y [Hy X]]. exists y. split; [exact Hy|]. destruct X as [[A B]|[A B]]; [left|right]; split; auto; lra. Qed.

  Lemma max_grows : forall n b, nth_error (branches t w) n = Some b -> floor_of (down_past ls (tb_top b)) (tb_maxRP b).
  Proof.
    destruct (C25_branches_tile_exact _ _ _ _ _ _ _ _ _ _ _ _ H HT Ht w) as [Ti [Me [Bu Is]]].
    destruct (tau_limits _ _ _ _ _ _ _ _ _ _ _ _ H HT Ht w) as [_ [Fi Nx]].
    pose proof (C48_steady_branches _ _ _ _ _ _ _ _ _ _ _ _ H HT Ht Hr Hnf Hfi w) as St.
    destruct g_good as [Gm [Gu [Gj [Gq [G0 _]]]]].
    assert (Cr : forall n b, nth_error (branches t w) n = Some b -> exists c c', nth_error (sm_crit m) n = Some c /\
      nth_error (sm_crit m) (S n) = Some c' /\ tb_top b = cd_depth c /\ tb_bot b = cd_depth c' /\ cd_depth c < cd_depth c').
    { intros n b Hb. destruct Ti as [Tl Ti]. assert (X : (n < List.length (branches t w))%nat) by (apply nth_error_Some; congruence).
      destruct (nth_error (sm_crit m) n) as [c|] eqn:Ec; [|apply nth_error_None in Ec; lia].
      destruct (nth_error (sm_crit m) (S n)) as [c'|] eqn:Ec'; [|apply nth_error_None in Ec'; lia].
      exists c, c'. destruct (Ti n b c c' Hb Ec Ec') as [A B]. split; [reflexivity|]. split; [reflexivity|]. split; [exact A|]. split; [exact B|].
      rewrite <- A, <- B. apply Rltb_lt. exact (Bu b (nth_error_In _ _ Hb)). }
    induction n as [|n IH]; intros b Hb.
    - destruct (Cr 0%nat b Hb) as [c [c' [Ec [_ [-> _]]]]].
      assert (C0 : cd_depth c = 0).
      { pose proof (createSample_built _ _ _ H (R_ok _)) as [_ [_ [_ [_ [_ [[c0 [l [cn [E [E0 _]]]]] _]]]]]].
        unfold sm_init in E. rewrite E in Ec. cbn [nth_error] in Ec. assert (c0 = c) by congruence. subst c0. rewrite n_0_R in E0. exact E0. }
      rewrite C0. assert (Ex : exists y, nth_error ls 0 = Some y).
      { destruct g_good as [_ [_ [_ [_ [_ [l [e [El _]]]]]]]]. rewrite El. destruct l; eexists; reflexivity. }
      destruct Ex as [y Ey].
      rewrite (Fi b y Hb Ey). split.
      + exists y. split; [eapply nth_error_In; exact Ey|]. left. split; [rewrite (G0 y Ey); lra|reflexivity].
      + intros s Hs. rewrite (first_past ls Gm Gu Gj Gq G0 y s Ey Hs). lra.
    - destruct (Cr _ _ Hb) as [c' [c'' [Ec' [Ec'' [Tb [_ Lb]]]]]].
      destruct (nth_error (branches t w) n) as [a|] eqn:Ea.
      2:{ apply nth_error_None in Ea. assert (S n < List.length (branches t w))%nat by (apply nth_error_Some; congruence). lia. }
      destruct (Cr _ _ Ea) as [c [c1 [Ec [Ec1 [Ta [Ba La]]]]]]. assert (c1 = c') by congruence. subst c1.
      destruct (Nx n a b c c' Ea Hb Ec Ec') as [y [z [u [j [Gy [Gz [Dj [Hu M]]]]]]]].
      pose proof (g_bot c'' (nth_error_In _ _ Ec'')) as B6.
      destruct (g_below c (nth_error_In _ _ Ec) ltac:(lra)) as [i [yi [Di [Hi [Ti' Ni]]]]].
      destruct (g_below c' (nth_error_In _ _ Ec') ltac:(lra)) as [k [yk [Dk [Hk [Tk Nk]]]]].
      assert (y = yi). { rewrite Ni in Gy. apply layer_py_Z in Gy; [|lia]. rewrite Nat2Z.id in Gy. fold ls in Gy. congruence. } subst y.
      assert (Ik : (i < k)%nat).
      { destruct (Nat.lt_ge_cases i k) as [X|X]; [exact X|exfalso]. destruct (Nat.eq_dec i k) as [->|X'].
        - assert (yi = yk) by congruence. subst. lra.
        - pose proof (srt ls Gm Gu k i yk yi ltac:(lia) Hk Hi). pose proof (upr ls Gu yk (nth_error_In _ _ Hk)). lra. }
      assert (Zk : sl_botP z = sl_topP yk /\ In z ls /\ sl_botDepth z = cd_depth c').
      { rewrite Nk in Gz. apply layer_py_Z in Gz; [|lia]. fold ls in Gz. replace (Z.to_nat (Z.of_nat k - 1)) with (Nat.pred k) in Gz by lia.
        destruct k as [|k0]; [lia|]. cbn [Nat.pred] in Gz. pose proof (Gj k0 z yk Gz Hk) as X. apply Reqb_eq in X. split; [exact X|].
        split; [eapply nth_error_In; exact Gz|]. pose proof (Gm k0 z yk Gz Hk) as Y. apply Reqb_eq in Y. lra. }
      destruct Zk as [Zk [Iz Dz]].
      specialize (IH a eq_refl). rewrite Ta in IH. destruct IH as [IH1 IH2]. rewrite Tb.
      assert (Sb : falls ls i j \/ rises ls i j).
      { pose proof (St a (nth_error_In _ _ Ea)) as S1. unfold steady in S1. rewrite (proj1 (Is a (nth_error_In _ _ Ea))) in S1.
        rewrite Ta, Ba in S1. exact (S1 i j Di Dj). }
      pose proof (j_holds ls (cd_depth c') j u Dj Hu) as Ju.
      destruct (R_min (tb_maxRP a) (py_min (sl_topP yi) (sl_botP z))) as [M1 [M2 M3]].
      destruct (R_min (sl_topP yi) (sl_botP z)) as [M4 [M5 M6]].
      destruct (R_min (py_min (tb_maxRP a) (py_min (sl_topP yi) (sl_botP z))) (sl_botP u)) as [M7 [M8 M9]].
      rewrite <- M in M7, M8, M9. split.
      + assert (Bu' : sl_botDepth u = cd_depth c').
        { assert (Le : n_ltb (sl_topDepth yi) (cd_depth c') = true) by (apply Rltb_lt; lra).
          pose proof (shallowest_bot ls (cd_depth c') j u yi Gm Gu (g_bnd c' (nth_error_In _ _ Ec')) Dj Hu (nth_error_In _ _ Hi) Le) as X.
          apply Reqb_eq in X. exact X. }
        assert (Pu : down_past ls (cd_depth c') (sl_botP u)).
        { exists u. split; [eapply nth_error_In; exact Hu|]. right. split; [lra|reflexivity]. }
        assert (Pz : down_past ls (cd_depth c') (sl_botP z)). { exists z. split; [exact Iz|]. right. split; [lra|reflexivity]. }
        assert (Pi : down_past ls (cd_depth c') (sl_topP yi)). { exists yi. split; [eapply nth_error_In; exact Hi|]. left. split; [lra|reflexivity]. }
        assert (Pa : down_past ls (cd_depth c') (tb_maxRP a)). { eapply down_past_mono; [|exact IH1]. lra. }
        destruct M9 as [->| ->]; [|exact Pu]. destruct M3 as [->| ->]; [exact Pa|]. destruct M6 as [->| ->]; assumption.
      + intros s Hs.
        destruct (past_step ls Gm Gu Gq (cd_depth c) (cd_depth c') i j k yi u yk La Di Hi Dj Hu Sb Dk Hk Tk s Hs) as [s' [Ls X]].
        assert (tb_maxRP b <= s'); [|lra].
        destruct X as [X|[X|X]]; [pose proof (IH2 s' X); lra|lra|lra].
  Qed.
End Grow.

(** ** least ray parameters *)
Section Least.
  Variable ls : list (slayer R).
  Hypothesis Hm : s_meet ls.
  Hypothesis Hu : s_upright ls.
  Hypothesis Hj : s_join ls.
  Hypothesis Hq : squeezed ls.
  Hypothesis H0 : forall y, nth_error ls 0 = Some y -> sl_topDepth y = 0.
  Variable x : R.
  Variables (j : nat) (yj : slayer R).
  Hypothesis Dj : shallowest ls x j.
  Hypothesis Hyj : nth_error ls j = Some yj.
  Hypothesis Bj : sl_botDepth yj = x.
  Hypothesis Px : 0 < x.

  Lemma up_end : forall n a, nth_error ls n = Some a -> fat a -> sl_botDepth a = x -> a = yj.
  Proof.
    intros n a Hn Fa Ea. unfold fat in Fa. destruct Dj as [_ D].
    assert (L1 : (j <= n)%nat) by (apply (D n a Hn); split; apply Rleb_le; lra).
    destruct (Nat.eq_dec j n) as [->|X]; [congruence|].
    assert (Y : sl_botDepth yj <= sl_topDepth a) by (apply (srt ls Hm Hu j n); [lia|assumption|assumption]). lra.
  Qed.
  Lemma yj_fat : fat yj.
  Proof.
    destruct (Rle_lt_or_eq_dec _ _ (upr ls Hu yj (nth_error_In _ _ Hyj))) as [X|Z]; [exact X|exfalso].
    destruct (Hq yj (nth_error_In _ _ Hyj) Z) as [a [b [Ha [_ [Fa [_ [Ea _]]]]]]].
    apply In_nth_error in Ha. destruct Ha as [n Hn]. assert (a = yj) by (apply (up_end n); [assumption|assumption|lra]).
    subst a. unfold fat in Fa. lra.
  Qed.
  Lemma down_to_cases : forall s, down_to ls x s ->
    (exists f, nth_error ls 0 = Some f /\ s = sl_topP f) \/ ended ls x s \/ s = sl_botP yj.
  Proof.
    intros s [y [Hy [T E]]]. apply In_nth_error in Hy as Hn. destruct Hn as [n Hn].
    assert (Bot : forall n y, nth_error ls n = Some y -> sl_topDepth y < x -> sl_botDepth y <= x -> ended ls x (sl_botP y) \/ sl_botP y = sl_botP yj).
    { intros k z Hz Tz Bz. destruct Bz as [Bz|Bz].
      - left. exists z. split; [eapply nth_error_In; exact Hz|]. split; [apply Rltb_lt; exact Bz|reflexivity].
      - right. f_equal. apply (up_end k); [exact Hz| |exact Bz]. unfold fat. lra. }
    destruct E as [->|[B ->]]; [|right; eapply Bot; eassumption].
    destruct n as [|n]; [left; exists y; auto|right].
    destruct (nth_error ls n) as [z|] eqn:Ez.
    2:{ apply nth_error_None in Ez. assert (S n < List.length ls)%nat by (apply nth_error_Some; congruence). lia. }
    pose proof (Hj n z y Ez Hn) as J. apply Reqb_eq in J. pose proof (Hm n z y Ez Hn) as M. apply Reqb_eq in M.
    left. exists z. split; [eapply nth_error_In; exact Ez|]. split; [apply Rltb_lt; lra|symmetry; exact J].
  Qed.
  Lemma ended_down : forall s, ended ls x s -> down_to ls x s.
  Proof.
    intros s [y [Hy [B ->]]]. apply Rltb_lt in B. pose proof (upr ls Hu y Hy). exists y. split; [exact Hy|]. split; [lra|]. right. split; [lra|reflexivity].
  Qed.
  Lemma upper_down : down_to ls x (sl_botP yj).
  Proof.
    pose proof yj_fat as F. unfold fat in F. exists yj. split; [eapply nth_error_In; exact Hyj|]. split; [lra|]. right. split; [lra|reflexivity].
  Qed.
  Lemma first_down : forall f, nth_error ls 0 = Some f -> down_to ls x (sl_topP f).
  Proof. intros f Hf. exists f. split; [eapply nth_error_In; exact Hf|]. split; [rewrite (H0 f Hf); exact Px|left; reflexivity]. Qed.

  Variables (k : nat) (yk : slayer R).
  Hypothesis Dk : deepest ls x k.
  Hypothesis Hyk : nth_error ls k = Some yk.
  Lemma past_cases : forall s, down_past ls x s ->
    exists s', s' <= s /\ (down_to ls x s' \/ s' = sl_topP yk).
  Proof.
    intros s [y [Hy Hs]]. apply In_nth_error in Hy as Hn. destruct Hn as [n Hn]. pose proof (upr ls Hu y Hy) as Uy.
    assert (Deep : forall l b, nth_error ls l = Some b -> fat b -> sl_topDepth b = x -> b = yk).
    { intros l b Hl Fb Eb. unfold fat in Fb. destruct Dk as [[y' [Hy' [A B]]] D]. assert (y' = yk) by congruence. subst y'. apply Rleb_le in A, B.
      assert (L1 : (l <= k)%nat) by (apply (D l b Hl); split; apply Rleb_le; lra).
      destruct (Nat.eq_dec l k) as [->|X]; [congruence|].
      assert (Y : sl_botDepth b <= sl_topDepth yk) by (apply (srt ls Hm Hu l k); [lia|assumption|assumption]). lra. }
    destruct (Rlt_le_dec (sl_topDepth y) x) as [Lx|Lx].
    - exists s. split; [lra|]. left. exists y. split; [exact Hy|]. split; [exact Lx|]. destruct Hs as [[_ ->]|[? ->]]; auto.
    - assert (E : sl_topDepth y = x) by (destruct Hs as [[? _]|[? _]]; lra).
      destruct Uy as [F|Z].
      + assert (y = yk) by (apply (Deep n); assumption). subst y. exists s. split; [lra|]. right.
        destruct Hs as [[_ ->]|[X _]]; [reflexivity|lra].
      + destruct (Hq y Hy Z) as [a [b [Ha [Hb [Fa [Fb [Ea [Eb [B1 B2]]]]]]]]].
        apply In_nth_error in Ha, Hb. destruct Ha as [na Ha], Hb as [nb Hb].
        assert (a = yj) by (apply (up_end na); [assumption|assumption|congruence]).
        assert (b = yk) by (apply (Deep nb); [assumption|assumption|congruence]). subst a b.
        assert (B : btw s (sl_botP yj) (sl_topP yk)) by (destruct Hs as [[_ ->]|[_ ->]]; assumption).
        destruct B as [B|B]; [exists (sl_botP yj)|exists (sl_topP yk)]; (split; [lra|]); [left; exact upper_down|right; reflexivity].
  Qed.
  Lemma lower_past : down_past ls x (sl_topP yk).
  Proof.
    destruct Dk as [[y' [Hy' [A B]]] D]. assert (y' = yk) by congruence. subst y'. apply Rleb_le in A, B.
    exists yk. split; [eapply nth_error_In; exact Hyk|]. left. split; [lra|reflexivity].
  Qed.
  Lemma to_past : forall s, down_to ls x s -> down_past ls x s.
  Proof. intros s [y [Hy [T [->|[B ->]]]]]; exists y; (split; [exact Hy|]); [left|right]; (split; [lra|reflexivity]). Qed.
End Least.

Lemma zone_floor : forall {L : Libm R} fuel (m : smodel R) w x mt mr, sampled_stack (sm_layers m w) ->
  ends_at_depth (sm_layers m w) x -> 0 < x -> in_hi_zone m w x ->
  (forall f, nth_error (sm_layers m w) 0 = Some f -> sl_botP f <= sl_topP f <= n_lit 1 300) ->
  getMinTurnRayParam fuel m x w = Ok mt -> getMinRayParam fuel m x w = Ok mr ->
  floor_of (down_to (sm_layers m w) x) mt /\ floor_of (down_past (sm_layers m w) x) mr.
Proof.
  intros L fuel m w x mt mr. set (ls := sm_layers m w). intros [Gm [Gu [Gj [Gq [f [Hf Ft]]]]]] Ends Px Z Fa M1 M2.
  assert (G0 : forall y, nth_error ls 0 = Some y -> sl_topDepth y = 0) by (intros y Hy; assert (y = f) by congruence; subst; exact Ft).
  assert (Bd : bnd ls x) by (destruct Ends as [y [Hy E]]; exists y; auto).
  assert (Lf : n_ltb (sl_topDepth f) x = true) by (apply Rltb_lt; rewrite Ft; lra).
  destruct (minTurn_spec fuel m x w _ Gm Gu (R_ok _) (fun y _ => R_ok _) Ends M1) as [S1 _].
  destruct (minRay_spec fuel m x w _ Gm Gu (R_ok _) (fun y _ => conj (R_ok _) (R_ok _)) Ends M2) as [q [Q1 Q2]].
  assert (q = mt) by congruence. subst q. specialize (S1 Z). fold ls in S1, Q2.
  unfold getMinRayParam in M2. inv_as M2 as q Hq. inv_as M2 as na Hna. inv_as M2 as a Ha.
  inv_as M2 as nb Hnb. inv_as M2 as u Hu'. clear M2.
  apply above_sound in Hna; [|assumption|assumption|apply R_ok]. destruct Hna as [N0 Hna]. apply layer_py_Z in Ha; [|exact N0].
  apply below_sound in Hnb; [|assumption|assumption|apply R_ok]. destruct Hnb as [N1 Hnb]. apply layer_py_Z in Hu'; [|exact N1].
  fold ls in Hna, Ha, Hnb, Hu'.
  pose proof (shallowest_bot ls x _ a f Gm Gu Bd Hna Ha (nth_error_In _ _ Hf) Lf) as Ba. apply Reqb_eq in Ba.
  assert (Up : forall s, upper_side ls (x) s <-> s = sl_botP a).
  { intros s. split.
    - intros [i [y [D [Hy ->]]]]. f_equal. destruct D as [[y1 [Hy1 Z1]] D], Hna as [[y2 [Hy2 Z2]] D2].
      assert (i = Z.to_nat na); [|subst; congruence]. apply Nat.le_antisymm; [exact (D _ _ Hy2 Z2)|exact (D2 _ _ Hy1 Z1)].
    - intros ->. exists (Z.to_nat na), a. auto. }
  assert (Lo : forall s, lower_side ls (x) s <-> s = sl_topP u).
  { intros s. split.
    - intros [i [y [D [Hy ->]]]]. f_equal. destruct D as [[y1 [Hy1 Z1]] D], Hnb as [[y2 [Hy2 Z2]] D2].
      assert (i = Z.to_nat nb); [|subst; congruence]. apply Nat.le_antisymm; [exact (D2 _ _ Hy1 Z1)|exact (D _ _ Hy2 Z2)].
    - intros ->. exists (Z.to_nat nb), u. auto. }
  destruct (Fa f Hf) as [Ff1 Ff2].
  assert (Below : ended ls (x) (sl_botP f) \/ sl_botP f = sl_botP a).
  { assert (Ib : In f ls) by (eapply nth_error_In; exact Hf).
    assert (Hbf : sl_botDepth f <= x).
    { destruct (Z.to_nat na) as [|k] eqn:Ek; [assert (a = f) by congruence; subst; lra|].
      assert (sl_botDepth f <= sl_topDepth a) by (apply (srt ls Gm Gu 0%nat (S k)); [lia|exact Hf|exact Ha]).
      pose proof (upr ls Gu a (nth_error_In _ _ Ha)). lra. }
    destruct Hbf as [X1|X1].
    - left. exists f. split; [exact Ib|]. split; [apply Rltb_lt; exact X1|reflexivity].
    - right. f_equal. apply (up_end ls Gm Gu (x) (Z.to_nat na) a Hna Ha Ba 0%nat); [exact Hf|unfold fat; lra|exact X1]. }
  assert (A : floor_of (down_to ls (x)) (mt)).
  { destruct S1 as [S1 S2].
    assert (Low : forall s, down_to ls (x) s -> mt <= s).
    { intros s Hs. destruct (down_to_cases ls Gm Gu Gj (x) _ a Hna Ha Ba s Hs) as [[f' [Hf' ->]]|[E|E]].
      - assert (f' = f) by congruence. subst f'. assert (mt <= sl_botP f); [|lra].
        apply Rleb_le. apply S2. destruct Below as [B|B]; [auto|right; right; apply Up; exact B].
      - apply Rleb_le. apply S2. auto.
      - apply Rleb_le. apply S2. right. right. apply Up. exact E. }
    split; [|exact Low]. destruct S1 as [S1|[S1|S1]].
    - assert (mt <= sl_botP f).
      { apply Rleb_le. apply S2. destruct Below as [B|B]; [auto|right; right; apply Up; exact B]. }
      assert (E : mt = sl_topP f) by lra. rewrite E. exact (first_down ls G0 (x) Px f Hf).
    - exact (ended_down ls Gu (x) _ S1).
    - apply Up in S1. rewrite S1. exact (upper_down ls Gm Gu Gq (x) _ a Hna Ha Ba). }
  split; [exact A|]. destruct A as [A1 A2]. destruct Q2 as [Q2 Q3].
  pose proof (lower_past ls (x) _ u Hnb Hu') as PL.
  pose proof (upper_down ls Gm Gu Gq (x) _ a Hna Ha Ba) as PU.
  split.
  - destruct Q2 as [->|[Q2|Q2]]; [exact (to_past ls (x) _ A1)|apply Up in Q2; rewrite Q2; exact (to_past ls (x) _ PU)|].
    apply Lo in Q2. rewrite Q2. exact PL.
  - intros s Hs. destruct (past_cases ls Gm Gu Gq (x) _ a Hna Ha Ba _ u Hnb Hu' s Hs) as [s' [Ls [Y|Y]]].
    + pose proof (A2 s' Y). pose proof (Q3 (mt) (or_introl eq_refl)) as B1. apply Rleb_le in B1. lra.
    + pose proof (Q3 s' (or_intror (or_intror (proj2 (Lo _) Y)))) as B1. apply Rleb_le in B1. lra.
Qed.

Section MinLimits.
  Context {L : Libm R}.
  Variables (fuel fuel' : nat) (vm : vmodel R) (dp Dp dz dx err : R) (innerS : bool) (tol : R) (m : smodel R) (t : tmodel R).
  Hypothesis H : newSlownessModel fuel vm dp Dp dz dx err innerS tol = Ok m.
  Hypothesis HT : newTauModel fuel' m = Ok t.
  Hypothesis Ht : thick (vm_layers vm).
  Hypothesis Hr : vm_radius vm = 6371.
  Variable w : bool.
  Let ls := sm_layers m w.

  Lemma min_limits : forall b, In b (branches t w) ->
    (in_hi_zone m w (tb_bot b) ->
       least (fun s => s = n_lit 1 300 \/ ended ls (tb_bot b) s \/ upper_side ls (tb_bot b) s) (tb_minTurnRP b)) /\
    (~ in_hi_zone m w (tb_bot b) -> upper_side ls (tb_bot b) (tb_minTurnRP b)) /\
    least (fun s => s = tb_minTurnRP b \/ upper_side ls (tb_bot b) s \/ lower_side ls (tb_bot b) s) (tb_minRP b) /\
    (in_hi_zone m w (tb_bot b) -> (forall f, nth_error ls 0 = Some f -> sl_botP f <= sl_topP f <= n_lit 1 300) ->
       floor_of (down_to ls (tb_bot b)) (tb_minTurnRP b) /\ floor_of (down_past ls (tb_bot b)) (tb_minRP b)).
  Proof.
    intros b Hb.
    destruct (C25_branches_tile_exact _ _ _ _ _ _ _ _ _ _ _ _ H HT Ht w) as [[Tl Ti] [Me [Bu Is]]].
    destruct (tau_limits _ _ _ _ _ _ _ _ _ _ _ _ H HT Ht w) as [Mi [_ _]].
    destruct (g_good _ _ _ _ _ _ _ _ _ _ H Ht Hr w) as [Gm [Gu [Gj [Gq [G0 [l [e [El Ee]]]]]]]]. fold ls in Gm, Gu, Gj, Gq, G0, El.
    destruct (Mi b Hb) as [M1 M2]. pose proof (Bu b Hb) as Lb. apply Rltb_lt in Lb.
    apply In_nth_error in Hb as Hn. destruct Hn as [n Hn].
    assert (X : (n < List.length (branches t w))%nat) by (apply nth_error_Some; congruence).
    destruct (nth_error (sm_crit m) n) as [c|] eqn:Ec; [|apply nth_error_None in Ec; lia].
    destruct (nth_error (sm_crit m) (S n)) as [c'|] eqn:Ec'; [|apply nth_error_None in Ec'; lia].
    destruct (Ti n b c c' Hn Ec Ec') as [Tt Tb].
    assert (P0 : 0 <= tb_top b).
    { rewrite Tt. destruct (g_bnd _ _ _ _ _ _ _ _ _ _ H w c (nth_error_In _ _ Ec)) as [y [Hy E]]. fold ls in Hy.
      pose proof (top_pos ls Gm Gu Gj Gq G0 y Hy). pose proof (upr ls Gu y Hy). destruct E as [E|E]; apply Reqb_eq in E; lra. }
    assert (F0 : exists f, nth_error ls 0 = Some f). { rewrite El. destruct l; eexists; reflexivity. }
    destruct F0 as [f Hf].
    assert (Bd : bnd ls (tb_bot b)). { rewrite Tb. exact (g_bnd _ _ _ _ _ _ _ _ _ _ H w c' (nth_error_In _ _ Ec')). }
    assert (Lf : n_ltb (sl_topDepth f) (tb_bot b) = true) by (apply Rltb_lt; rewrite (G0 f Hf); lra).
    assert (Ends : ends_at_depth ls (tb_bot b)).
    { pose proof M2 as M2'. unfold getMinRayParam in M2'. inv_as M2' as q Hq. inv_as M2' as na Hna. inv_as M2' as a Ha.
      apply above_sound in Hna; [|assumption|assumption|apply R_ok]. destruct Hna as [N0 Hna]. apply layer_py_Z in Ha; [|exact N0].
      exists a. split; [eapply nth_error_In; exact Ha|].
      exact (shallowest_bot ls (tb_bot b) _ a f Gm Gu Bd Hna Ha (nth_error_In _ _ Hf) Lf). }
    destruct (minTurn_spec fuel' m (tb_bot b) w _ Gm Gu (R_ok _) (fun y _ => R_ok _) Ends M1) as [S1 S2].
    destruct (minRay_spec fuel' m (tb_bot b) w _ Gm Gu (R_ok _) (fun y _ => conj (R_ok _) (R_ok _)) Ends M2) as [q [Q1 Q2]].
    assert (q = tb_minTurnRP b) by congruence. subst q. fold ls in S1, S2, Q2.
    split; [exact S1|]. split; [exact S2|]. split; [exact Q2|]. intros Z Fa.
    assert (Px : 0 < tb_bot b) by lra.
    apply (zone_floor fuel' m w (tb_bot b)); try assumption. unfold sampled_stack. fold ls. repeat (split; [assumption|]). exists f. split; [exact Hf|exact (G0 f Hf)].
  Qed.
End MinLimits.

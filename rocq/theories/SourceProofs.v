(** Proofs for C53. *)
From Coq Require Import ZArith Bool List String Reals Lia Lra Sorting.Sorted.
From Verif Require Import Base Num PyStr VelocityModel VelSpec VelProofs SlownessLayer SlownessModel
  SlowSpec SlowProofs SlowAddProofs SlowBuildProofs SlowProps CritSpec CritProofs CritProps SlowRealProofs SampleProofs StackSpec StackProofs
  SplitSpec SplitProofs TauModel TauSpec TauProofs TauBuildProofs TauSplitProofs TauProps PathSpec PathWholeProofs PathLegProofs MonoSpec MonoProofs MonoProps LimitSpec LimitProofs LimitProps SourceSpec.
Import ListNotations.
Local Open Scope list_scope.

(** ** the model on a boundary *)
Section Unfold.
  Context {T : Type} {N : Num T} {O : NumOrd T} {L : Libm T}.
  Local Open Scope num_scope.

  (** the two new branches *)
  Definition two_parts (fuel : nat) (m : smodel T) (x : T) (rp : list T) (w : bool) (n : nat) (l l' : list (tbranch T)) : Prop :=
    exists b a c, nth_error l n = Some b /\ l' = firstn n l ++ a :: c :: skipn (S n) l /\
      createBranch fuel m (tb_top b) x w (tb_maxRP b) rp = Ok a /\ tb_difference fuel b a (-1) (-1) m rp = Ok c.

  Lemma split_two : forall fuel (m : smodel T) w n x rp rpS rpP l l',
    split_branches fuel m w n x rp None None rpS rpP l = Ok l' -> two_parts fuel m x rp w n l l'.
  Proof.
    intros fuel m w n x rp rpS rpP l l' H. unfold split_branches in H.
    rewrite insert_new_none in H. cbn [bind] in H. inv_as H as b Hb. inv_as H as top Ht. inv_as H as bot Hbot.
    rewrite insert_new_none in H. cbn [bind] in H. inversion H; subst l'. clear H.
    rewrite py_index_nat in Hb. destruct (nth_error l n) as [b'|] eqn:Eb; [|discriminate]. inversion Hb; subst b'.
    exists b, top, bot. auto.
  Qed.

  (** a depth at which layers of both wave types end: the slowness model stays *)
  Lemma correct_on_boundary : forall fuel w (t : tmodel T) x w' t' r, decreasing (tm_rayParams t) ->
    (forall v, s_meet (sm_layers (tm_sMod t) v) /\ s_upright (sm_layers (tm_sMod t) v)) -> n_ok x ->
    (forall v k y, shallowest (sm_layers (tm_sMod t) v) x k -> nth_error (sm_layers (tm_sMod t) v) k = Some y -> sl_botDepth y =? x = true) ->
    tm_depthCorrect fuel w t x = Ok (w', t', r) ->
    tm_sMod r = tm_sMod t /\ tm_rayParams r = tm_rayParams t /\
    (forall v, branches r v = branches t v) \/
    tm_sMod r = tm_sMod t /\ tm_rayParams r = tm_rayParams t /\ ~ at_edge (tm_P t) x /\
    exists n b, nth_error (tm_P t) n = Some b /\ in_branch b x /\
      forall v, two_parts fuel (tm_sMod t) x (tm_rayParams t) v n (branches t v) (branches r v).
  Proof.
    intros fuel w t x w' t' r Hd Hg Hx Hb H. pose proof (depthCorrect_spec _ _ _ _ _ _ _ Hd H) as Sp.
    destruct Sp as [_ [_ [_ [Er [_ [_ [_ [_ [_ Sp]]]]]]]]].
    destruct Sp as [[_ [_ [_ [E1 [E2 [E3 _]]]]]]|[Ne [_ [_ [_ [_ [_ Sp]]]]]]].
    - left. split; [exact E1|]. split; [exact Er|]. intros []; assumption.
    - right. destruct Sp as [n [bP [_ [_ [_ [_ [_ [Hn [Hi [Hbef _]]]]]]]]]].
      unfold tm_depthCorrect in H. if_eq H Q1; [discriminate|]. if_eq H Q2; [discriminate|].
      inv_as H as [[w1 self] dm] Hs. inv_as H as sb Hsb. inversion H; subst w' t' r. clear H.
      cbn [tm_sMod tm_rayParams tm_P tm_S branches] in *.
      unfold splitBranch in Hs. if_eq Hs Q3; [exfalso; apply Ne, at_edge_b; exact Q3|].
      inv_as Hs as [mS iS] HS. rewrite insert_rp_none in Hs by assumption.
      destruct (splitLayer_cases _ _ _ _ _ _ (proj1 (Hg false)) (proj2 (Hg false)) Hx HS) as [k [y [Sk [Hy C]]]].
      pose proof (Hb false k y Sk Hy) as Eb. destruct C as [[_ [-> ->]]|[[C _]|[C _]]]; [|exfalso; apply C; right; exact Eb..].
      cbn [si_sMod si_needed si_rayParam] in Hs. inv_as Hs as [m2 iP] HP. rewrite insert_rp_none in Hs by assumption.
      destruct (splitLayer_cases _ _ _ _ _ _ (proj1 (Hg true)) (proj2 (Hg true)) Hx HP) as [k' [y' [Sk' [Hy' C]]]].
      pose proof (Hb true k' y' Sk' Hy') as Eb'. destruct C as [[_ [-> ->]]|[[C _]|[C _]]]; [|exfalso; apply C; right; exact Eb'..].
      cbn [si_sMod si_needed si_rayParam] in Hs.
      inv_as Hs as nb Hnb. inv_as Hs as P' HP'. inv_as Hs as S' HS'. inversion Hs; subst w1 self dm. clear Hs.
      cbn [tm_sMod tm_rayParams tm_P tm_S] in *. split; [reflexivity|]. split; [reflexivity|]. split; [exact Ne|].
      destruct (findBranch_spec t x) as [[n' [b [En [Hn' [Hin _]]]]]|[_ [[_ F]|[b [[l Hl] F]]]]]; rewrite Hnb in *.
      2: discriminate.
      2:{ destruct (tb_bot b =? x) eqn:Ebx; [|discriminate]. exfalso. apply Ne. exists b. split; [|right; assumption].
          rewrite Hl. apply in_or_app. right. left. reflexivity. }
      inversion En; subst nb. rewrite Nat2Z.id in HP', HS'.
      exists n', b. split; [exact Hn'|]. split; [exact Hin|]. intros []; cbn [branches]; eapply split_two; eassumption.
  Qed.
End Unfold.

Local Open Scope R_scope.
(** ** descents through the two parts *)
Section Parts.
  Variables (m : smodel R) (w : bool) (p : R) (i k j : nat).
  Let ls := sm_layers m w.
  Hypothesis Hik : (i <= k)%nat.
  Hypothesis Hkj : (k < j)%nat.
  Hypothesis Hj : (j < List.length ls)%nat.

  Lemma inc_unique : forall incs incs' n, (forall q x, nth_error incs q = Some x -> layerTimeDist m p (Z.of_nat (i + q)) w = Ok x) ->
    (forall q x, nth_error incs' q = Some x -> layerTimeDist m p (Z.of_nat (i + q)) w = Ok x) ->
    (n <= List.length incs)%nat -> (n <= List.length incs')%nat -> firstn n incs = firstn n incs'.
  Proof.
    intros incs incs' n H H' Ln Ln'. assert (E : forall q, (q < n)%nat -> nth_error incs q = nth_error incs' q).
    { intros q Lq. destruct (nth_error incs q) as [x|] eqn:Ex; [|apply nth_error_None in Ex; lia].
      destruct (nth_error incs' q) as [x'|] eqn:Ex'; [|apply nth_error_None in Ex'; lia].
      pose proof (H q x Ex). pose proof (H' q x' Ex'). congruence. }
    clear H H'. revert incs incs' Ln Ln' E. induction n as [|n IH]; intros incs incs' Ln Ln' E; [reflexivity|].
    destruct incs as [|x incs], incs' as [|x' incs']; cbn [List.length] in Ln, Ln'; try lia. cbn [firstn].
    pose proof (E 0%nat ltac:(lia)) as E0. cbn in E0. inversion E0; subst x'. f_equal. apply IH; [lia|lia|].
    intros q Lq. exact (E (S q) ltac:(lia)).
  Qed.

  (** the ray crosses the whole upper part *)
  Lemma through : forall incs incs', (forall q y, (i <= q <= k)%nat -> nth_error ls q = Some y -> crosses p y) ->
    descends m w p i j incs -> descends m w p i k incs' ->
    exists rest, incs = incs' ++ rest /\ descends m w p (S k) j rest.
  Proof.
    intros incs incs' Cr [A1 [A2 [A3 A4]]] [B1 [B2 [B3 B4]]].
    assert (Lb : (i + List.length incs')%nat = S k).
    { destruct B4 as [B4|[y [B4 [B5 _]]]]; [exact B4|]. destruct (Nat.eq_dec (i + List.length incs') (S k)) as [E|E]; [exact E|exfalso].
      apply B5. apply (Cr (i + List.length incs')%nat); [lia|exact B4]. }
    assert (La : (S k <= i + List.length incs)%nat).
    { destruct A4 as [A4|[y [A4 [A5 _]]]]; [lia|]. destruct (Nat.lt_ge_cases (i + List.length incs) (S k)) as [E|E]; [exfalso|exact E].
      apply A5. apply (Cr (i + List.length incs)%nat); [lia|exact A4]. }
    set (n := List.length incs') in *.
    assert (Ef : firstn n incs = incs').
    { rewrite (inc_unique incs incs' n A3 B3 ltac:(lia) ltac:(lia)). unfold n. apply firstn_all. }
    exists (skipn n incs). split; [rewrite <- Ef at 1; symmetry; apply firstn_skipn|].
    assert (Ls : List.length (skipn n incs) = (List.length incs - n)%nat) by apply skipn_length.
    assert (Nt : forall q, nth_error (skipn n incs) q = nth_error incs (n + q)) by (intros q; rewrite <- (firstn_skipn n incs) at 2; rewrite nth_error_app2; rewrite firstn_length_le by lia; [f_equal; lia|lia]).
    split; [lia|]. split; [|split].
    - intros q y Lq Hy. apply (A2 (n + q)%nat); [lia|]. replace (i + (n + q))%nat with (S k + q)%nat by lia. exact Hy.
    - intros q x Hq. rewrite Nt in Hq. replace (S k + q)%nat with (i + (n + q))%nat by lia. apply A3. exact Hq.
    - rewrite Ls. replace (S k + (List.length incs - n))%nat with (i + List.length incs)%nat by lia. exact A4.
  Qed.
  (** the ray ends before the lower part *)
  Lemma stopped : forall incs incs' q y, (i <= q <= S k)%nat -> nth_error ls q = Some y -> ~ crosses p y ->
    descends m w p i j incs -> descends m w p i k incs' -> incs = incs'.
  Proof.
    intros incs incs' q y Hq Hy Nc [A1 [A2 [A3 A4]]] [B1 [B2 [B3 B4]]].
    assert (La : (i + List.length incs <= q)%nat).
    { destruct (Nat.le_gt_cases (i + List.length incs) q) as [E|E]; [exact E|exfalso]. apply Nc.
      apply (A2 (q - i)%nat); [lia|]. replace (i + (q - i))%nat with q by lia. exact Hy. }
    assert (E : List.length incs = List.length incs').
    { destruct (lt_eq_lt_dec (List.length incs) (List.length incs')) as [[E|E]|E]; [exfalso|exact E|exfalso].
      - destruct A4 as [A4|[z [A4 [A5 _]]]]; [lia|]. apply A5. apply (B2 (List.length incs)); assumption.
      - destruct B4 as [B4|[z [B4 [B5 _]]]]; [lia|]. apply B5. apply (A2 (List.length incs')); assumption. }
    rewrite <- (firstn_all incs), <- (firstn_all incs'), <- E. apply inc_unique; try assumption; lia.
  Qed.
End Parts.

(** first and last layer at a boundary *)
Lemma has_shallowest : forall (ls : list (slayer R)) x, s_upright ls -> bnd ls x -> exists i, shallowest ls x i.
Proof.
  intros ls x Hu [y [Hy X]].
  assert (Hh : exists i, (exists y, nth_error ls i = Some y /\ holds y x)).
  { apply In_nth_error in Hy as Hi. destruct Hi as [i Hi]. exists i, y. split; [exact Hi|]. specialize (Hu y Hy). apply Rleb_le in Hu.
    destruct X as [X|X]; apply Reqb_eq in X; split; apply Rleb_le; lra. }
  clear - Hh. destruct Hh as [i Hi]. revert Hi. induction i as [i IH] using lt_wf_ind. intros Hi.
  assert (D : (exists i', (i' < i)%nat /\ exists y, nth_error ls i' = Some y /\ holds y x) \/
              ~ (exists i', (i' < i)%nat /\ exists y, nth_error ls i' = Some y /\ holds y x)).
  { clear. induction i as [|i IH]; [right; intros [q [Lq _]]; lia|]. destruct IH as [[q [Lq Hq]]|IH]; [left; exists q; split; [lia|exact Hq]|].
    destruct (nth_error ls i) as [y|] eqn:Ey.
    - destruct (n_leb (sl_topDepth y) x) eqn:E1; [destruct (n_leb x (sl_botDepth y)) eqn:E2|].
      + left. exists i. split; [lia|]. exists y. split; [exact Ey|split; assumption].
      + right. intros [q [Lq [z [Hz [Z1 Z2]]]]]. destruct (Nat.eq_dec q i) as [->|N]; [assert (z = y) by congruence; subst; congruence|].
        apply IH. exists q. split; [lia|]. exists z. split; [exact Hz|split; assumption].
      + right. intros [q [Lq [z [Hz [Z1 Z2]]]]]. destruct (Nat.eq_dec q i) as [->|N]; [assert (z = y) by congruence; subst; congruence|].
        apply IH. exists q. split; [lia|]. exists z. split; [exact Hz|split; assumption].
    - right. intros [q [Lq [z [Hz Hh]]]]. destruct (Nat.eq_dec q i) as [->|N]; [congruence|]. apply IH. exists q. split; [lia|]. exists z. auto. }
  destruct D as [[i' [Li Hi']]|D]; [exact (IH i' Li Hi')|]. exists i. split; [exact Hi|].
  intros q z Hz Hq. destruct (Nat.le_gt_cases i q) as [X|X]; [exact X|exfalso]. apply D. exists q. split; [exact X|]. exists z. auto.
Qed.
Lemma has_deepest : forall (ls : list (slayer R)) x, s_upright ls -> bnd ls x -> exists i, deepest ls x i.
Proof.
  intros ls x Hu [y [Hy X]].
  assert (Hh : exists i, (i < List.length ls)%nat /\ (exists y, nth_error ls i = Some y /\ holds y x)).
  { apply In_nth_error in Hy as Hi. destruct Hi as [i Hi]. exists i. split; [apply nth_error_Some; congruence|]. exists y. split; [exact Hi|]. specialize (Hu y Hy). apply Rleb_le in Hu.
    destruct X as [X|X]; apply Reqb_eq in X; split; apply Rleb_le; lra. }
  clear - Hh. destruct Hh as [i [Li Hi]].
  assert (G : forall n i, (List.length ls - i <= n)%nat -> (exists y, nth_error ls i = Some y /\ holds y x) -> exists i, deepest ls x i).
  { clear. induction n as [|n IH]; intros i Ln Hi.
    - destruct Hi as [y [Hy _]]. assert (i < List.length ls)%nat by (apply nth_error_Some; congruence). lia.
    - assert (D : forall k, (exists q, (i < q < k)%nat /\ exists y, nth_error ls q = Some y /\ holds y x) \/
         ~ (exists q, (i < q < k)%nat /\ exists y, nth_error ls q = Some y /\ holds y x)).
      { induction k as [|k IHk]; [right; intros [q [Lq _]]; lia|]. destruct IHk as [[q [Lq Hq]]|IHk]; [left; exists q; split; [lia|exact Hq]|].
        destruct (Nat.le_gt_cases k i) as [Le|Gt]; [right; intros [q [Lq _]]; lia|].
        destruct (nth_error ls k) as [y|] eqn:Ey.
        - destruct (n_leb (sl_topDepth y) x) eqn:E1; [destruct (n_leb x (sl_botDepth y)) eqn:E2|].
          + left. exists k. split; [lia|]. exists y. split; [exact Ey|split; assumption].
          + right. intros [q [Lq [z [Hz [Z1 Z2]]]]]. destruct (Nat.eq_dec q k) as [->|N]; [assert (z = y) by congruence; subst; congruence|].
            apply IHk. exists q. split; [lia|]. exists z. split; [exact Hz|split; assumption].
          + right. intros [q [Lq [z [Hz [Z1 Z2]]]]]. destruct (Nat.eq_dec q k) as [->|N]; [assert (z = y) by congruence; subst; congruence|].
            apply IHk. exists q. split; [lia|]. exists z. split; [exact Hz|split; assumption].
        - right. intros [q [Lq [z [Hz Hh]]]]. destruct (Nat.eq_dec q k) as [->|N]; [congruence|]. apply IHk. exists q. split; [lia|]. exists z. auto. }
      destruct (D (List.length ls)) as [[q [Lq Hq]]|D']; [apply (IH q); [lia|exact Hq]|]. exists i. split; [exact Hi|].
      intros q z Hz Hq. destruct (Nat.le_gt_cases q i) as [X|X]; [exact X|exfalso]. apply D'. exists q. split; [|exists z; auto].
      split; [exact X|]. apply nth_error_Some. congruence. }
  exact (G _ i (le_n _) Hi).
Qed.

(** ** the cut branch *)
Section Cut.
  Variables (fuel : nat) (m : smodel R) (w : bool) (rp : list R) (x : R) (a b c : tbranch R) (k : nat) (yk yl : slayer R).
  Let ls := sm_layers m w.
  Hypothesis Hm : s_meet ls.
  Hypothesis Hu : s_upright ls.
  Hypothesis Hk : nth_error ls k = Some yk.
  Hypothesis Hl : nth_error ls (S k) = Some yl.
  Hypothesis Fk : fat yk.
  Hypothesis Fl : fat yl.
  Hypothesis Ek : sl_botDepth yk = x.
  Hypothesis El : sl_topDepth yl = x.
  Hypothesis Ib : tb_isP b = w.
  Hypothesis Lt : tb_top b < x < tb_bot b.
  Hypothesis Bt : bnd ls (tb_top b).
  Hypothesis Bb : bnd ls (tb_bot b).
  Hypothesis Sb : steady m b.
  Hypothesis Rb : all_rays m w rp b.
  Hypothesis Mx : floor_of (down_past ls (tb_top b)) (tb_maxRP b).
  Hypothesis Ha : createBranch fuel m (tb_top b) x w (tb_maxRP b) rp = Ok a.
  Hypothesis Hc : tb_difference fuel b a (-1) (-1) m rp = Ok c.
  Hypothesis Mn : floor_of (down_past ls x) (tb_minRP a).

  Lemma k_shallow : shallowest ls x k.
  Proof.
    unfold fat in *. split.
    - exists yk. split; [exact Hk|]. split; apply Rleb_le; lra.
    - intros q z Hz [A B]. apply Rleb_le in A, B. destruct (Nat.le_gt_cases k q) as [X|X]; [exact X|exfalso].
      pose proof (srt ls Hm Hu q k z yk X Hz Hk). lra.
  Qed.
  Lemma k_deep : deepest ls x (S k).
  Proof.
    unfold fat in *. split.
    - exists yl. split; [exact Hl|]. split; apply Rleb_le; lra.
    - intros q z Hz [A B]. apply Rleb_le in A, B. destruct (Nat.le_gt_cases q (S k)) as [X|X]; [exact X|exfalso].
      pose proof (srt ls Hm Hu (S k) q yl z X Hl Hz). lra.
  Qed.
  Lemma shallow_u : forall x' q q', shallowest ls x' q -> shallowest ls x' q' -> q = q'.
  Proof. intros x' q q' [[y [Y1 Y2]] A] [[z [Z1 Z2]] B]. specialize (A _ _ Z1 Z2). specialize (B _ _ Y1 Y2). lia. Qed.
  Lemma deep_u : forall x' q q', deepest ls x' q -> deepest ls x' q' -> q = q'.
  Proof. intros x' q q' [[y [Y1 Y2]] A] [[z [Z1 Z2]] B]. specialize (A _ _ Z1 Z2). specialize (B _ _ Y1 Y2). lia. Qed.

  Lemma range : forall i j, deepest ls (tb_top b) i -> shallowest ls (tb_bot b) j ->
    (i <= k)%nat /\ (k < j)%nat /\ (j < List.length ls)%nat.
  Proof.
    intros i j [[y [Hy [Y1 Y2]]] _] [[z [Hz [Z1 Z2]]] _]. apply Rleb_le in Y1, Y2, Z1, Z2. unfold fat in *. split; [|split].
    - destruct (Nat.le_gt_cases i k) as [X|X]; [exact X|exfalso]. pose proof (srt ls Hm Hu k i yk y X Hk Hy). lra.
    - destruct (Nat.le_gt_cases j k) as [X|X]; [exfalso|exact X]. destruct (Nat.eq_dec j k) as [->|X'].
      + assert (z = yk) by congruence. subst z. lra.
      + pose proof (srt ls Hm Hu j k z yk ltac:(lia) Hz Hk). lra.
    - apply nth_error_Some. congruence.
  Qed.

  Lemma cut_facts : tb_top a = tb_top b /\ tb_bot a = x /\ tb_isP a = w /\ tb_maxRP a = tb_maxRP b /\ all_rays m w rp a /\
    getMinTurnRayParam fuel m x w = Ok (tb_minTurnRP a) /\ getMinRayParam fuel m x w = Ok (tb_minRP a).
  Proof.
    apply createBranch_exact; try assumption; [|apply Rltb_lt; lra].
    exists yk. split; [eapply nth_error_In; exact Hk|]. right. apply Reqb_eq. exact Ek.
  Qed.
  Lemma cut_c : tb_top c = x /\ tb_bot c = tb_bot b /\ tb_isP c = w /\ tb_maxRP c = tb_minRP a /\
    tb_dist c = list_sub (tb_dist b) (tb_dist a) /\ tb_time c = list_sub (tb_time b) (tb_time a) /\ tb_tau c = list_sub (tb_tau b) (tb_tau a).
  Proof.
    destruct cut_facts as [_ [E _]]. apply difference_none in Hc. destruct Hc as [-> _].
    cbn [tb_top tb_bot tb_isP tb_maxRP tb_dist tb_time tb_tau]. auto 10.
  Qed.

  Lemma sums_app : forall l l' : list (timedist R), sum_dist (l ++ l') = sum_dist l + sum_dist l' /\ sum_time (l ++ l') = sum_time l + sum_time l'.
  Proof.
    intros l l'. destruct (sum_total l) as [-> ->], (sum_total l') as [-> ->], (sum_total (l ++ l')) as [-> ->].
    rewrite !total_app. auto.
  Qed.

  Lemma cut_rays : all_rays m w rp c.
  Proof.
    destruct cut_facts as [A1 [A2 [A3 [A4 [Ra _]]]]]. destruct cut_c as [C1 [C2 [C3 [C4 [C5 [C6 C7]]]]]].
    destruct Ra as [La1 [La2 [La3 Ra]]]. destruct Rb as [Lb1 [Lb2 [Lb3 Rb']]].
    unfold all_rays. rewrite C5, C6, C7.
    split; [rewrite list_sub_length; congruence|]. split; [rewrite list_sub_length; congruence|]. split; [rewrite list_sub_length; congruence|].
    intros q p dd tt uu Hp Hd Htm Hta.
    assert (Lq : (q < List.length rp)%nat) by (apply nth_error_Some; congruence).
    assert (Get : forall l : list R, List.length l = List.length rp -> exists v, nth_error l q = Some v).
    { intros l E. destruct (nth_error l q) as [v|] eqn:Ev; [eauto|]. apply nth_error_None in Ev. lia. }
    destruct (Get _ La1) as [da Da], (Get _ La2) as [ta Ta], (Get _ La3) as [ua Ua].
    destruct (Get _ Lb1) as [db Db], (Get _ Lb2) as [tb Tb], (Get _ Lb3) as [ub Ub].
    pose proof (list_sub_nth _ _ _ _ _ _ Da Db Hd) as Ed. pose proof (list_sub_nth _ _ _ _ _ _ Ta Tb Htm) as Et.
    pose proof (list_sub_nth _ _ _ _ _ _ Ua Ub Hta) as Eu. cbn [n_sub Num_R] in Ed, Et, Eu.
    destruct (Ra q p da ta ua Hp Da Ta Ua) as [Va Wa]. destruct (Rb' q p db tb ub Hp Db Tb Ub) as [Vb Wb].
    cbn [n_sub n_mul Num_R] in Va, Vb. clear Ra Rb' Get Hd Htm Hta.
    assert (Le : tb_minRP a <= tb_maxRP b).
    { destruct Mn as [_ Mn2]. apply Mn2. destruct Mx as [M1 _]. eapply (down_past_mono m w); [|exact M1]. lra. }
    split; [cbn [n_sub n_mul Num_R]; subst dd tt uu ua ub; ring|].
    rewrite C4, C1, C2. rewrite A4, A1, A2 in Wa.
    destruct Wb as [[Nb [-> ->]]|[Yb [i [j [incs [Di [Sj [De [-> ->]]]]]]]]].
    - left. destruct Wa as [[_ [-> ->]]|[Ya _]]; [|congruence]. rewrite n_0_R in *.
      split; [|split; subst; ring]. destruct (n_leb p (tb_minRP a)) eqn:E; [exfalso|reflexivity].
      apply Rleb_le in E. assert (n_leb p (tb_maxRP b) = true) by (apply Rleb_le; lra). congruence.
    - destruct (range i j Di Sj) as [R1 [R2 R3]].
      destruct De as [De|[De _]]; [|lia].
      destruct Wa as [[Na _]|[_ [i' [k' [incs' [Di' [Sk' [De' [-> ->]]]]]]]]]; [congruence|].
      assert (i' = i) by (eapply deep_u; eassumption). subst i'.
      assert (k' = k) by (eapply shallow_u; [exact Sk'|exact k_shallow]). subst k'.
      destruct De' as [De'|[De' _]]; [|lia]. apply Rleb_le in Yb.
      destruct (n_leb p (tb_minRP a)) eqn:E.
      + right. split; [reflexivity|]. apply Rleb_le in E.
        destruct (through m w p i k j R1 R2 R3 incs incs') as [rest [-> Dr]]; [|assumption..|].
        { intros n y Hn Hy. fold ls in Hy. destruct Mn as [_ Mn2]. assert (X : sl_botDepth y <= x).
          { destruct (Nat.eq_dec n k) as [->|X]; [assert (y = yk) by congruence; subst y; lra|].
            pose proof (srt ls Hm Hu n k y yk ltac:(lia) Hy Hk). unfold fat in *. lra. }
          assert (In y ls) by (eapply nth_error_In; exact Hy). pose proof (upr ls Hu y ltac:(assumption)).
          split; apply Rleb_le.
          - apply (Rle_trans _ (tb_minRP a)); [exact E|]. apply Mn2. exists y. split; [assumption|]. left. split; [lra|reflexivity].
          - apply (Rle_trans _ (tb_minRP a)); [exact E|]. apply Mn2. exists y. split; [assumption|]. right. split; [lra|reflexivity]. }
        exists (S k), j, rest. split; [exact k_deep|]. split; [exact Sj|]. split; [left; exact Dr|].
        destruct (sums_app incs' rest) as [E1 E2]. rewrite Ed, Et, E1, E2. split; ring.
      + left. split; [reflexivity|]. rewrite n_0_R.
        assert (Gt : tb_minRP a < p).
        { apply Rnot_le_lt. intros F. apply Rleb_le in F. cbn [n_leb Num_R] in *. congruence. }
        destruct Mn as [[y [Hy Hs]] _].
        assert (Nc : ~ crosses p y).
        { intros [F1 F2]. apply Rleb_le in F1, F2. destruct Hs as [[_ Hs]|[_ Hs]]; lra. }
        pose proof (upr ls Hu y Hy) as Uy. apply In_nth_error in Hy. destruct Hy as [q' Hq'].
        assert (Rq : (i <= q' <= S k)%nat).
        { split.
          - destruct (Nat.le_gt_cases i q') as [X|X]; [exact X|exfalso].
            destruct Di as [[yi [Hi [I1 _]]] _]. apply Rleb_le in I1. pose proof (srt ls Hm Hu q' i y yi X Hq' Hi) as Y.
            destruct Mx as [_ Mx2]. assert (tb_maxRP b <= tb_minRP a); [|lra]. apply Mx2.
            exists y. split; [eapply nth_error_In; exact Hq'|]. destruct Hs as [[_ Hs]|[_ Hs]]; [left|right]; (split; [lra|exact Hs]).
          - destruct (Nat.le_gt_cases q' (S k)) as [X|X]; [exact X|exfalso].
            pose proof (srt ls Hm Hu (S k) q' yl y X Hl Hq') as Y. unfold fat in *. destruct Hs as [[Z _]|[Z _]]; lra. }
        assert (incs = incs') by (eapply (stopped m w p i k j); eassumption). subst incs'. split; subst; ring.
  Qed.

  Lemma cut_steady : steady m a /\ steady m c.
  Proof.
    destruct cut_facts as [A1 [A2 [A3 _]]]. destruct cut_c as [C1 [C2 [C3 _]]]. unfold steady in *. rewrite Ib in Sb.
    rewrite A3, C3, A1, A2, C1, C2.
    destruct (has_deepest ls (tb_top b) Hu Bt) as [i Di], (has_shallowest ls (tb_bot b) Hu Bb) as [j Sj].
    destruct (range i j Di Sj) as [R1 [R2 R3]].
    pose proof k_shallow as Ks. pose proof k_deep as Kd. unfold ls in Di, Sj, Ks, Kd. specialize (Sb i j Di Sj). split.
    - intros i' k' Di' Sk. assert (k' = k) by (eapply shallow_u; eassumption). assert (i' = i) by (eapply deep_u; eassumption). subst i' k'.
      destruct Sb as [F|F]; [left|right]; intros q y Hq Hy; destruct (F q y ltac:(lia) Hy) as [F1 [F2 F3]]; repeat split; try assumption;
      intros z Lz; apply F3; lia.
    - intros l j' Dl Sj'. assert (j' = j) by (eapply shallow_u; eassumption). assert (l = S k) by (eapply deep_u; eassumption). subst l j'.
      destruct Sb as [F|F]; [left|right]; intros q y Hq Hy; destruct (F q y ltac:(lia) Hy) as [F1 [F2 F3]]; repeat split; assumption.
  Qed.
End Cut.

(** ** constructed models *)
Section Constructed.
  Variables (fuel fuel' : nat) (vm : vmodel R) (dp Dp dz dx err : R) (innerS : bool) (tol : R) (m : smodel R) (t : tmodel R).
  Hypothesis H : newSlownessModel fuel vm dp Dp dz dx err innerS tol = Ok m.
  Hypothesis HT : newTauModel fuel' m = Ok t.
  Hypothesis Ht : thick (vm_layers vm).
  Hypothesis Hr : vm_radius vm = 6371.
  Hypothesis Hnf : no_flat vm innerS.
  Hypothesis Hfi : fluid_above_inner_core vm innerS.
  Variable x : R.
  Hypothesis Sa : forall w, sampled_at (sm_layers m w) x.
  Hypothesis Zl : forall w, zone_or_lowest m w x.
  Hypothesis F0 : forall w f, nth_error (sm_layers m w) 0 = Some f -> sl_botP f <= sl_topP f <= n_lit 1 300.

  Lemma min_at : forall fu w mr, getMinRayParam fu m x w = Ok mr -> floor_of (down_past (sm_layers m w) x) mr.
  Proof.
    intros fu w mr M. destruct (g_good _ _ _ _ _ _ _ _ _ _ H Ht Hr w) as [Gm [Gu [Gj [Gq [G0 [lq [yq [Eq _]]]]]]]].
    destruct (Sa w) as [k [y [z [Hy [Hz [Fy [Fz [Ey Ez]]]]]]]].
    assert (En : ends_at_depth (sm_layers m w) x).
    { exists y. split; [eapply nth_error_In; exact Hy|]. apply Reqb_eq. exact Ey. }
    assert (Ks := k_shallow m w x k y Gm Gu Hy Fy Ey). assert (Kd := k_deep m w x k z Gm Gu Hz Fz Ez).
    assert (Ej : sl_botP y = sl_topP z) by (apply Reqb_eq; eapply Gj; eassumption).
    destruct (C52_ray_limit fu m x w mr Gm Gu (R_ok _) (fun u _ => conj (R_ok _) (R_ok _)) En M) as [q [Hq [L1 L2]]].
    assert (Z : in_hi_zone m w x \/ ~ in_hi_zone m w x).
    { destruct (depthInHighSlowness m x (n_lit 1 300) w) eqn:E.
      - left. apply in_hi_zone_iff. exact E.
      - right. rewrite <- in_hi_zone_iff, E. discriminate. }
    destruct Z as [Z|Z].
    - assert (Hx : 0 < x).
      { unfold fat in *. pose proof (top_pos _ Gm Gu Gj Gq G0 y (nth_error_In _ _ Hy)). lra. }
      apply (zone_floor fu m w x q mr); try assumption; [|apply F0].
      split; [exact Gm|]. split; [exact Gu|]. split; [exact Gj|]. split; [exact Gq|].
      destruct (sm_layers m w) as [|f l]; [destruct k; discriminate|]. exists f. split; [reflexivity|]. apply G0. reflexivity.
    - destruct (C52_turn_limit fu m x w q Gm Gu (R_ok _) (fun u _ => R_ok _) En Hq) as [_ T2]. specialize (T2 Z).
      assert (Up : forall s, upper_side (sm_layers m w) x s -> s = sl_topP z).
      { intros s [i [u [Si [Hu ->]]]]. assert (i = k) by (eapply shallow_u; eassumption). subst i. assert (u = y) by congruence. subst u. exact Ej. }
      assert (Lo : forall s, lower_side (sm_layers m w) x s -> s = sl_topP z).
      { intros s [i [u [Si [Hu ->]]]]. assert (i = S k) by (eapply deep_u; eassumption). subst i. assert (u = z) by congruence. subst u. reflexivity. }
      assert (Em : mr = sl_topP z) by (destruct L1 as [->|[L1|L1]]; auto). rewrite Em.
      destruct (Zl w) as [Zl'|Zl']; [tauto|]. split.
      + exists z. split; [eapply nth_error_In; exact Hz|]. left. split; [lra|reflexivity].
      + intros s Hs. apply (Zl' z s); [eapply nth_error_In; exact Hz|exact Ez|exact Hs].
  Qed.

  Definition good_branch (w : bool) (b : tbranch R) : Prop :=
    tb_isP b = w /\ tb_top b < tb_bot b /\ steady m b /\ all_rays m w (tm_rayParams t) b /\
    floor_of (down_past (sm_layers m w) (tb_top b)) (tb_maxRP b).

  Lemma built_good : forall w b, In b (branches t w) -> good_branch w b.
  Proof.
    intros w b Hb. destruct (C25_branches_tile_exact _ _ _ _ _ _ _ _ _ _ _ _ H HT Ht w) as [_ [_ [Bu Is]]].
    destruct (Is b Hb) as [Ew Ra]. split; [exact Ew|]. split; [apply Rltb_lt; exact (Bu b Hb)|].
    split; [exact (C48_steady_branches _ _ _ _ _ _ _ _ _ _ _ _ H HT Ht Hr Hnf Hfi w b Hb)|]. split; [exact Ra|].
    exact (C52_greatest _ _ _ _ _ _ _ _ _ _ _ _ H HT Ht Hr Hnf Hfi w b Hb).
  Qed.

  Lemma source_good : forall fuel'' wd wd' t' r, tm_depthCorrect fuel'' wd t x = Ok (wd', t', r) ->
    tm_sMod r = m /\ tm_rayParams r = tm_rayParams t /\ forall w b, In b (branches r w) -> good_branch w b.
  Proof.
    intros fuel'' wd wd' t' r Hd.
    assert (Em : tm_sMod t = m) by (apply newTauModel_inv in HT; tauto).
    destruct (C24_ray_parameters _ _ _ HT ltac:(intros; apply R_ok)) as [_ [Dec _]].
    assert (G : forall w, s_meet (sm_layers m w) /\ s_upright (sm_layers m w)).
    { intros w. destruct (g_good _ _ _ _ _ _ _ _ _ _ H Ht Hr w) as [Gm [Gu _]]. auto. }
    apply correct_on_boundary in Hd; [|exact Dec|rewrite Em; exact G|apply R_ok|].
    2:{ rewrite Em. intros w k y Sk Hy. destruct (G w) as [Gm Gu]. destruct (Sa w) as [k' [y' [z' [Hy' [_ [Fy [_ [Ey _]]]]]]]].
        assert (k = k') by (eapply shallow_u; [exact Sk|eapply k_shallow; eassumption]). subst k'. assert (y' = y) by congruence. subst y'.
        apply Reqb_eq. exact Ey. }
    destruct Hd as [[E1 [E2 E3]]|[E1 [E2 [Ne [n [bP [Hn [Hin Tp]]]]]]]]; (split; [congruence|]; split; [exact E2|]).
    - intros w b Hb. rewrite E3 in Hb. exact (built_good w b Hb).
    - intros w b Hb. destruct (Tp w) as [b0 [a [c [Hb0 [Er [Ha Hc]]]]]]. rewrite Em in Ha, Hc.
      pose proof (built_good w b0 (nth_error_In _ _ Hb0)) as [Iw [Up [St [Ra Fl]]]].
      destruct (C25_branches_tile_exact _ _ _ _ _ _ _ _ _ _ _ _ H HT Ht w) as [[TL Ti] _].
      destruct (C25_branches_tile_exact _ _ _ _ _ _ _ _ _ _ _ _ H HT Ht true) as [[TL' Ti'] _].
      assert (Ln : (n < List.length (branches t w))%nat) by (apply nth_error_Some; congruence).
      destruct (nth_error (sm_crit m) n) as [c0|] eqn:C0; [|apply nth_error_None in C0; lia].
      destruct (nth_error (sm_crit m) (S n)) as [c1|] eqn:C1; [|apply nth_error_None in C1; lia].
      destruct (Ti n b0 c0 c1 Hb0 C0 C1) as [T1 T2]. destruct (Ti' n bP c0 c1 Hn C0 C1) as [T1' T2'].
      assert (Lt : tb_top b0 < x < tb_bot b0).
      { destruct Hin as [I1 I2]. apply Rleb_le in I1. apply Rltb_lt in I2. split; [|lra].
        destruct (Req_dec (tb_top bP) x) as [X|X]; [exfalso|lra]. apply Ne. exists bP. split; [eapply nth_error_In; exact Hn|]. left. apply Reqb_eq. exact X. }
      destruct (G w) as [Gm Gu]. destruct (Sa w) as [k [y [z [Hy [Hz [Fy [Fz [Ey Ez]]]]]]]].
      assert (Bt : bnd (sm_layers m w) (tb_top b0)) by (rewrite T1; apply (g_bnd _ _ _ _ _ _ _ _ _ _ H w); eapply nth_error_In; exact C0).
      assert (Bb : bnd (sm_layers m w) (tb_bot b0)) by (rewrite T2; apply (g_bnd _ _ _ _ _ _ _ _ _ _ H w); eapply nth_error_In; exact C1).
      assert (Fa : tb_top a = tb_top b0 /\ tb_bot a = x /\ tb_isP a = w /\ tb_maxRP a = tb_maxRP b0 /\ all_rays m w (tm_rayParams t) a /\
        getMinTurnRayParam fuel'' m x w = Ok (tb_minTurnRP a) /\ getMinRayParam fuel'' m x w = Ok (tb_minRP a))
        by exact (cut_facts fuel'' m w (tm_rayParams t) x a b0 k y Gm Gu Hy Ey Lt Bt Ha).
      assert (Mn : floor_of (down_past (sm_layers m w) x) (tb_minRP a)) by (apply (min_at fuel''); apply Fa).
      assert (Fc : tb_top c = x /\ tb_bot c = tb_bot b0 /\ tb_isP c = w /\ tb_maxRP c = tb_minRP a /\
        tb_dist c = list_sub (tb_dist b0) (tb_dist a) /\ tb_time c = list_sub (tb_time b0) (tb_time a) /\ tb_tau c = list_sub (tb_tau b0) (tb_tau a))
        by exact (cut_c fuel'' m w (tm_rayParams t) x a b0 c k y Gm Gu Hy Ey Iw Lt Bt Ha Hc).
      assert (Ss : steady m a /\ steady m c) by exact (cut_steady fuel'' m w (tm_rayParams t) x a b0 c k y z Gm Gu Hy Hz Fy Fz Ey Ez Iw Lt Bt Bb St Ha Hc).
      assert (Rc : all_rays m w (tm_rayParams t) c) by exact (cut_rays fuel'' m w (tm_rayParams t) x a b0 c k y z Gm Gu Hy Hz Fy Fz Ey Ez Iw Lt Bt Bb Ra Fl Ha Hc Mn).
      destruct Fa as [A1 [A2 [A3 [A4 [A5 _]]]]]. destruct Fc as [B1 [B2 [B3 [B4 _]]]].
      rewrite Er in Hb. apply in_app_or in Hb. destruct Hb as [Hb|[<-|[<-|Hb]]].
      + apply built_good. rewrite <- (firstn_skipn n). apply in_or_app. left. exact Hb.
      + unfold good_branch. rewrite A1, A2, A4. repeat (split; [first [assumption|lra|apply Ss]|]). exact Fl.
      + unfold good_branch. rewrite B1, B2, B4. repeat (split; [first [assumption|lra|apply Ss]|]). exact Mn.
      + apply built_good. rewrite <- (firstn_skipn (S n)). apply in_or_app. right. exact Hb.
  Qed.
End Constructed.

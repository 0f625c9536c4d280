(** Proofs about adding samples to tau branches and about differences of branches. *)
From Coq Require Import ZArith Bool List Arith Lia.
From Verif Require Import Base Num VelocityModel VelSpec SlownessLayer SlownessModel
  SlowSpec SlowProofs SlowAddProofs SlowBuildProofs TauModel TauSpec TauProofs InsertSpec.
Import ListNotations.
Local Open Scope list_scope.
Local Open Scope num_scope.

(** ** lists *)
Section Lists.
  Context {A : Type}.

  Lemma slice_head : forall (l : list A) (i : nat), py_slice l 0 (Z.of_nat i) = firstn i l.
  Proof.
    intros l i. unfold py_slice, slice_bound. cbv zeta. change (0 <? 0)%Z with false. cbv iota.
    destruct (Z.ltb_spec (Z.of_nat i) 0); [lia|]. rewrite Z.max_id.
    replace (Z.to_nat (Z.min (Z.of_nat (List.length l)) 0)) with O by lia. cbn [skipn].
    destruct (Nat.le_gt_cases i (List.length l)) as [G|G].
    - f_equal. lia.
    - rewrite !firstn_all2; [reflexivity|lia|lia].
  Qed.
  Lemma slice_tail : forall (l : list A) (i : nat), py_slice l (Z.of_nat i) (Z.of_nat (List.length l)) = skipn i l.
  Proof.
    intros l i. unfold py_slice, slice_bound. cbv zeta.
    destruct (Z.ltb_spec (Z.of_nat i) 0); [lia|]. destruct (Z.ltb_spec (Z.of_nat (List.length l)) 0); [lia|].
    rewrite (Z.min_l (Z.of_nat (List.length l)) (Z.max 0 _)) by lia.
    destruct (Nat.le_gt_cases i (List.length l)) as [G|G].
    - replace (Z.to_nat (Z.min _ _)) with i by lia. apply firstn_all2. rewrite skipn_length. lia.
    - rewrite (skipn_all2 (n := i)) by lia. replace (Z.to_nat (Z.min _ _)) with (List.length l) by lia.
      rewrite skipn_all. apply firstn_nil.
  Qed.
  Lemma set_app : forall (l1 : list A) a l2 b, list_set (l1 ++ a :: l2) (List.length l1) b = l1 ++ b :: l2.
  Proof. induction l1 as [|x l1 IH]; intros; cbn; [reflexivity|]. rewrite IH. reflexivity. Qed.
  Lemma set_nat : forall (l : list A) (i : nat) a, (i < List.length l)%nat -> py_setitem l (Z.of_nat i) a = Ok (list_set l i a).
  Proof.
    intros l i a H. unfold py_setitem. cbv zeta. destruct (Z.ltb_spec (Z.of_nat i) 0); [lia|].
    destruct (Z.ltb_spec (Z.of_nat i) 0); [lia|]. destruct (Z.ltb_spec (Z.of_nat i) (Z.of_nat (List.length l))); [|lia].
    rewrite Nat2Z.id. reflexivity.
  Qed.
  Lemma nth_firstn : forall (l : list A) n i, nth_error (firstn n l) i = if (i <? n)%nat then nth_error l i else None.
  Proof.
    induction l as [|a l IH]; intros [|n] [|i]; cbn [firstn nth_error]; try reflexivity.
    - destruct (_ <? _)%nat; reflexivity.
    - rewrite IH. reflexivity.
  Qed.
  Lemma nth_skipn : forall (l : list A) n i, nth_error (skipn n l) i = nth_error l (n + i).
  Proof. induction l as [|a l IH]; intros [|n] i; cbn; try reflexivity; [destruct i; reflexivity|apply IH]. Qed.
End Lists.

Section Insert.
  Context {T : Type} {N : Num T} {L : Libm T}.

  Lemma shift_set : forall (l : list T) (i : nat) x l', (i <= List.length l)%nat ->
    (py_setitem (shift_list l (Z.of_nat i)) (Z.of_nat i) x = Ok l' <-> put_in i x l l').
  Proof.
    intros l i x l' Hi. unfold shift_list. rewrite slice_head, slice_tail.
    assert (E : py_setitem (firstn i l ++ [n_0] ++ skipn i l) (Z.of_nat i) x = Ok (firstn i l ++ x :: skipn i l)).
    { rewrite set_nat.
      - f_equal. pose proof (set_app (firstn i l) n_0 (skipn i l) x) as E. rewrite (firstn_length_le l Hi) in E. exact E.
      - rewrite app_length, firstn_length_le by assumption. cbn [app List.length]. lia. }
    rewrite E. split.
    - intros H. inversion H; subst. exists (firstn i l), (skipn i l). split; [symmetry; apply firstn_skipn|].
      split; [apply firstn_length_le; assumption|reflexivity].
    - intros [a [c [H1 [H2 H3]]]]. subst. rewrite firstn_app, skipn_app, Nat.sub_diag, firstn_all, skipn_all, app_nil_r. reflexivity.
  Qed.

  Lemma insert_sum_iff : forall (m : smodel T) w rp n a td r,
    insert_sum m w rp (zrange (Z.of_nat a) (Z.of_nat (a + n))) td = Ok r <->
    exists incs, r = fold_left td_add incs td /\ (List.length incs <= n)%nat /\
      (forall k x, nth_error incs k = Some x -> layerTimeDist m rp (Z.of_nat (a + k)) w = Ok x /\
         exists y, nth_error (sm_layers m w) (a + k) = Some y /\ sl_botP y <? rp = false) /\
      (List.length incs = n \/ exists y, nth_error (sm_layers m w) (a + List.length incs) = Some y /\ sl_botP y <? rp = true).
  Proof.
    intros m w rp. induction n as [|n IH]; intros a td r.
    - rewrite Nat.add_0_r, zrange_nil by lia. cbn [insert_sum]. split.
      + intros H. inversion H; subst. exists []. split; [reflexivity|]. split; [cbn; lia|].
        split; [intros [|k] x E; discriminate|]. left. reflexivity.
      + intros [incs [H1 [H2 _]]]. destruct incs; [subst; reflexivity|cbn in H2; lia].
    - rewrite zrange_cons by lia. replace (Z.of_nat a + 1)%Z with (Z.of_nat (S a)) by lia.
      replace (a + S n)%nat with (S a + n)%nat by lia. cbn [insert_sum]. split.
      + intros H. inv_as H as y Hy. apply layer_py in Hy. destruct (sl_botP y <? rp) eqn:E.
        * inversion H; subst. exists []. split; [reflexivity|]. split; [cbn; lia|].
          split; [intros [|k] x E'; discriminate|]. right. exists y. cbn [List.length]. rewrite Nat.add_0_r. split; assumption.
        * inv_as H as x Hx. apply IH in H. destruct H as [incs [H1 [H2 [H3 H4]]]]. exists (x :: incs).
          split; [exact H1|]. split; [cbn; lia|]. split.
          -- intros [|k] x' Hk; cbn in Hk.
             ++ inversion Hk; subst. rewrite Nat.add_0_r. split; [assumption|]. exists y. split; assumption.
             ++ replace (a + S k)%nat with (S a + k)%nat by lia. apply H3. assumption.
          -- cbn [List.length]. replace (a + S (List.length incs))%nat with (S a + List.length incs)%nat by lia.
             destruct H4 as [H4|H4]; [left; lia|right; assumption].
      + intros [incs [H1 [H2 [H3 H4]]]]. destruct incs as [|x incs].
        * destruct H4 as [H4|[y [Hy Hp]]]; [discriminate|]. cbn [List.length] in Hy. rewrite Nat.add_0_r in Hy.
          apply layer_py in Hy. rewrite Hy. cbn [bind]. rewrite Hp. subst. reflexivity.
        * destruct (H3 O x eq_refl) as [Hx [y [Hy Hp]]]. rewrite Nat.add_0_r in Hx, Hy. apply layer_py in Hy.
          rewrite Hy. cbn [bind]. rewrite Hp, Hx. cbn [bind]. apply IH. exists incs. split; [exact H1|].
          split; [cbn in H2; lia|]. split.
          -- intros k x' Hk. replace (S a + k)%nat with (a + S k)%nat by lia. apply H3. exact Hk.
          -- cbn [List.length] in H4. replace (S a + List.length incs)%nat with (a + S (List.length incs))%nat by lia.
             destruct H4 as [H4|H4]; [left; lia|right; assumption].
  Qed.

  Lemma insert_inserted : forall (m : smodel T) w p y (j : nat) td,
    (if (sl_botP y >=? p) && (sl_topP y >=? p) then insert_sum m w p (zrange 0 (Z.of_nat j + 1)) (td_new p) else Ok (td_new p)) = Ok td ->
    inserted m w p y j (td_dist td) (td_time td) (td_time td - p * td_dist td).
  Proof.
    intros m w p y j td H. unfold inserted.
    destruct ((sl_botP y >=? p) && (sl_topP y >=? p)) eqn:E.
    - change 0%Z with (Z.of_nat 0) in H. replace (Z.of_nat j + 1)%Z with (Z.of_nat (0 + S j)) in H by lia.
      apply insert_sum_iff in H. destruct H as [incs [H1 [H2 [H3 H4]]]]. exists incs. subst td.
      destruct (fold_td incs (td_new p)) as [-> ->]. split; [reflexivity|]. split; [reflexivity|]. split; [reflexivity|].
      left. apply andb_true_iff in E. split; [exact E|]. split; [assumption|]. split; assumption.
    - inversion H; subst. exists []. split; [reflexivity|]. split; [reflexivity|]. split; [reflexivity|]. right. split; [|reflexivity].
      intros [E1 E2]. rewrite E1, E2 in E. discriminate.
  Qed.
  Lemma inserted_insert : forall (m : smodel T) w p y (j : nat) d t u, inserted m w p y j d t u ->
    exists td, (if (sl_botP y >=? p) && (sl_topP y >=? p) then insert_sum m w p (zrange 0 (Z.of_nat j + 1)) (td_new p) else Ok (td_new p)) = Ok td /\
      d = td_dist td /\ t = td_time td /\ u = td_time td - p * td_dist td.
  Proof.
    intros m w p y j d t u [incs [Ed [Et [Eu H]]]].
    assert (F : d = td_dist (fold_left td_add incs (td_new p)) /\ t = td_time (fold_left td_add incs (td_new p))).
    { destruct (fold_td incs (td_new p)) as [-> ->]. split; assumption. }
    exists (fold_left td_add incs (td_new p)). destruct F as [F1 F2]. split; [|split; [exact F1|split; [exact F2|rewrite <- F1, <- F2; exact Eu]]].
    destruct H as [[[E1 E2] [H2 [H3 H4]]]|[E ->]].
    - rewrite E1, E2. cbn [andb]. change 0%Z with (Z.of_nat 0). replace (Z.of_nat j + 1)%Z with (Z.of_nat (0 + S j)) by lia.
      apply insert_sum_iff. exists incs. split; [reflexivity|]. split; [assumption|]. split; assumption.
    - destruct (_ && _) eqn:E'; [|reflexivity]. exfalso. apply E. apply andb_true_iff in E'. exact E'.
  Qed.
End Insert.

Section Diff.
  Context {T : Type} {N : Num T} {L : Libm T}.

  (** one of the three loops *)
  Definition put_ (own top : list T) (off : Z) (arr : list T) (i : Z) : result (list T) :=
    let! a := py_index own i in
    let! b := py_index top (i + off) in
    py_setitem arr (i + off) (a - b).
  Lemma loop_spec : forall own top off n a (arr r : list T), (0 <= Z.of_nat off)%Z ->
    foldM (put_ own top (Z.of_nat off)) (zrange (Z.of_nat a) (Z.of_nat (a + n))) arr = Ok r ->
    List.length r = List.length arr /\
    (forall k, (a <= k < a + n)%nat -> exists x y, nth_error own k = Some x /\ nth_error top (k + off) = Some y /\
       nth_error r (k + off) = Some (x - y)) /\
    (forall k, ~ (a + off <= k < a + n + off)%nat -> nth_error r k = nth_error arr k).
  Proof.
    intros own top off. induction n as [|n IH]; intros a arr r _ H.
    - rewrite Nat.add_0_r, zrange_nil in H by lia. cbn in H. inversion H; subst. split; [reflexivity|].
      split; [intros; lia|]. reflexivity.
    - rewrite zrange_cons in H by lia. cbn [foldM] in H. inv_as H as arr' Hp.
      replace (Z.of_nat a + 1)%Z with (Z.of_nat (S a)) in H by lia. replace (a + S n)%nat with (S a + n)%nat in * by lia.
      apply IH in H; [|lia]. destruct H as [H1 [H2 H3]].
      unfold put_ in Hp. inv_as Hp as x Hx. inv_as Hp as y Hy.
      apply py_index_nonneg in Hx; [|lia]. rewrite Nat2Z.id in Hx.
      replace (Z.of_nat a + Z.of_nat off)%Z with (Z.of_nat (a + off)) in Hp, Hy by lia.
      apply py_index_nonneg in Hy; [|lia]. rewrite Nat2Z.id in Hy.
      unfold py_setitem in Hp. cbv zeta in Hp. destruct (Z.ltb_spec (Z.of_nat (a + off)) 0); [lia|].
      destruct (Z.ltb_spec (Z.of_nat (a + off)) 0); [lia|].
      destruct (Z.ltb_spec (Z.of_nat (a + off)) (Z.of_nat (List.length arr))); [|discriminate].
      rewrite Nat2Z.id in Hp. inversion Hp; subst arr'. rewrite list_set_length in H1. split; [assumption|]. split.
      + intros k Hk. destruct (Nat.eq_dec k a) as [->|Ne]; [|apply H2; lia].
        exists x, y. split; [assumption|]. split; [assumption|]. rewrite H3 by lia. apply list_set_nth_same. lia.
      + intros k Hk. rewrite H3 by lia. apply list_set_nth_other. lia.
  Qed.
  Lemma set_spec : forall (arr r : list T) (i : nat) v, py_setitem arr (Z.of_nat i) v = Ok r ->
    List.length r = List.length arr /\ nth_error r i = Some v /\ forall k, k <> i -> nth_error r k = nth_error arr k.
  Proof.
    intros arr r i v H. unfold py_setitem in H. cbv zeta in H. destruct (Z.ltb_spec (Z.of_nat i) 0); [lia|].
    destruct (Z.ltb_spec (Z.of_nat i) 0); [lia|]. destruct (Z.ltb_spec (Z.of_nat i) (Z.of_nat (List.length arr))); [|discriminate].
    rewrite Nat2Z.id in H. inversion H; subst. split; [apply list_set_length|]. split; [apply list_set_nth_same; lia|].
    intros k Hk. apply list_set_nth_other. lia.
  Qed.

  Lemma diff_both_spec : forall (own top : list T) (p s : nat) vP vS r,
    (s < p <= List.length own)%nat ->
    diff_both own top (Z.of_nat (List.length own) + 2) (Z.of_nat p) (Z.of_nat s) vP vS = Ok r -> less_two own top s p vS vP r.
  Proof.
    intros own top p s vP vS r Hsp H. unfold diff_both in H. cbv zeta in H.
    inv_as H as a1 H1. inv_as H as a2 H2. inv_as H as a3 H3. inv_as H as a4 H4.
    change (foldM (put_ own top (Z.of_nat 0)) (zrange (Z.of_nat 0) (Z.of_nat (0 + s))) (repeat n_0 (Z.to_nat (Z.of_nat (List.length own) + 2))) = Ok a1) in H1.
    replace (Z.of_nat p) with (Z.of_nat (s + (p - s))) in H3 by lia.
    change (foldM (put_ own top (Z.of_nat 1)) (zrange (Z.of_nat s) (Z.of_nat (s + (p - s)))) a2 = Ok a3) in H3.
    replace (Z.of_nat p + 1)%Z with (Z.of_nat (S p)) in H4 by lia.
    replace (Z.of_nat (List.length own) + 2 - 2)%Z with (Z.of_nat (p + (List.length own - p))) in H by lia.
    change (foldM (put_ own top (Z.of_nat 2)) (zrange (Z.of_nat p) (Z.of_nat (p + (List.length own - p)))) a4 = Ok r) in H.
    apply loop_spec in H1; [|lia]. apply loop_spec in H3; [|lia]. apply loop_spec in H; [|lia].
    apply set_spec in H2. apply set_spec in H4.
    destruct H1 as [L1 [A1 B1]]. destruct H2 as [L2 [A2 B2]]. destruct H3 as [L3 [A3 B3]]. destruct H4 as [L4 [A4 B4]]. destruct H as [L5 [A5 B5]].
    rewrite repeat_length in L1.
    unfold less_two. split; [lia|]. split; [rewrite B5, B4, B3 by lia; assumption|]. split; [rewrite B5 by lia; assumption|].
    intros i a Hi. assert (Hlt : (i < List.length own)%nat) by (apply nth_error_Some; congruence). cbv zeta.
    destruct (Nat.ltb_spec i s); [|destruct (Nat.ltb_spec i p)].
    - destruct (A1 i ltac:(lia)) as [x [y [X [Y Z]]]]. rewrite Nat.add_0_r in Y, Z. exists y. split; [assumption|].
      rewrite B5, B4, B3, B2 by lia. congruence.
    - destruct (A3 i ltac:(lia)) as [x [y [X [Y Z]]]]. replace (i + 1)%nat with (S i) in * by lia. exists y. split; [assumption|].
      rewrite B5, B4 by lia. congruence.
    - destruct (A5 i ltac:(lia)) as [x [y [X [Y Z]]]]. replace (i + 2)%nat with (S (S i)) in * by lia. exists y. split; [assumption|]. congruence.
  Qed.

  Lemma sub_nth : forall (l l' : list T) k z, nth_error (list_sub l l') k = Some z <->
    exists x y, nth_error l k = Some x /\ nth_error l' k = Some y /\ z = x - y.
  Proof.
    unfold list_sub. induction l as [|a l IH]; intros l' k z.
    - cbn. split; [destruct k; discriminate|]. intros [x [y [E _]]]. destruct k; discriminate.
    - destruct l' as [|b l']; [cbn; split; [destruct k; discriminate|]; intros [x [y [_ [E _]]]]; destruct k; discriminate|].
      destruct k as [|k]; cbn.
      + split; [intros H; inversion H; subst; exists a, b; tauto|]. intros [x [y [E1 [E2 E3]]]]. congruence.
      + apply IH.
  Qed.
  Lemma sub_length : forall (l l' : list T), List.length (list_sub l l') = Nat.min (List.length l) (List.length l').
  Proof. intros. unfold list_sub. rewrite map_length, combine_length. reflexivity. Qed.
End Diff.

(** ** the checks before subtracting *)
Lemma checks_spec : forall {T} {N : Num T} {O : NumOrd T} {L : Libm T} fuel (m : smodel T) (b top : tbranch T) iP iS rp tn bn,
  (forall w, s_meet (sm_layers m w)) -> (forall w, s_upright (sm_layers m w)) -> tb_bot top <? tb_bot b = true ->
  diff_checks fuel b top iP iS m rp = Ok (tn, bn) ->
  tb_isP top = tb_isP b /\
  ((0 <= iP)%Z -> exists p, py_index rp iP = Ok p /\ slowness_below m true (tb_bot top) p) /\
  ((0 <= iS)%Z -> exists p, py_index rp iS = Ok p /\ slowness_below m false (tb_bot top) p) /\
  exists i j y z, tn = Z.of_nat i /\ bn = Z.of_nat j /\
    nth_error (sm_layers m (tb_isP b)) i = Some y /\ sl_topDepth y =? tb_bot top = true /\
    nth_error (sm_layers m (tb_isP b)) j = Some z /\ sl_botDepth z =? tb_bot b = true.
Proof.
  intros T N O L fuel m b top iP iS rp tn bn Hm Hu Lt H. destruct (ord_ltb_ok _ _ Lt) as [Ot Ob].
  unfold diff_checks in H. inv_as H as st Hst. destruct (negb (Bool.eqb (tb_isP top) (tb_isP b))) eqn:Ep; [discriminate|]. apply negb_false_iff, Bool.eqb_prop in Ep.
  split; [assumption|]. inv_as H as n1 Hn1. inv_as H as n2 Hn2. inv_as H as y Hy. inv_as H as z Hz. inv_as H as [n3 z3] H3.
  match type of H with (if ?c then _ else _) = _ => destruct c eqn:Ee end; [discriminate|]. apply orb_false_iff in Ee. destruct Ee as [Ee1 Ee2]. apply negb_false_iff in Ee1, Ee2.
  inv_as H as nP HnP. inv_as H as yP HyP. inv_as H as badP HbP. destruct badP; [discriminate|].
  inv_as H as nS HnS. inv_as H as yS HyS. inv_as H as badS HbS. destruct badS; [discriminate|].
  inversion H; subst tn bn. clear H.
  assert (Sl : forall w n y i bad, layerNumberBelow fuel m (tb_bot top) w = Ok n -> getSlownessLayer m n w = Ok y ->
    (if (i >=? 0)%Z then let! r := py_index rp i in Ok (sl_topP y <>? r) else Ok false) = Ok bad -> bad = false -> (0 <= i)%Z ->
    exists p, py_index rp i = Ok p /\ slowness_below m w (tb_bot top) p).
  { intros w n y0 i bad G1 G2 G3 -> Hi. destruct (Z.geb_spec i 0); [|lia]. inv_as G3 as r Hr. exists r. split; [assumption|].
    apply below_sound in G1; [|auto..]. destruct G1 as [G1 G4]. apply layer_py_Z in G2; [|assumption].
    exists (Z.to_nat n), y0. split; [assumption|]. split; [assumption|]. inversion G3 as [G5]. apply negb_false_iff in G5. assumption. }
  split; [intros Hi; exact (Sl true nP yP iP false HnP HyP HbP eq_refl Hi)|].
  split; [intros Hi; exact (Sl false nS yS iS false HnS HyS HbS eq_refl Hi)|]. clear Sl HbP HbS HnP HyP HnS HyS.
  apply below_sound in Hn1; [|auto..]. apply below_sound in Hn2; [|auto..]. destruct Hn1 as [N1 D1]. destruct Hn2 as [N2 D2].
  apply layer_py_Z in Hy; [|assumption]. apply layer_py_Z in Hz; [|assumption].
  match type of H3 with (if ?c then _ else _) = _ => destruct c eqn:E3 end.
  - inv_as H3 as z' Hz'. inversion H3; subst n3 z3. clear H3. apply andb_true_iff in E3. destruct E3 as [E3 _].
    assert (Hpos : (0 < n2)%Z).
    { destruct (Z.eq_dec n2 0) as [->|]; [exfalso|lia]. change (Z.to_nat 0) with 0%nat in *.
      assert (Hle : sl_topDepth z <=? sl_topDepth y = true).
      { destruct (Z.to_nat n1) as [|k] eqn:En.
        - assert (y = z) by congruence. subst y. apply leb_refl. rewrite ord_eqb in E3. apply andb_true_iff in E3. apply (ord_leb_ok _ _ (proj1 E3)).
        - eapply ord_trans; [apply (Hu (tb_isP b)); eapply nth_error_In; exact Hz|].
          eapply s_sorted; [apply Hm|apply Hu|exact Hz|exact Hy|lia]. }
      assert (Hc : tb_bot b <=? tb_bot top = true).
      { eapply ord_trans; [rewrite ord_eqb in E3; apply andb_true_iff in E3; apply E3|]. eapply ord_trans; [exact Hle|]. apply eqb_leb. exact Ee1. }
      pose proof (leb_ltb_trans _ _ _ Hc Lt) as Hx. rewrite ltb_irrefl in Hx. discriminate. }
    exists (Z.to_nat n1), (Z.to_nat (n2 - 1)), y, z'. apply layer_py_Z in Hz'; [|lia].
    rewrite !Z2Nat.id by lia. tauto.
  - inversion H3; subst n3 z3. exists (Z.to_nat n1), (Z.to_nat n2), y, z. rewrite !Z2Nat.id by lia. tauto.
Qed.

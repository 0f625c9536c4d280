(** Proofs about the critical depths of a split model and about moved boundaries. *)
From Coq Require Import ZArith Bool List String Reals Lia.
From Verif Require Import Base Num PyStr VelocityModel VelSpec SlownessLayer SlownessModel
  SlowSpec SlowProofs SlowAddProofs SlowBuildProofs SplitSpec SplitProofs.
Import ListNotations.
Local Open Scope list_scope.
Local Open Scope num_scope.

Section More.
  Context {T : Type} {N : Num T} {O : NumOrd T} {L : Libm T}.

  Definition keeps (w : bool) (c c' : critdepth T) : Prop :=
    cd_depth c' = cd_depth c /\ cd_vel c' = cd_vel c /\ number (negb w) c' = number (negb w) c.

  Lemma fixCrit_spec : forall w k (crit : list (critdepth T)),
    Forall2 (fun c c' => keeps w c c' /\ number w c' = (if (number w c >? k)%Z then number w c + 1 else number w c)%Z)
      crit (fixCriticalDepths crit k w).
  Proof.
    intros w k. induction crit as [|c crit IH]; cbn; constructor; [|exact IH].
    unfold keeps, number. destruct w; cbn [negb].
    - destruct (cd_pNum c >? k)%Z; repeat split; reflexivity.
    - destruct (cd_sNum c >? k)%Z; repeat split; reflexivity.
  Qed.
  Lemma Forall2_mono : forall {A B} (P Q : A -> B -> Prop) l l', (forall a b, P a b -> Q a b) -> Forall2 P l l' -> Forall2 Q l l'.
  Proof. intros A B P Q l l' H F. induction F; constructor; auto. Qed.
  Lemma Forall2_trans : forall {A} (P : A -> A -> Prop) l1 l2 l3, (forall a b c, P a b -> P b c -> P a c) ->
    Forall2 P l1 l2 -> Forall2 P l2 l3 -> Forall2 P l1 l3.
  Proof.
    intros A P l1 l2 l3 H F. revert l3. induction F as [|a b l l' Hab F IH]; intros l3 G; inversion G; subst; constructor; eauto.
  Qed.
  Lemma keeps_trans : forall w a b c, keeps w a b -> keeps w b c -> keeps w a c.
  Proof. unfold keeps. intros w a b c [A1 [A2 A3]] [B1 [B2 B3]]. split; [|split]; congruence. Qed.
  Lemma fixCrit_keeps : forall w k crit, Forall2 (keeps w) crit (fixCriticalDepths crit k w).
  Proof. intros. eapply Forall2_mono; [|apply fixCrit_spec]. cbn. tauto. Qed.
  Lemma keeps_refl : forall w crit, Forall2 (keeps w) crit crit.
  Proof. intros w. induction crit; constructor; [repeat split|assumption]. Qed.

  Lemma other_crit : forall radius p w es (out : list (slayer T)) crit next out' crit' next',
    foldM (fixOther_step radius p (negb w)) es (out, crit, next) = Ok (out', crit', next') ->
    Forall2 (keeps w) crit crit'.
  Proof.
    intros radius p w. induction es as [|[n y] es IH]; intros out crit next out' crit' next' H; cbn [foldM] in H.
    - inversion H; subst. apply keeps_refl.
    - inv_as H as [[oa ca] na] Ha. apply IH in H. eapply Forall2_trans; [apply keeps_trans| |exact H].
      unfold fixOther_step in Ha. destruct (strictly_contains y p).
      + inv_as Ha as dd Hd. inv_as Ha as tp Htp. inv_as Ha as bt Hbt. inversion Ha; subst.
        rewrite negb_involutive. apply fixCrit_keeps.
      + inversion Ha; subst. apply keeps_refl.
  Qed.

  Lemma In_split_at : forall {A} (l : list A) i a b z, In z (list_split_at l i a b) ->
    z = a \/ z = b \/ exists j, j <> i /\ nth_error l j = Some z.
  Proof.
    intros A. induction l as [|h l IH]; intros i a b z H; destruct i as [|i]; cbn in H.
    - destruct H.
    - destruct H.
    - destruct H as [<-|[<-|H]]; auto. right. right. apply In_nth_error in H. destruct H as [j Hj].
      exists (S j). split; [lia|exact Hj].
    - destruct H as [<-|H]; [right; right; exists 0%nat; split; [lia|reflexivity]|].
      apply IH in H. destruct H as [H|[H|[j [H1 H2]]]]; auto. right. right. exists (S j). split; [lia|exact H2].
  Qed.
  Lemma fresh_nth : forall (l : list (slayer T)) n i z, nth_error (fresh_copy n l) i = Some z ->
    exists u, nth_error l i = Some u /\ same u z.
  Proof.
    induction l as [|y l IH]; intros n [|i] z H; try discriminate.
    - inversion H; subst. exists y. split; [reflexivity|repeat split].
    - apply IH in H. exact H.
  Qed.
  Lemma In_enum_from : forall {A} (l : list A) n m a, In (n, a) (combine (map Z.of_nat (seq m (List.length l))) l) -> In a l.
  Proof. intros A l n m a H. eapply in_combine_r; exact H. Qed.
  Lemma In_enumerate : forall {A} (l : list A) n a, In (n, a) (enumerate l) -> In a l.
  Proof. intros A l n a H. unfold enumerate in H. eapply in_combine_r; exact H. Qed.

  Lemma index_of_id_spec : forall id (l : list (slayer T)),
    match index_of_id id l with
    | Some i => exists z, nth_error l i = Some z /\ sl_id z = id /\ forall j u, (j < i)%nat -> nth_error l j = Some u -> sl_id u <> id
    | None => forall z, In z l -> sl_id z <> id
    end.
  Proof.
    intros id. induction l as [|y l IH]; cbn [index_of_id]; [intros z []|].
    destruct (sl_id y =? id)%Z eqn:E.
    - apply Z.eqb_eq in E. exists y. split; [reflexivity|]. split; [exact E|]. intros j u Hj. lia.
    - apply Z.eqb_neq in E. destruct (index_of_id id l) as [i|].
      + destruct IH as [z [A [B C]]]. exists z. split; [exact A|]. split; [exact B|].
        intros [|j] u Hj Hu; [inversion Hu; subst; exact E|]. apply (C j u); [lia|exact Hu].
      + intros z [<-|Hz]; [exact E|apply IH; exact Hz].
  Qed.

  Lemma split_crit : forall fuel (m : smodel T) x w m' info,
    s_meet (sm_layers m w) -> s_upright (sm_layers m w) -> n_ok x ->
    splitLayer fuel m x w = Ok (m', info) -> si_needed info = true ->
    Forall2 (keeps w) (sm_crit m) (sm_crit (si_sMod info)) /\
    (ids_ok m -> forall k y, shallowest (sm_layers m w) x k -> nth_error (sm_layers m w) k = Some y ->
      (forall u, In u (sm_layers m (negb w)) -> sl_id u <> sl_id y -> ~ spans u (si_rayParam info)) ->
      Forall2 (fun c c' => number w c' = (if (number w c >? Z.of_nat k)%Z then number w c + 1 else number w c)%Z)
        (sm_crit m) (sm_crit (si_sMod info))).
  Proof.
    intros fuel m x w m' info Hm Hu Hx H Hn. unfold splitLayer in H. inv_as H as n Hnum. inv_as H as y Hy.
    apply above_sound in Hnum; [|assumption..]. destruct Hnum as [Hn0 Hs].
    apply layer_py_Z in Hy; [|assumption].
    match type of H with (if ?b then _ else _) = _ => destruct b end; [inversion H; subst; discriminate|].
    match type of H with (if ?b then _ else _) = _ => destruct b end.
    { inv_as H as l1 H1. inv_as H as out1 H2. inv_as H as z H3. inv_as H as l2 H4. inv_as H as out2 H5.
      inversion H; subst. discriminate. }
    match type of H with (if ?b then _ else _) = _ => destruct b end.
    { inv_as H as l1 H1. inv_as H as out1 H2. inv_as H as z H3. inv_as H as l2 H4. inv_as H as out2 H5.
      inversion H; subst. discriminate. }
    inv_as H as p Hp. inv_as H as top Htop. inv_as H as bot Hbot. inv_as H as [[other crit'] next'] Ho.
    inversion H; subst m' info. clear H. cbn [si_sMod si_rayParam sm_set_crit sm_crit].
    unfold fixOtherLayers in Ho. cbv zeta in Ho. split.
    - apply other_crit in Ho. eapply Forall2_trans; [apply keeps_trans|apply fixCrit_keeps|exact Ho].
    - intros Hid k y' Hk Hy' Hsp.
      assert (k = Z.to_nat n) by (eapply shallowest_unique; eassumption). subst k.
      assert (y' = y) by congruence. subst y'.
      apply other_none in Ho.
      + inversion Ho; subst. rewrite Z2Nat.id by exact Hn0.
        eapply Forall2_mono; [|apply fixCrit_spec]. cbn. tauto.
      + intros i z Hz. apply In_enumerate in Hz.
        assert (SP : forall u v, same u v -> spans v p -> spans u p).
        { intros u v [E1 [_ [E2 _]]] Hv. unfold spans in *. rewrite E1, E2. assumption. }
        assert (Hh : halves p y top bot).
        { apply new_slayer_eq in Htop, Hbot. subst top bot. repeat split. }
        destruct (bottom_not_spans _ _ _ _ Hh) as [B1 B2].
        pose proof (index_of_id_spec (sl_id y) (sm_layers m (negb w))) as Ix.
        destruct (index_of_id (sl_id y) (sm_layers m (negb w))) as [i0|].
        * apply In_split_at in Hz. destruct Hz as [->|[->|[j [Nj Hj]]]]; [exact B1|exact B2|].
          apply fresh_nth in Hj. destruct Hj as [u [Hj Su]]. intros F. apply (SP u) in F; [|exact Su].
          destruct Ix as [q [Hq [Eq _]]].
          apply (Hsp u); [eapply nth_error_In; exact Hj| |exact F]. intros E. apply Nj.
          assert (ND : NoDup (map sl_id (sm_layers m (negb w)))).
          { destruct Hid as [D1 [D2 _]]. destruct w; assumption. }
          eapply (NoDup_nth_error (map sl_id (sm_layers m (negb w)))); [exact ND| |].
          -- rewrite map_length. apply nth_error_Some. congruence.
          -- rewrite (map_nth_error sl_id _ _ Hj), (map_nth_error sl_id _ _ Hq). congruence.
        * apply In_nth_error in Hz. destruct Hz as [j Hj]. apply fresh_nth in Hj. destruct Hj as [u [Hj Su]].
          intros F. apply (SP u) in F; [|exact Su]. apply nth_error_In in Hj. apply (Hsp u Hj); [apply Ix; exact Hj|exact F].
  Qed.

  (** ** moved boundaries *)
  Lemma list_set_app : forall {A} (l1 : list A) a l2 b, list_set (l1 ++ a :: l2) (List.length l1) b = l1 ++ b :: l2.
  Proof. intros A. induction l1 as [|h l1 IH]; intros a l2 b; cbn; [reflexivity|]. f_equal. apply IH. Qed.
  Lemma setitem_nat : forall {A} (l l' : list A) (i : nat) a, py_setitem l (Z.of_nat i) a = Ok l' ->
    (i < List.length l)%nat /\ l' = list_set l i a.
  Proof.
    intros A l l' i a H. unfold py_setitem in H. cbv zeta in H.
    destruct (Z.of_nat i <? 0)%Z eqn:E; [apply Z.ltb_lt in E; lia|]. rewrite E in H.
    destruct (Z.of_nat i <? Z.of_nat (List.length l))%Z eqn:F; [|discriminate]. apply Z.ltb_lt in F.
    inversion H. rewrite Nat2Z.id. split; [lia|reflexivity].
  Qed.
  Lemma setitem_last : forall {A} (l l' : list A) a, py_setitem l (-1) a = Ok l' -> exists o, l' = o ++ [a].
  Proof.
    intros A l l' a H. unfold py_setitem in H. cbv zeta in H.
    destruct (-1 <? 0)%Z eqn:E; [|discriminate]. clear E.
    destruct (-1 + Z.of_nat (List.length l) <? 0)%Z eqn:E; [discriminate|]. apply Z.ltb_ge in E.
    destruct (exists_last (l := l)) as [o [q ->]]; [intros ->; cbn in E; lia|].
    match type of H with (if ?b then _ else _) = _ => destruct b end; [|discriminate].
    assert (E2 : l' = list_set (o ++ [q]) (Z.to_nat (-1 + Z.of_nat (List.length (o ++ [q])))) a) by congruence.
    rewrite app_length in E2. replace (Z.to_nat _) with (List.length o) in E2 by (cbn [List.length]; lia).
    rewrite list_set_app in E2. exists o. exact E2.
  Qed.
  Lemma nth_split_two : forall {A} (l : list A) j a b, nth_error l j = Some a -> nth_error l (S j) = Some b ->
    exists l1 l2, l = l1 ++ a :: b :: l2 /\ List.length l1 = j.
  Proof.
    intros A. induction l as [|h l IH]; intros [|j] a b Ha Hb; try discriminate.
    - inversion Ha; subst. destruct l as [|h' l]; [discriminate|]. inversion Hb; subst. exists [], l. auto.
    - destruct (IH j a b Ha Hb) as [l1 [l2 [E1 E2]]]. exists (h :: l1), l2. subst. auto.
  Qed.
  Lemma moved_intro : forall (l : list (slayer T)) n j a b x a' b', nth_error l j = Some a -> nth_error l (S j) = Some b ->
    sl_topP a' = sl_topP a -> sl_botP a' = sl_botP a -> sl_topDepth a' = sl_topDepth a -> sl_botDepth a' = x ->
    sl_topP b' = sl_topP b -> sl_botP b' = sl_botP b -> sl_topDepth b' = x -> sl_botDepth b' = sl_botDepth b ->
    moved l j x (list_set (list_set (fresh_copy n l) (S j) b') j a') /\
    moved l j x (list_set (list_set (fresh_copy n l) j a') (S j) b').
  Proof.
    intros l n j a b x a' b' Ha Hb E1 E2 E3 E4 F1 F2 F3 F4.
    destruct (nth_split_two _ _ _ _ Ha Hb) as [l1 [l2 [-> <-]]].
    rewrite fresh_app. cbn [fresh_copy].
    set (n' := (n + Z.of_nat (List.length l1))%Z).
    assert (Len : List.length (fresh_copy n l1) = List.length l1) by apply fresh_length.
    assert (X : list_set (list_set (fresh_copy n l1 ++
        mkSL n' (sl_topP a) (sl_topDepth a) (sl_botP a) (sl_botDepth a)
        :: mkSL (n' + 1)%Z (sl_topP b) (sl_topDepth b) (sl_botP b) (sl_botDepth b) :: fresh_copy (n' + 1 + 1)%Z l2) (S (List.length l1)) b')
        (List.length l1) a' = fresh_copy n l1 ++ a' :: b' :: fresh_copy (n' + 1 + 1)%Z l2).
    { set (u := mkSL n' _ _ _ _). set (v := mkSL (n' + 1)%Z _ _ _ _).
      replace (fresh_copy n l1 ++ u :: v :: fresh_copy (n' + 1 + 1)%Z l2) with ((fresh_copy n l1 ++ [u]) ++ v :: fresh_copy (n' + 1 + 1)%Z l2)
        by (rewrite <- app_assoc; reflexivity).
      replace (S (List.length l1)) with (List.length (fresh_copy n l1 ++ [u])) by (rewrite app_length, Len; cbn; lia).
      rewrite list_set_app, <- app_assoc. cbn [app]. rewrite <- Len at 1. apply list_set_app. }
    assert (Y : list_set (list_set (fresh_copy n l1 ++
        mkSL n' (sl_topP a) (sl_topDepth a) (sl_botP a) (sl_botDepth a)
        :: mkSL (n' + 1)%Z (sl_topP b) (sl_topDepth b) (sl_botP b) (sl_botDepth b) :: fresh_copy (n' + 1 + 1)%Z l2) (List.length l1) a')
        (S (List.length l1)) b' = fresh_copy n l1 ++ a' :: b' :: fresh_copy (n' + 1 + 1)%Z l2).
    { set (u := mkSL n' _ _ _ _). set (v := mkSL (n' + 1)%Z _ _ _ _).
      rewrite <- Len at 1. rewrite list_set_app.
      replace (fresh_copy n l1 ++ a' :: v :: fresh_copy (n' + 1 + 1)%Z l2) with ((fresh_copy n l1 ++ [a']) ++ v :: fresh_copy (n' + 1 + 1)%Z l2)
        by (rewrite <- app_assoc; reflexivity).
      replace (S (List.length l1)) with (List.length (fresh_copy n l1 ++ [a'])) by (rewrite app_length, Len; cbn; lia).
      rewrite list_set_app, <- app_assoc. reflexivity. }
    rewrite X, Y.
    assert (M : moved (l1 ++ a :: b :: l2) (List.length l1) x (fresh_copy n l1 ++ a' :: b' :: fresh_copy (n' + 1 + 1)%Z l2)).
    { exists l1, a, b, l2, (fresh_copy n l1), a', b', (fresh_copy (n' + 1 + 1)%Z l2).
      split; [reflexivity|]. split; [reflexivity|]. split; [reflexivity|]. split; [apply fresh_same|]. split; [apply fresh_same|].
      do 7 (split; [assumption|]). assumption. }
    split; exact M.
  Qed.

  Lemma split_moved : forall fuel (m : smodel T) x m' info k y,
    s_meet (sm_P m) -> s_upright (sm_P m) -> n_ok x ->
    splitLayer fuel m x true = Ok (m', info) ->
    shallowest (sm_P m) x k -> nth_error (sm_P m) k = Some y ->
    ~ (sl_topDepth y =? x = true \/ sl_botDepth y =? x = true) ->
    (close (sl_topDepth y) x ->
       match k with
       | 0%nat => exists l z, sm_P m' = l ++ [z] /\ sl_botDepth z = x
       | S j => moved (sm_P m) j x (sm_P m')
       end) /\
    (~ close (sl_topDepth y) x -> close x (sl_botDepth y) -> moved (sm_P m) k x (sm_P m')).
  Proof.
    intros fuel m x m' info k y Hm Hu Hx H Hk Hy Non. unfold splitLayer in H.
    inv_as H as n Hnum. inv_as H as y' Hy'.
    apply above_sound in Hnum; [|assumption..]. destruct Hnum as [Hn0 Hs].
    apply layer_py_Z in Hy'; [|assumption]. cbn [sm_layers] in *.
    assert (k = Z.to_nat n) by (eapply shallowest_unique; eassumption).
    assert (En : n = Z.of_nat k) by lia. subst n. rewrite Nat2Z.id in *.
    assert (y' = y) by congruence. subst y'.
    match type of H with (if ?b then _ else _) = _ => destruct b eqn:Eb end.
    { exfalso. apply Non. apply orb_true_iff in Eb. exact Eb. }
    match type of H with (if ?b then _ else _) = _ => destruct b eqn:Ec end.
    { split; [intros _|intros F; exfalso; apply F; exact Ec].
      inv_as H as l1 H1. inv_as H as out1 H2. inv_as H as z H3. inv_as H as l2 H4. inv_as H as out2 H5.
      inversion H; subst m' info. clear H. cbn [sm_set_layers sm_P].
      apply new_slayer_eq in H1, H4. apply setitem_nat in H2. destruct H2 as [L2 ->].
      destruct k as [|j].
      - change (Z.of_nat 0 - 1)%Z with (-1)%Z in *. apply setitem_last in H5. destruct H5 as [o' ->].
        exists o', l2. split; [reflexivity|]. subst l2. reflexivity.
      - replace (Z.of_nat (S j) - 1)%Z with (Z.of_nat j) in * by lia. apply setitem_nat in H5. destruct H5 as [_ ->].
        apply layer_py_Z in H3; [|lia]. rewrite Nat2Z.id in H3. cbn [sm_layers] in H3.
        apply (moved_intro (sm_P m) (sm_next m) j z y x l2 l1); subst; reflexivity || assumption. }
    match type of H with (if ?b then _ else _) = _ => destruct b eqn:Ed end.
    { split; [intros F; unfold close in F; congruence|intros _ _].
      inv_as H as l1 H1. inv_as H as out1 H2. inv_as H as z H3. inv_as H as l2 H4. inv_as H as out2 H5.
      inversion H; subst m' info. clear H. cbn [sm_set_layers sm_P].
      apply new_slayer_eq in H1, H4. apply setitem_nat in H2. destruct H2 as [L2 ->].
      replace (Z.of_nat k + 1)%Z with (Z.of_nat (S k)) in * by lia. apply setitem_nat in H5. destruct H5 as [_ ->].
      apply layer_py_Z in H3; [|lia]. rewrite Nat2Z.id in H3. cbn [sm_layers] in H3.
      apply (moved_intro (sm_P m) (sm_next m) k y z x l1 l2); subst; reflexivity || assumption. }
    split; [intros F; unfold close in F; congruence|intros _ F; unfold close in F; congruence].
  Qed.

  Lemma same_meet_app : forall l1 l1' (l : list (slayer T)), Forall2 same l1 l1' -> s_meet (l1 ++ l) -> s_meet (l1' ++ l).
  Proof.
    intros l1 l1' l F H. eapply same_meet; [|exact H]. apply Forall2_app; [exact F|].
    clear. induction l; constructor; [apply same_refl|assumption].
  Qed.
  Lemma moved_meet : forall (l : list (slayer T)) j x l', moved l j x l' -> n_ok x -> s_meet l -> s_meet l'.
  Proof.
    intros l j x l' [l1 [a [b [l2 [l1' [a' [b' [l2' [-> [_ [-> [F1 [F2 [A1 [A2 [A3 [A4 [B1 [B2 [B3 B4]]]]]]]]]]]]]]]]]]]] Hx H.
    assert (F : Forall2 same (a' :: b' :: l2) (a' :: b' :: l2'))
      by (constructor; [apply same_refl|constructor; [apply same_refl|exact F2]]).
    eapply same_meet; [apply Forall2_app; [exact F1|exact F]|].
    clear - H Hx A3 A4 B3 B4. induction l1 as [|h l1 IH]; cbn [app] in *.
    - apply s_meet_cons in H. destruct H as [_ H]. apply s_meet_cons. split; [rewrite A4, B3; exact Hx|].
      destruct l2 as [|q l2]; [apply s_meet_one|]. apply s_meet_cons in H. apply s_meet_cons. rewrite B4. exact H.
    - destruct l1 as [|h' l1]; cbn [app] in *.
      + apply s_meet_cons in H. apply s_meet_cons. rewrite A3. split; [apply H|apply IH; apply H].
      + apply s_meet_cons in H. apply s_meet_cons. split; [apply H|apply IH; apply H].
  Qed.
End More.

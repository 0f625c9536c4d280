(** Proofs about splitting a slowness layer at a depth. *)
From Coq Require Import ZArith Bool List String Reals Lia Lra.
From Verif Require Import Base Num PyStr VelocityModel VelSpec SlownessLayer SlownessModel
  SlowSpec SlowProofs SlowAddProofs CalcTimeProofs SlowBuildProofs SplitSpec.
Import ListNotations.
Local Open Scope list_scope.
Local Open Scope num_scope.

Section Split.
  Context {T : Type} {N : Num T} {L : Libm T}.

  Lemma same_refl : forall y : slayer T, same y y.
  Proof. intros y. repeat split. Qed.
  Lemma new_slayer_eq : forall id (a b c e : T) y, new_slayer id a b c e = Ok y -> y = mkSL id a b c e.
  Proof. intros id a b c e y H. unfold new_slayer in H. if_in H; [|discriminate]. if_in H; inversion H. reflexivity. Qed.
  Lemma fresh_same : forall l n, Forall2 same l (fresh_copy n l : list (slayer T)).
  Proof. induction l as [|y l IH]; intros n; cbn [fresh_copy]; constructor; [repeat split|apply IH]. Qed.
  Lemma fresh_length : forall l n, List.length (fresh_copy n l : list (slayer T)) = List.length l.
  Proof. induction l as [|y l IH]; intros n; cbn [fresh_copy]; simpl; auto. Qed.
  Lemma fresh_app : forall l1 l2 n, (fresh_copy n (l1 ++ l2) : list (slayer T))
    = fresh_copy n l1 ++ fresh_copy (n + Z.of_nat (List.length l1)) l2.
  Proof.
    induction l1 as [|y l1 IH]; intros l2 n; cbn [app fresh_copy List.length].
    - f_equal. lia.
    - f_equal. rewrite IH. f_equal. f_equal. lia.
  Qed.
  Lemma split_at_app : forall {A} (l1 : list A) y l2 a b,
    list_split_at (l1 ++ y :: l2) (List.length l1) a b = l1 ++ a :: b :: l2.
  Proof. induction l1 as [|x l1 IH]; intros; simpl; [reflexivity|]. f_equal. apply IH. Qed.
  Lemma nth_split2 : forall {A} (l : list A) k y, nth_error l k = Some y ->
    exists l1 l2, l = l1 ++ y :: l2 /\ List.length l1 = k.
  Proof. intros A l k y H. apply nth_error_split in H. destruct H as [l1 [l2 [H1 H2]]]. eauto. Qed.

  (** the copy with layer [k] replaced by two halves *)
  Lemma fresh_cut : forall l k (y : slayer T) n p x a b, nth_error l k = Some y -> halves p y a b -> sl_botDepth a = x ->
    cut l k p x (list_split_at (fresh_copy n l) k a b).
  Proof.
    intros l k y n p x a b Hk Hh Hx. apply nth_split2 in Hk. destruct Hk as [l1 [l2 [-> Hl]]].
    rewrite fresh_app. cbn [fresh_copy]. rewrite <- (fresh_length l1 n) in Hl. subst k. rewrite split_at_app, fresh_length.
    exists l1, y, l2. do 4 eexists. split; [reflexivity|]. split; [reflexivity|]. split; [reflexivity|].
    split; [apply fresh_same|]. split; [apply fresh_same|]. auto.
  Qed.

  (** the loop over the other wave type, when at most one layer contains the slowness *)
  Lemma other_none : forall radius p w (out : list (slayer T)) es crit next r,
    (forall n y, In (n, y) es -> ~ spans y p) ->
    foldM (fixOther_step radius p w) es (out, crit, next) = Ok r -> r = (out, crit, next).
  Proof.
    intros radius p w out. induction es as [|[n y] es IH]; intros crit next r Hn H; cbn [foldM] in H; [inversion H; reflexivity|].
    unfold fixOther_step at 1 in H. assert (E : strictly_contains y p = false).
    { destruct (strictly_contains y p) eqn:E; [|reflexivity]. exfalso. apply (Hn n y); [left; reflexivity|exact E]. }
    rewrite E in H. cbn [bind] in H. eapply IH; [|exact H]. intros; eapply Hn; right; eassumption.
  Qed.
  Lemma other_fold : forall radius p w (out : list (slayer T)) out' crit next crit' next',
    spans_once out p -> 
    foldM (fixOther_step radius p w) (enumerate out) (out, crit, next) = Ok (out', crit', next') ->
    ((forall y, In y out -> ~ spans y p) /\ out' = out) \/
    (exists k y a b, nth_error out k = Some y /\ spans y p /\ halves p y a b /\ n_0 <=? sl_botDepth a = true /\
       bullenDepthFor y p radius = Ok (sl_botDepth a) /\ out' = list_split_at out k a b).
  Proof.
    intros radius p w out out' crit next crit' next' Ho H.
    destruct (Exists_dec (fun y => strictly_contains y p = true) out
                (fun y => bool_dec (strictly_contains y p) true)) as [D|D].
    2:{ left. assert (Hn : forall y, In y out -> ~ spans y p).
        { intros y Hy Hs. apply D. apply Exists_exists. eauto. }
        split; [assumption|]. apply other_none in H; [inversion H; reflexivity|].
        intros n y Hy. apply Hn. eapply enumerate_In; eassumption. }
    right. apply Exists_exists in D. destruct D as [y [Hy Hs]].
    apply In_nth_error in Hy. destruct Hy as [k Hk]. 
    destruct (nth_split2 out k y Hk) as [l1 [l2 [El Hl]]].
    assert (Ee : exists e1 e2, enumerate out = e1 ++ (Z.of_nat k, y) :: e2 /\
       (forall n z, In (n, z) e1 -> ~ spans z p) /\ (forall n z, In (n, z) e2 -> ~ spans z p)).
    { unfold enumerate.
      assert (Z0 : forall (l : list (slayer T)) i, combine (map (fun k => (0 + Z.of_nat k)%Z) (seq i (List.length l))) l
         = combine (map Z.of_nat (seq i (List.length l))) l).
      { intros l i. f_equal. }
      unfold zrange. rewrite Z.sub_0_r, Nat2Z.id, Z0. rewrite El. rewrite app_length, seq_app, map_app. cbn [List.length seq map].
      assert (Ec : forall (a c : list Z) (b d : list (slayer T)), List.length a = List.length b -> combine (a ++ c) (b ++ d) = combine a b ++ combine c d).
      { induction a as [|x a IH]; intros c [|z b] dd Hlen; simpl in *; try discriminate; [reflexivity|]. f_equal. apply IH. lia. }
      rewrite Ec by (rewrite map_length, seq_length; reflexivity). cbn [combine].
      do 2 eexists. split; [rewrite Nat.add_0_l, Hl; reflexivity|]. split.
      - intros n z Hz Hsz. apply in_combine_r in Hz. apply In_nth_error in Hz. destruct Hz as [j Hj].
        assert (j = k); [|subst j; assert (k < List.length l1)%nat by (apply nth_error_Some; congruence); lia].
        eapply Ho; [|exact Hk|exact Hsz|exact Hs]. rewrite El. rewrite nth_error_app1; [exact Hj|].
        apply nth_error_Some. congruence.
      - intros n z Hz Hsz. apply in_combine_r in Hz. apply In_nth_error in Hz. destruct Hz as [j Hj].
        assert ((k + S j)%nat = k); [|lia].
        eapply Ho; [|exact Hk|exact Hsz|exact Hs]. rewrite El. rewrite nth_error_app2 by lia.
        replace (k + S j - List.length l1)%nat with (S j) by lia. exact Hj. }
    destruct Ee as [e1 [e2 [Ee [N1 N2]]]]. rewrite Ee in H.
    assert (Fa : forall e1 e2 s, foldM (fixOther_step radius p w) (e1 ++ e2) s
       = bind (foldM (fixOther_step radius p w) e1 s) (foldM (fixOther_step radius p w) e2)).
    { clear. induction e1 as [|x e1 IH]; intros e2 s; cbn [app foldM bind]; [reflexivity|].
      destruct (fixOther_step radius p w s x); cbn [bind]; auto. }
    rewrite Fa in H. apply bind_Ok_inv in H. destruct H as [s [H1 H2]].
    apply other_none in H1; [|exact N1]. subst s. cbn [foldM] in H2.
    unfold fixOther_step at 1 in H2. rewrite Hs in H2.
    inv_as H2 as s2 Hs2. inv_as Hs2 as x Hx. inv_as Hs2 as top Htop. inv_as Hs2 as bot Hbot.
    inversion Hs2; subst s2. apply other_none in H2; [|exact N2]. inversion H2; subst.
    rewrite Nat2Z.id.
    assert (H0 : n_0 <=? x = true).
    { unfold new_slayer in Htop. if_in Htop; [|discriminate]. 
      match type of Htop with (if ?b then _ else _) = _ => destruct b; [reflexivity|discriminate] end. }
    apply new_slayer_eq in Htop, Hbot. subst top bot. cbn [sl_botDepth].
    exists (List.length l1), y, (mkSL next (sl_topP y) (sl_topDepth y) p x), (mkSL (next + 1)%Z p x (sl_botP y) (sl_botDepth y)).
    split; [assumption|]. split; [exact Hs|]. split; [repeat split|]. split; [exact H0|]. split; [exact Hx|reflexivity].
  Qed.
End Split.

Section SplitOrd.
  Context {T : Type} {N : Num T} {O : NumOrd T} {L : Libm T}.

  Lemma same_meet : forall l l' : list (slayer T), Forall2 same l l' -> s_meet l -> s_meet l'.
  Proof.
    intros l l' H Hm i a b Ha Hb.
    assert (K : forall i a, nth_error l' i = Some a -> exists a0, nth_error l i = Some a0 /\ same a0 a).
    { clear - H. induction H as [|x y l l' Hxy H IH]; intros [|i] a Ha; try discriminate; [inversion Ha; subst; exists x; split; [reflexivity|assumption]|].
      apply IH. assumption. }
    destruct (K _ _ Ha) as [a0 [Ha0 [_ [_ [_ E1]]]]]. destruct (K _ _ Hb) as [b0 [Hb0 [_ [E2 _]]]].
    rewrite <- E1, <- E2. eapply Hm; eassumption.
  Qed.
  Lemma same_join : forall l l' : list (slayer T), Forall2 same l l' -> s_join l -> s_join l'.
  Proof.
    intros l l' H Hm i a b Ha Hb.
    assert (K : forall i a, nth_error l' i = Some a -> exists a0, nth_error l i = Some a0 /\ same a0 a).
    { clear - H. induction H as [|x y l l' Hxy H IH]; intros [|i] a Ha; try discriminate; [inversion Ha; subst; exists x; split; [reflexivity|assumption]|].
      apply IH. assumption. }
    destruct (K _ _ Ha) as [a0 [Ha0 [_ [_ [E1 _]]]]]. destruct (K _ _ Hb) as [b0 [Hb0 [E2 _]]].
    rewrite <- E1, <- E2. eapply Hm; eassumption.
  Qed.

  Lemma meet_cut : forall l1 y l2 a b, sl_topDepth a = sl_topDepth y -> sl_botDepth a =? sl_topDepth b = true ->
    sl_botDepth b = sl_botDepth y -> s_meet (l1 ++ y :: l2 : list (slayer T)) -> s_meet (l1 ++ a :: b :: l2).
  Proof.
    induction l1 as [|x l1 IH]; intros y l2 a b E1 E2 E3 H; cbn [app] in *.
    - apply s_meet_cons. split; [assumption|]. destruct l2 as [|z l2]; [apply s_meet_one|].
      apply s_meet_cons in H. apply s_meet_cons. rewrite E3. assumption.
    - pose proof (s_meet_tail _ _ H) as Ht. specialize (IH _ _ _ _ E1 E2 E3 Ht).
      destruct l1 as [|u l1]; cbn [app] in *; apply s_meet_cons in H; apply s_meet_cons;
        (split; [|assumption]); [rewrite E1|]; tauto.
  Qed.
  Lemma join_cut : forall l1 y l2 a b, sl_topP a = sl_topP y -> sl_botP a =? sl_topP b = true ->
    sl_botP b = sl_botP y -> s_join (l1 ++ y :: l2 : list (slayer T)) -> s_join (l1 ++ a :: b :: l2).
  Proof.
    induction l1 as [|x l1 IH]; intros y l2 a b E1 E2 E3 H; cbn [app] in *.
    - apply s_join_cons. split; [assumption|]. destruct l2 as [|z l2]; [apply s_join_one|].
      apply s_join_cons in H. apply s_join_cons. rewrite E3. assumption.
    - pose proof (s_join_tail _ _ H) as Ht. specialize (IH _ _ _ _ E1 E2 E3 Ht).
      destruct l1 as [|u l1]; cbn [app] in *; apply s_join_cons in H; apply s_join_cons;
        (split; [|assumption]); [rewrite E1|]; tauto.
  Qed.

  Lemma cut_keeps : forall l k p x l', cut l k p x l' -> n_ok x ->
    (s_meet l -> s_meet l') /\ (n_ok p -> s_join l -> s_join l') /\
    (forall z, boundary l z -> boundary l' z) /\ boundary l' x.
  Proof.
    intros l k p x l' [l1 [y [l2 [l1' [a [b [l2' H]]]]]]] Hok.
    destruct H as [El [Hk [El' [S1 Hh]]]].
    destruct Hh as [S2 [[A1 [A2 [A3 [A4 [A5 [A6 A7]]]]]] Hx]].
    assert (Sa : Forall2 same (l1 ++ a :: b :: l2) l').
    { rewrite El'. apply Forall2_app; [assumption|]. repeat constructor. assumption. }
    subst l. split; [|split; [|split]].
    - intros H. eapply same_meet; [exact Sa|]. eapply meet_cut; [exact A2| |exact A7|exact H].
      rewrite <- A5, Hx. exact Hok.
    - intros Hp H. eapply same_join; [exact Sa|]. eapply join_cut; [exact A1| |exact A6|exact H].
      rewrite A3, A4. exact Hp.
    - intros z [u [Hu Hz]].
      assert (K : forall (u : slayer T) l l', In u l -> Forall2 same l l' -> exists u', In u' l' /\ same u u').
      { clear. intros u l l' H F. induction F as [|q r l l' Hqr F IH]; [destruct H|].
        destruct H as [->|H]; [exists r; split; [left; reflexivity|assumption]|].
        destruct (IH H) as [u' [Hu' Hs]]. exists u'. split; [right; assumption|assumption]. }
      assert (J : exists u0, In u0 (l1 ++ a :: b :: l2) /\ (sl_topDepth u0 = z \/ sl_botDepth u0 = z)).
      { rewrite in_app_iff in Hu. destruct Hu as [Hu|[<-|Hu]].
        - exists u. rewrite in_app_iff. auto.
        - destruct Hz as [Hz|Hz].
          + exists a. split; [rewrite in_app_iff; simpl; auto|]. left. congruence.
          + exists b. split; [rewrite in_app_iff; simpl; auto|]. right. congruence.
        - exists u. rewrite in_app_iff. simpl. auto. }
      destruct J as [u0 [Hu0 Ez]]. destruct (K _ _ _ Hu0 Sa) as [u' [Hu' [_ [T1 [_ T2]]]]].
      exists u'. split; [assumption|]. destruct Ez; [left|right]; congruence.
    - exists a. split; [rewrite El', in_app_iff; simpl; auto|]. right. congruence.
  Qed.

  (** the three outcomes *)
  Lemma splitLayer_cases : forall fuel (m : smodel T) x w m' info,
    s_meet (sm_layers m w) -> s_upright (sm_layers m w) -> n_ok x ->
    splitLayer fuel m x w = Ok (m', info) ->
    exists k y, shallowest (sm_layers m w) x k /\ nth_error (sm_layers m w) k = Some y /\
      ((sl_topDepth y =? x = true \/ sl_botDepth y =? x = true) /\ m' = m /\ info = mkSplit m false false n_0 \/
       (~ (sl_topDepth y =? x = true \/ sl_botDepth y =? x = true) /\
        (close (sl_topDepth y) x \/ close x (sl_botDepth y)) /\
        m' = si_sMod info /\ si_needed info = false /\ si_moved info = true /\
        (w = true -> sm_S m' = sm_P m') /\ (w = false -> sm_S m' = sm_S m /\ sm_P m' = sm_P m)) \/
       (~ (sl_topDepth y =? x = true \/ sl_botDepth y =? x = true) /\
        ~ close (sl_topDepth y) x /\ ~ close x (sl_botDepth y) /\
        m' = m /\ si_needed info = true /\ si_moved info = false /\ same_rest m (si_sMod info) /\
        evaluateAtBullen y x (sm_radius m) = Ok (si_rayParam info) /\
        cut (sm_layers m w) k (si_rayParam info) x (sm_layers (si_sMod info) w) /\
        exists top bot out, halves (si_rayParam info) y top bot /\ sl_botDepth top = x /\
          (if existsb (fun z => (sl_id z =? sl_id y)%Z) (sm_layers m (negb w))
           then exists i z, nth_error (sm_layers m (negb w)) i = Some z /\ sl_id z = sl_id y /\
                  out = list_split_at (fresh_copy (sm_next m + Z.of_nat (List.length (sm_layers m w)) + 2)
                                                  (sm_layers m (negb w))) i top bot
           else out = fresh_copy (sm_next m + Z.of_nat (List.length (sm_layers m w)) + 2) (sm_layers m (negb w))) /\
          exists crit crit' next next',
            foldM (fixOther_step (sm_radius m) (si_rayParam info) (negb w)) (enumerate out) (out, crit, next)
            = Ok (sm_layers (si_sMod info) (negb w), crit', next'))).
  Proof.
    intros fuel m x w m' info Hm Hu Hx H. unfold splitLayer in H. inv_as H as n Hn. inv_as H as y Hy.
    apply above_sound in Hn; [|assumption..]. destruct Hn as [Hn0 Hs].
    apply layer_py_Z in Hy; [|assumption]. exists (Z.to_nat n), y. split; [assumption|]. split; [assumption|].
    match type of H with (if ?b then _ else _) = _ => destruct b eqn:Eb end.
    { inversion H; subst. apply orb_true_iff in Eb. left. auto. }
    apply orb_false_iff in Eb. destruct Eb as [Eb1 Eb2]. right.
    assert (Nb : ~ (sl_topDepth y =? x = true \/ sl_botDepth y =? x = true)) by (intros [F|F]; congruence).
    match type of H with (if ?b then _ else _) = _ => destruct b eqn:Ec end.
    { left. split; [assumption|]. split; [left; exact Ec|].
      inv_as H as l1 H1. inv_as H as out1 H2. inv_as H as z H3. inv_as H as l2 H4. inv_as H as out2 H5.
      inversion H; subst. cbn [si_sMod si_needed si_moved]. do 3 (split; [reflexivity|]).
      split; intros ->; split || idtac; reflexivity. }
    match type of H with (if ?b then _ else _) = _ => destruct b eqn:Ed end.
    { left. split; [assumption|]. split; [right; exact Ed|].
      inv_as H as l1 H1. inv_as H as out1 H2. inv_as H as z H3. inv_as H as l2 H4. inv_as H as out2 H5.
      inversion H; subst. cbn [si_sMod si_needed si_moved]. do 3 (split; [reflexivity|]).
      split; intros ->; split || idtac; reflexivity. }
    right. split; [assumption|]. split; [unfold close; congruence|]. split; [unfold close; congruence|].
    inv_as H as p Hp. inv_as H as top Htop. inv_as H as bot Hbot. inv_as H as [[other crit'] next'] Ho.
    inversion H; subst m' info. clear H. cbn [si_sMod si_needed si_moved si_rayParam].
    do 3 (split; [reflexivity|]). split; [repeat split|]. split; [assumption|].
    assert (Hh : halves p y top bot /\ sl_botDepth top = x).
    { apply new_slayer_eq in Htop, Hbot. subst top bot. repeat split. }
    destruct Hh as [Hh Hxx].
    assert (E1 : forall mm Pn Sn nx cr, sm_layers (sm_set_crit (sm_set_layers mm (if w then Pn else Sn) (if w then Sn else Pn) nx : smodel T) cr) w = Pn)
      by (intros; destruct w; reflexivity).
    assert (E2 : forall mm Pn Sn nx cr, sm_layers (sm_set_crit (sm_set_layers mm (if w then Pn else Sn) (if w then Sn else Pn) nx : smodel T) cr) (negb w) = Sn)
      by (intros; destruct w; reflexivity).
    rewrite E1, E2. split; [eapply fresh_cut; eassumption|].
    unfold fixOtherLayers in Ho. exists top, bot.
    assert (Idx : forall l : list (slayer T), match index_of_id (sl_id y) l with
        | Some i => existsb (fun z => (sl_id z =? sl_id y)%Z) l = true /\ exists z, nth_error l i = Some z /\ sl_id z = sl_id y
        | None => existsb (fun z => (sl_id z =? sl_id y)%Z) l = false end).
    { clear. induction l as [|z l IH]; cbn [index_of_id existsb]; [reflexivity|].
      destruct (sl_id z =? sl_id y)%Z eqn:E; cbn [orb]; [split; [reflexivity|]; exists z; split; [reflexivity|apply Z.eqb_eq; assumption]|].
      destruct (index_of_id (sl_id y) l); [|assumption]. destruct IH as [A [u B]]. split; [assumption|]. exists u. exact B. }
    specialize (Idx (sm_layers m (negb w))).
    destruct (index_of_id (sl_id y) (sm_layers m (negb w))) as [i|].
    - destruct Idx as [E [z [Hz Ez]]]. rewrite E. eexists. split; [assumption|]. split; [assumption|].
      split; [exists i, z; split; [assumption|]; split; [assumption|]; reflexivity|].
      do 4 eexists. exact Ho.
    - rewrite Idx. eexists. split; [assumption|]. split; [assumption|]. split; [reflexivity|].
      do 4 eexists. exact Ho.
  Qed.

  (** the other wave type, when at most one more layer contains the new slowness *)
  Lemma split_at_meet : forall (l : list (slayer T)) k y a b, nth_error l k = Some y ->
    sl_topDepth a = sl_topDepth y -> sl_botDepth a =? sl_topDepth b = true -> sl_botDepth b = sl_botDepth y ->
    s_meet l -> s_meet (list_split_at l k a b).
  Proof.
    intros l k y a b Hk E1 E2 E3 H. apply nth_split2 in Hk. destruct Hk as [l1 [l2 [-> <-]]].
    rewrite split_at_app. eapply meet_cut; eassumption.
  Qed.
  Lemma split_at_nth : forall {A} (l : list A) k (y a b : A), nth_error l k = Some y -> forall j z,
    nth_error (list_split_at l k a b) j = Some z ->
    z = a \/ z = b \/ exists i, nth_error l i = Some z /\ i <> k /\ j = (if Nat.ltb i k then i else S i).
  Proof.
    intros A l k y a b Hk j z Hj. apply nth_split2 in Hk. destruct Hk as [l1 [l2 [-> <-]]]. rewrite split_at_app in Hj.
    destruct (Nat.lt_ge_cases j (List.length l1)) as [Hlt|Hge].
    - right. right. exists j. rewrite nth_error_app1 in * by assumption. split; [assumption|]. split; [lia|].
      destruct (Nat.ltb_spec j (List.length l1)); lia.
    - rewrite nth_error_app2 in Hj by assumption. destruct (j - List.length l1)%nat as [|[|i]] eqn:E; cbn [nth_error] in Hj.
      + inversion Hj. auto.
      + inversion Hj. auto.
      + right. right. exists (List.length l1 + S i)%nat. rewrite nth_error_app2 by lia.
        replace (List.length l1 + S i - List.length l1)%nat with (S i) by lia. split; [assumption|]. split; [lia|].
        destruct (Nat.ltb_spec (List.length l1 + S i) (List.length l1)); lia.
  Qed.
  Lemma split_other : forall fuel (m : smodel T) x w m' info,
    s_meet (sm_layers m w) -> s_upright (sm_layers m w) -> n_ok x ->
    splitLayer fuel m x w = Ok (m', info) -> si_needed info = true ->
    (forall k y, shallowest (sm_layers m w) x k -> nth_error (sm_layers m w) k = Some y ->
       forall i j u v, nth_error (sm_layers m (negb w)) i = Some u -> nth_error (sm_layers m (negb w)) j = Some v ->
       sl_id u <> sl_id y -> sl_id v <> sl_id y -> spans u (si_rayParam info) -> spans v (si_rayParam info) -> i = j) ->
    NoDup (map sl_id (sm_layers m (negb w))) ->
    (forall u v, In u (sm_layers m w) -> In v (sm_layers m (negb w)) -> sl_id u = sl_id v -> u = v) ->
    s_meet (sm_layers m (negb w)) -> s_meet (sm_layers (si_sMod info) (negb w)).
  Proof.
    intros fuel m x w m' info Hm Hu Hx H Hn Once ND Ag Hmo.
    destruct (splitLayer_cases _ _ _ _ _ _ Hm Hu Hx H) as [k [y [Hs [Hy [C|[C|C]]]]]].
    { destruct C as [_ [_ ->]]. discriminate. }
    { destruct C as [_ [_ [_ [E _]]]]. congruence. }
    destruct C as [_ [_ [_ [_ [_ [_ [_ [_ [_ C]]]]]]]]].
    destruct C as [top [bot [out [Hh [Hb [Hout [crit [crit' [next [next' Hf]]]]]]]]]].
    specialize (Once k y Hs Hy). set (p := si_rayParam info) in *. set (ol := sm_layers m (negb w)) in *.
    assert (FS : forall n, Forall2 same ol (fresh_copy n ol)) by (intros; apply fresh_same).
    assert (NF : forall n i z, nth_error (fresh_copy n ol) i = Some z -> exists u, nth_error ol i = Some u /\ same u z).
    { intros n. specialize (FS n). clear - FS. induction FS as [|q r l l' Hqr F IH]; intros [|i] z Hz; try discriminate.
      - inversion Hz; subst. exists q. split; [reflexivity|assumption].
      - apply IH. assumption. }
    assert (SP : forall u z, same u z -> spans z p -> spans u p).
    { intros u z [E1 [_ [E2 _]]] Hz. unfold spans in *. rewrite E1, E2. assumption. }
    assert (Hmf : forall n, s_meet (fresh_copy n ol)) by (intros n; eapply same_meet; [apply FS|assumption]).
    assert (Q : spans_once out p /\ s_meet out).
    { destruct (existsb _ ol) eqn:Ex.
      - destruct Hout as [i [z [Hi [Ez ->]]]]. 
        set (cp := fresh_copy _ ol).
        assert (Hc : exists z', nth_error cp i = Some z' /\ same z z').
        { clear - Hi FS. unfold cp. generalize (sm_next m + Z.of_nat (List.length (sm_layers m w)) + 2)%Z. intros n.
          specialize (FS n). clear cp. revert i Hi. induction FS as [|q r l l' Hqr F IH]; intros [|i] Hi; try discriminate.
          - inversion Hi; subst. exists r. split; [reflexivity|assumption].
          - apply IH. assumption. }
        destruct Hc as [z' [Hz' Sz]].
        assert (Ezy : y = z) by (apply Ag; [eapply nth_error_In; eassumption|eapply nth_error_In; eassumption|congruence]).
        subst z. destruct Sz as [S1 [S2 [S3 S4]]].
        destruct (bottom_not_spans _ _ _ _ Hh) as [B1 B2].
        destruct Hh as [A1 [A2 [A3 [A4 [A5 [A6 A7]]]]]]. split.
        + intros j1 j2 z1 z2 H1 H2 P1 P2.
          assert (U : forall j z, nth_error (list_split_at cp i top bot) j = Some z -> spans z p ->
             exists i' u, nth_error ol i' = Some u /\ sl_id u <> sl_id y /\ spans u p /\ j = (if Nat.ltb i' i then i' else S i')).
          { intros j q Hj Hq. destruct (split_at_nth cp i z' top bot Hz' j q Hj) as [->|[->|[i' [Hi' [Ne Ej]]]]]; try contradiction.
            destruct (NF _ _ _ Hi') as [u [Hu' Su]]. exists i', u. split; [assumption|]. split; [|split; [eapply SP; eassumption|assumption]].
            intros E. apply Ne. eapply (NoDup_nth_error (map sl_id ol)); [exact ND| |].
            - rewrite map_length. apply nth_error_Some. congruence.
            - rewrite (map_nth_error sl_id _ _ Hu'), (map_nth_error sl_id _ _ Hi). congruence. }
          destruct (U _ _ H1 P1) as [i1 [u1 [X1 [X2 [X3 X4]]]]]. destruct (U _ _ H2 P2) as [i2 [u2 [Y1 [Y2 [Y3 Y4]]]]].
          assert (i1 = i2) by (eapply Once; eassumption). subst. reflexivity.
        + eapply split_at_meet; [exact Hz'|congruence| |congruence|apply Hmf]. rewrite <- A5, Hb. exact Hx.
      - subst out. split; [|apply Hmf].
        assert (Nid : forall i u, nth_error ol i = Some u -> sl_id u <> sl_id y).
        { intros i u Hiu E. assert (T' : existsb (fun z => (sl_id z =? sl_id y)%Z) ol = true).
          { apply existsb_exists. exists u. split; [eapply nth_error_In; eassumption|apply Z.eqb_eq; assumption]. }
          congruence. }
        intros j1 j2 z1 z2 H1 H2 P1 P2.
        destruct (NF _ _ _ H1) as [u1 [X1 X2]]. destruct (NF _ _ _ H2) as [u2 [Y1 Y2]].
        eapply Once; eauto. }
    destruct Q as [Q1 Q2]. destruct (other_fold _ _ _ _ _ _ _ _ _ Q1 Hf) as [[_ ->]|[i [z [a [b [Hz [_ [Hab [H0 [_ ->]]]]]]]]]].
    - assumption.
    - destruct Hab as [A1 [A2 [A3 [A4 [A5 [A6 A7]]]]]].
      eapply split_at_meet; [exact Hz|assumption| |assumption|assumption]. rewrite <- A5.
      apply ord_leb_ok in H0. destruct H0. assumption.
  Qed.
End SplitOrd.

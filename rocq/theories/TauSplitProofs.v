(** Lemmas about branch lookup and the depth correction of tau models. *)
From Coq Require Import ZArith Bool List String Sorted Lia.
From Verif Require Import Base Num PyStr VelocityModel SlownessLayer SlownessModel VelSpec VelProofs SlowSpec SlowProofs SlowBuildProofs
  SplitSpec SplitProofs TauModel TauSpec TauProofs.
Import ListNotations.
Local Open Scope num_scope.
Local Open Scope list_scope.

Ltac if_eq H E := match type of H with (if ?b then _ else _) = _ => destruct b eqn:E end.
Ltac ar := first [assumption|reflexivity].

Section ArgMin.
  Context {T : Type} {N : Num T} {O : NumOrd T}.

  (** ** position of the least element among those marked [true] *)
  Definition beats (first : bool) (a b : T) : bool := if first then a <? b else a <=? b.
  Fixpoint argmin (first : bool) (i : nat) (l : list (bool * T)) (best : T) (found : option nat) : option nat :=
    match l with
    | [] => found
    | (k, e) :: l => if beats first e best && k then argmin first (S i) l e (Some i)
                     else argmin first (S i) l best found
    end.

  Lemma beats_trans : forall f a b c, beats f a b = true -> beats f b c = true -> beats f a c = true.
  Proof. intros [] a b c; cbn; [apply ltb_trans|apply ord_trans]. Qed.
  Lemma beats_le : forall f a b, beats f a b = true -> a <=? b = true.
  Proof. intros [] a b; cbn; [apply ltb_leb|auto]. Qed.
  Lemma beats_not : forall f a b, n_ok a -> n_ok b -> beats f a b = false -> beats (negb f) b a = true.
  Proof. intros [] a b Ha Hb; cbn; [apply ltb_false_leb; assumption|apply leb_false_ltb; assumption]. Qed.
  Lemma beats_not_le : forall f a b, n_ok a -> n_ok b -> beats f a b = false -> b <=? a = true.
  Proof. intros f a b Ha Hb H. eapply beats_le, beats_not; eassumption. Qed.

  Lemma argmin_spec : forall (f : bool) l i best found,
    (forall k e, In (k, e) l -> n_ok e) -> n_ok best ->
    (argmin f i l best found = found /\ forall e, In (true, e) l -> beats f e best = false) \/
    (exists n e, argmin f i l best found = Some (i + n)%nat /\ nth_error l n = Some (true, e) /\
       beats f e best = true /\
       forall j e', nth_error l j = Some (true, e') ->
         e <=? e' = true /\ ((if f then j < n else n < j)%nat -> e <? e' = true)).
  Proof.
    intros f. induction l as [|[k e] l IH]; intros i best found Hok Hb; cbn [argmin].
    - left. split; [reflexivity|]. intros e [].
    - assert (Oe : n_ok e) by (eapply Hok; left; reflexivity).
      assert (Hok' : forall k e, In (k, e) l -> n_ok e) by (intros; eapply Hok; right; eassumption).
      destruct (beats f e best && k) eqn:C.
      + apply andb_true_iff in C. destruct C as [C ->]. right.
        destruct (IH (S i) e (Some i) Hok' Oe) as [[E H]|[n [e' [E [Hn [Hc H]]]]]].
        * exists 0%nat, e. rewrite E. split; [f_equal; lia|]. split; [reflexivity|]. split; [assumption|].
          intros [|j] e' Hj; cbn in Hj.
          -- inversion Hj; subst. split; [apply leb_refl; assumption|]. destruct f; lia.
          -- pose proof (nth_error_In _ _ Hj) as Hi. specialize (H _ Hi). apply beats_not in H; [|eapply Hok'; eassumption|assumption].
             split; [eapply beats_le; eassumption|]. destruct f; [lia|]. intros _. exact H.
        * exists (S n), e'. rewrite E. split; [f_equal; lia|]. split; [assumption|].
          split; [eapply beats_trans; eassumption|].
          intros [|j] e'' Hj; cbn in Hj.
          -- inversion Hj; subst. split; [eapply beats_le; eassumption|]. destruct f; [intros _; assumption|lia].
          -- destruct (H j e'' Hj) as [H1 H2]. split; [assumption|]. intros Hlt. apply H2. destruct f; lia.
      + destruct (IH (S i) best found Hok' Hb) as [[E H]|[n [e' [E [Hn [Hc H]]]]]].
        * left. split; [assumption|]. intros e' [Ei|Hi]; [|apply H; assumption]. inversion Ei; subst.
          rewrite andb_true_r in C. assumption.
        * right. exists (S n), e'. rewrite E. split; [f_equal; lia|]. split; [assumption|]. split; [assumption|].
          intros [|j] e'' Hj; cbn in Hj.
          -- inversion Hj; subst. rewrite andb_true_r in C. apply beats_not in C; [|assumption..].
             assert (F : beats f e' e'' = true /\ (e' <=? e'' = true)).
             { split.
               - destruct f; cbn in *; [eapply ltb_leb_trans; eassumption|eapply ord_trans; [eassumption|apply ltb_leb; assumption]].
               - destruct f; cbn in *; [apply ltb_leb; eapply ltb_leb_trans; eassumption|eapply ord_trans; [eassumption|apply ltb_leb; assumption]]. }
             split; [tauto|]. destruct f; [intros _; apply F|lia].
          -- destruct (H j e'' Hj) as [H1 H2]. split; [assumption|]. intros Hlt. apply H2. destruct f; lia.
  Qed.
End ArgMin.

Section Lookup.
  Context {T : Type} {N : Num T} {O : NumOrd T} {L : Libm T}.

  (** ** nearest branch (taupy/TauModel.py:143-156) *)
  Lemma closest_go_argmin : forall (f : bool) x l i best found fd,
    (match found, fd with None, None => True | Some n, Some (z, v) => z = Z.of_nat n | _, _ => False end) ->
    match argmin f i (map (fun b => (true, n_abs (tb_top b - x))) l) best found,
          closest_go f x (Z.of_nat i) l best fd with
    | None, None => found = None
    | Some n, Some (z, v) => z = Z.of_nat n /\
        (found = Some n /\ fd = Some (z, v) \/ (i <= n)%nat /\ option_map tb_top (nth_error l (n - i)) = Some v)
    | _, _ => False
    end.
  Proof.
    intros f x. induction l as [|b l IH]; intros i best found fd H; cbn [map argmin closest_go].
    - destruct found as [n|], fd as [[z v]|]; tauto.
    - replace (Z.of_nat i + 1)%Z with (Z.of_nat (S i)) by lia. unfold beats at 1. rewrite andb_true_r.
      destruct (if f then n_abs (tb_top b - x) <? best else n_abs (tb_top b - x) <=? best).
      + specialize (IH (S i) (n_abs (tb_top b - x)) (Some i) (Some (Z.of_nat i, tb_top b)) eq_refl).
        destruct (argmin _ _ _ _ _) as [n|], (closest_go _ _ _ _ _ _) as [[z v]|]; try tauto; [|discriminate].
        destruct IH as [E [[E1 E2]|[E1 E2]]]; (split; [assumption|]); right.
        * inversion E1; inversion E2; subst. split; [lia|]. rewrite Nat.sub_diag. reflexivity.
        * split; [lia|]. replace (n - i)%nat with (S (n - S i)) by lia. assumption.
      + specialize (IH (S i) best found fd H).
        destruct (argmin _ _ _ _ _) as [n|], (closest_go _ _ _ _ _ _) as [[z v]|]; try tauto.
        destruct IH as [E [IH|[E1 E2]]]; (split; [assumption|]); [left; assumption|right].
        split; [lia|]. replace (n - i)%nat with (S (n - S i)) by lia. assumption.
  Qed.

  Lemma nth_map_true : forall {A} (g : A -> T) l j e,
    nth_error (map (fun b => (true, g b)) l) j = Some (true, e) <-> exists b, nth_error l j = Some b /\ e = g b.
  Proof.
    intros A g l j e. rewrite nth_error_map. destruct (nth_error l j) as [b|]; cbn; split; intros H.
    - inversion H. eauto.
    - destruct H as [c [E ->]]. inversion E. reflexivity.
    - discriminate.
    - destruct H as [c [E _]]. discriminate.
  Qed.

  Lemma lit300_ok : n_ok (n_lit 1 300 : T).
  Proof. destruct (ord_lit_ok (T := T) 1 300) as [H|H]; [assumption|lia]. Qed.

  Lemma closestBranch_spec : forall (f : bool) x l,
    (forall b, In b l -> n_ok (n_abs (tb_top b - x))) ->
    (exists n b, closestBranch f x l = Ok (Z.of_nat n, tb_top b) /\ nth_error l n = Some b /\ nearest_top f l x n /\
       beats f (n_abs (tb_top b - x)) (n_lit 1 300) = true) \/
    (closestBranch f x l = Raise AttributeError /\
     forall b, In b l -> beats f (n_abs (tb_top b - x)) (n_lit 1 300) = false).
  Proof.
    intros f x l Hok. unfold closestBranch.
    pose proof (closest_go_argmin f x l 0 (n_lit 1 300) None None I) as A.
    destruct (argmin_spec f (map (fun b => (true, n_abs (tb_top b - x))) l) 0 (n_lit 1 300) None) as [[E H]|[n [e [E [Hn [Hc H]]]]]].
    - intros k e Hi. apply in_map_iff in Hi. destruct Hi as [b [Eb Hb]]. inversion Eb; subst. apply Hok. assumption.
    - apply lit300_ok.
    - right. rewrite E in A. change (Z.of_nat 0) with 0%Z in A. destruct (closest_go f x 0 l (n_lit 1 300) None); [tauto|].
      split; [reflexivity|]. intros b Hb. apply H. apply in_map_iff. eauto.
    - left. rewrite E in A. change (Z.of_nat 0) with 0%Z in A. destruct (closest_go f x 0 l (n_lit 1 300) None) as [[z v]|]; [|tauto].
      apply nth_map_true in Hn. destruct Hn as [b [Hb ->]]. destruct A as [-> [[A _]|[_ A]]]; [discriminate|].
      rewrite Nat.sub_0_r in A. cbn [Nat.add] in A. rewrite Hb in A. cbn in A. inversion A; subst v.
      exists n, b. split; [reflexivity|]. split; [assumption|]. split; [|assumption].
      exists b. split; [assumption|]. intros j c Hj. destruct (H j (n_abs (tb_top c - x))) as [H1 H2]; [apply nth_map_true; eauto|].
      split; assumption.
  Qed.

  (** ** branch lookup (taupy/TauModel.py:333-345) *)
  Lemma b_sorted : forall bs i j (a b : tbranch T), b_meet bs -> b_upright bs ->
    nth_error bs i = Some a -> nth_error bs j = Some b -> (i < j)%nat -> tb_bot a <=? tb_top b = true.
  Proof.
    intros bs i j a b Hm Hu Ha Hb Hlt. revert b Hb. induction Hlt as [|j Hlt IH]; intros b Hb.
    - rewrite <- (Hm _ _ _ Ha Hb). apply leb_refl. apply (ord_ltb_ok (tb_top a)). apply Hu. eapply nth_error_In; eassumption.
    - destruct (nth_error bs j) as [c|] eqn:Ec.
      2:{ apply nth_error_None in Ec. assert (S j < List.length bs)%nat by (apply nth_error_Some; congruence). lia. }
      rewrite <- (Hm _ _ _ Ec Hb). eapply ord_trans; [apply IH; reflexivity|]. apply ltb_leb, Hu. eapply nth_error_In; eassumption.
  Qed.
  Lemma in_branch_unique : forall bs i j (a b : tbranch T) x, b_meet bs -> b_upright bs ->
    nth_error bs i = Some a -> nth_error bs j = Some b -> in_branch a x -> in_branch b x -> i = j.
  Proof.
    assert (A : forall bs i j (a b : tbranch T) x, b_meet bs -> b_upright bs ->
      nth_error bs i = Some a -> nth_error bs j = Some b -> in_branch a x -> in_branch b x -> ~ (i < j)%nat).
    { intros bs i j a b x Hm Hu Ha Hb [_ H1] [H2 _] Hlt. pose proof (b_sorted _ _ _ _ _ Hm Hu Ha Hb Hlt) as H.
      pose proof (ltb_leb_trans _ _ _ H1 (ord_trans _ _ _ H H2)) as F. rewrite ltb_irrefl in F. discriminate. }
    intros bs i j a b x Hm Hu Ha Hb H1 H2. destruct (Nat.lt_trichotomy i j) as [H|[H|H]]; [|assumption|]; exfalso;
    [eapply (A bs i j)|eapply (A bs j i)]; eassumption.
  Qed.

  Lemma findBranch_go_spec : forall x l i,
    match findBranch_go (Z.of_nat i) x l with
    | Some z => exists n b, z = Z.of_nat (i + n) /\ nth_error l n = Some b /\ in_branch b x /\
                  forall j c, (j < n)%nat -> nth_error l j = Some c -> ~ in_branch c x
    | None => forall b, In b l -> ~ in_branch b x
    end.
  Proof.
    intros x. induction l as [|b l IH]; intros i; cbn [findBranch_go]; [intros b []|].
    assert (R : (tb_top b <=? x) && (x <? tb_bot b) = true <-> in_branch b x) by apply andb_true_iff.
    destruct ((tb_top b <=? x) && (x <? tb_bot b)) eqn:E.
    - exists 0%nat, b. split; [f_equal; lia|]. split; [reflexivity|]. split; [apply R; reflexivity|]. lia.
    - replace (Z.of_nat i + 1)%Z with (Z.of_nat (S i)) by lia. specialize (IH (S i)).
      assert (Nb : ~ in_branch b x) by (intros F; apply R in F; congruence).
      destruct (findBranch_go _ x l) as [z|].
      + destruct IH as [n [c [E1 [E2 [E3 E4]]]]]. exists (S n), c. split; [subst; f_equal; lia|]. split; [assumption|]. split; [assumption|].
        intros [|j] c' Hj Hc; [inversion Hc; subst; assumption|]. apply (E4 j); [lia|assumption].
      + intros c [<-|Hc]; [assumption|apply IH; assumption].
  Qed.

  Lemma last_py : forall (bs : list (tbranch T)) b, py_index bs (Z.of_nat (List.length bs) - 1) = Ok b -> last_branch bs b.
  Proof.
    intros bs b H. destruct bs as [|a bs] using rev_ind; [discriminate|]. clear IHbs. exists bs.
    rewrite app_length in H. cbn [List.length] in H. replace (Z.of_nat (List.length bs + 1) - 1)%Z with (Z.of_nat (List.length bs)) in H by lia.
    rewrite py_index_nat, nth_error_app2, Nat.sub_diag in H by lia. inversion H; subst. reflexivity.
  Qed.
  Lemma last_py' : forall (bs : list (tbranch T)) b, last_branch bs b -> py_index bs (Z.of_nat (List.length bs) - 1) = Ok b.
  Proof.
    intros bs b [l ->]. rewrite app_length. cbn [List.length].
    replace (Z.of_nat (List.length l + 1) - 1)%Z with (Z.of_nat (List.length l)) by lia.
    rewrite py_index_nat, nth_error_app2, Nat.sub_diag by lia. reflexivity.
  Qed.
  Lemma last_or_nil : forall bs : list (tbranch T), bs = [] \/ exists b, last_branch bs b.
  Proof. intros bs. destruct bs as [|a bs] using rev_ind; [left; reflexivity|right]. exists a, bs. reflexivity. Qed.

  Lemma findBranch_spec : forall (t : tmodel T) x,
    (exists n b, findBranch t x = Ok (Z.of_nat n) /\ nth_error (tm_P t) n = Some b /\ in_branch b x /\
       forall j c, (j < n)%nat -> nth_error (tm_P t) j = Some c -> ~ in_branch c x) \/
    ((forall b, In b (tm_P t) -> ~ in_branch b x) /\
     ((tm_P t = [] /\ findBranch t x = Raise IndexError) \/
      exists b, last_branch (tm_P t) b /\
        findBranch t x = if tb_bot b =? x then Ok 1%Z else Raise TauModelError)).
  Proof.
    intros t x. pose proof (findBranch_go_spec x (tm_P t) 0) as F. change (Z.of_nat 0) with 0%Z in F.
    unfold findBranch. destruct (findBranch_go 0 x (tm_P t)) as [z|].
    - left. destruct F as [n [b [-> [E1 [E2 E3]]]]]. exists n, b. auto.
    - right. split; [assumption|]. destruct (last_or_nil (tm_P t)) as [E|[b Hb]].
      + left. split; [assumption|]. rewrite E. reflexivity.
      + right. exists b. split; [assumption|]. rewrite (last_py' _ _ Hb). reflexivity.
  Qed.

  Lemma findBranch_iff : forall (t : tmodel T) x n, b_meet (tm_P t) -> b_upright (tm_P t) ->
    (exists b, nth_error (tm_P t) n = Some b /\ in_branch b x) -> findBranch t x = Ok (Z.of_nat n).
  Proof.
    intros t x n Hm Hu [b [Hb Hin]].
    destruct (findBranch_spec t x) as [[k [c [E [Hc [Hinc _]]]]]|[H _]].
    - rewrite E. f_equal. f_equal. eapply in_branch_unique; eassumption.
    - exfalso. eapply H; [eapply nth_error_In; eassumption|assumption].
  Qed.

  (** inside a contiguous list every depth has a branch *)
  Lemma in_branch_exists : forall bs x, b_meet bs -> b_upright bs ->
    (exists b, nth_error bs 0 = Some b /\ tb_top b <=? x = true) ->
    (exists b, last_branch bs b /\ x <? tb_bot b = true) ->
    exists n b, nth_error bs n = Some b /\ in_branch b x.
  Proof.
    induction bs as [|a bs IH]; intros x Hm Hu [b [Hb Ht]] [c [Hc Hl]]; [discriminate|].
    cbn in Hb. inversion Hb; subst b. clear Hb. destruct (ord_ltb_ok _ _ Hl) as [Ox _].
    assert (Ua : tb_top a <? tb_bot a = true) by (apply Hu; left; reflexivity).
    destruct (x <? tb_bot a) eqn:E; [exists 0%nat, a; split; [reflexivity|split; assumption]|].
    destruct (ord_ltb_ok _ _ Ua) as [_ Oa]. apply ltb_false_leb in E; [|assumption..].
    destruct bs as [|b bs].
    - destruct Hc as [l Hc]. destruct l as [|? [|]]; try discriminate. inversion Hc; subst c.
      rewrite (ltb_not_leb _ _ Hl) in E. discriminate.
    - destruct (IH x) as [n [b' [Hn Hin]]].
      + intros i u v Hi Hj. apply (Hm (S i)); assumption.
      + intros u Hi. apply Hu. right. assumption.
      + exists b. split; [reflexivity|]. rewrite <- (Hm 0%nat a b); [assumption|reflexivity..].
      + exists c. split; [|assumption]. destruct Hc as [l Hc]. destruct l as [|u l].
        * inversion Hc.
        * inversion Hc; subst. exists l. assumption.
      + exists (S n), b'. auto.
  Qed.
End Lookup.

Section Split.
  Context {T : Type} {N : Num T} {O : NumOrd T} {L : Libm T}.

  (** ** no ray parameter is ever added (taupy/TauModel.py:239-258) *)
  Lemma find_rp_none : forall l i (rp : T), decreasing l -> find_rp_index i rp l = None.
  Proof.
    induction l as [|a l IH]; intros i rp H; [reflexivity|]. cbn [find_rp_index]. destruct l as [|b l]; [reflexivity|].
    apply StronglySorted_inv in H. destruct H as [H1 H2]. inversion H2 as [|? ? H3 _]; subst.
    destruct ((a <? rp) && (rp <? b)) eqn:E; [|apply IH; assumption]. exfalso.
    apply andb_true_iff in E. destruct E as [E1 E2]. pose proof (ltb_trans _ _ _ (ltb_trans _ _ _ E1 E2) H3) as F.
    rewrite ltb_irrefl in F. discriminate.
  Qed.
  Lemma insert_rp_none : forall info (old out : list T), decreasing old -> insert_rp info old out = (out, None).
  Proof. intros info old out H. unfold insert_rp. rewrite find_rp_none by assumption. destruct (_ && _); reflexivity. Qed.

  Lemma insert_new_none : forall fuel m sw rpS rpP (l : list (tbranch T)),
    mapM (insert_new fuel m sw None None rpS rpP) l = Ok l.
  Proof. intros. induction l as [|b l IH]; [reflexivity|]. cbn [mapM]. rewrite IH. reflexivity. Qed.
  Lemma py_index_In : forall {A} (l : list A) i a, py_index l i = Ok a -> In a l.
  Proof.
    intros A l i a H. unfold py_index in H. cbv zeta in H. match type of H with (if ?c then _ else _) = _ => destruct c; [discriminate|] end.
    match type of H with match ?c with _ => _ end = _ => destruct c eqn:E; [|discriminate] end. inversion H; subst. eapply nth_error_In; eassumption.
  Qed.

  Lemma createBranch_near : forall fuel (m : smodel T) top bot w minP rp b,
    createBranch fuel m top bot w minP rp = Ok b ->
    tb_isP b = w /\ tb_maxRP b = minP /\
    List.length (tb_dist b) = List.length rp /\ List.length (tb_time b) = List.length rp /\ List.length (tb_tau b) = List.length rp /\
    getMinTurnRayParam fuel m (tb_bot b) w = Ok (tb_minTurnRP b) /\ getMinRayParam fuel m (tb_bot b) w = Ok (tb_minRP b) /\
    exists y z, In y (sm_layers m w) /\ In z (sm_layers m w) /\
     ((sl_topDepth y =? top = true /\ sl_botDepth z =? bot = true /\ tb_top b = top /\ tb_bot b = bot) \/
      (tb_top b = sl_topDepth y /\ sl_topDepth y =? top = false /\ close (sl_topDepth y) top /\ tb_bot b = bot) \/
      (tb_bot b = sl_botDepth z /\ sl_botDepth z =? bot = false /\ close (sl_botDepth z) bot /\ tb_top b = top)).
  Proof.
    intros fuel m top bot w minP rp b H. unfold createBranch in H.
    inv_as H as tn Htn. inv_as H as bn Hbn. inv_as H as ts Hts. inv_as H as bs Hbs.
    inv_as H as [top' bot'] He. inv_as H as mt Hmt. inv_as H as mr Hmr. inv_as H as tds Htds.
    inversion H; subst b. clear H. cbn [tb_top tb_bot tb_isP tb_maxRP tb_minTurnRP tb_minRP tb_dist tb_time tb_tau].
    pose proof (mapM_Ok_length _ _ _ Htds) as Len.
    split; [reflexivity|]. split; [reflexivity|]. split; [rewrite map_length; assumption|].
    split; [rewrite map_length; assumption|]. split; [rewrite map_length, !combine_length, !map_length; lia|].
    split; [assumption|]. split; [assumption|].
    exists ts, bs. split; [unfold getSlownessLayer in Hts; destruct w; eapply py_index_In; eassumption|].
    split; [unfold getSlownessLayer in Hbs; destruct w; eapply py_index_In; eassumption|].
    unfold branch_ends in He. unfold close.
    destruct (sl_topDepth ts =? top) eqn:E1; destruct (sl_botDepth bs =? bot) eqn:E2; cbn [negb orb andb] in He.
    - inversion He; subst. left. repeat (split; [ar|]). ar.
    - if_eq He E3; [|discriminate]. inversion He; subst. right. right. repeat (split; [ar|]). ar.
    - if_eq He E3; [|discriminate]. inversion He; subst. right. left. repeat (split; [ar|]). ar.
    - if_eq He E3; [inversion He; subst; right; left; repeat (split; [ar|]); ar|].
      if_eq He E4; [|discriminate]. inversion He; subst. right. right. repeat (split; [ar|]). ar.
  Qed.

  Lemma difference_none : forall fuel (b top : tbranch T) m rp c,
    tb_difference fuel b top (-1) (-1) m rp = Ok c ->
    c = mkTB (tb_bot top) (tb_bot b) (tb_isP b) (tb_minRP top) (tb_minTurnRP b) (tb_minRP b)
             (list_sub (tb_dist b) (tb_dist top)) (list_sub (tb_time b) (tb_time top))
             (list_sub (tb_tau b) (tb_tau top)) /\
    tb_isP top = tb_isP b /\ (tb_top top =? tb_top b = true /\ tb_bot top >? tb_bot b = false \/
                              tb_top top =? tb_top b = false /\ close (tb_top top) (tb_top b)).
  Proof.
    intros fuel b top m rp c H. unfold tb_difference in H. inv_as H as [tn bn] Hc.
    cbn [Z.eqb negb andb bind] in H. change (-1 =? -1)%Z with true in H. cbn [negb andb bind] in H. inversion H. split; [reflexivity|]. clear H.
    unfold diff_checks in Hc. inv_as Hc as st Hst. if_eq Hc Ep; [discriminate|].
    apply negb_false_iff, Bool.eqb_prop in Ep.
    split; [assumption|]. unfold close.
    destruct (tb_top top =? tb_top b) eqn:E1; cbn [negb orb andb] in Hst.
    - left. split; [reflexivity|]. destruct (tb_bot top >? tb_bot b); [discriminate|reflexivity].
    - right. split; [reflexivity|]. if_eq Hst E2; [reflexivity|discriminate].
  Qed.

  (** the two parts of a branch *)
  Definition parts (d : T) (m : smodel T) (w : bool) (rp : list T) (b top bot : tbranch T) : Prop :=
    tb_isP top = w /\ tb_isP bot = w /\ tb_isP b = w /\
    tb_top bot = tb_bot top /\ tb_bot bot = tb_bot b /\
    tb_maxRP top = tb_maxRP b /\ tb_maxRP bot = tb_minRP top /\
    tb_minRP bot = tb_minRP b /\ tb_minTurnRP bot = tb_minTurnRP b /\
    (exists fuel, getMinTurnRayParam fuel m (tb_bot top) w = Ok (tb_minTurnRP top) /\
                  getMinRayParam fuel m (tb_bot top) w = Ok (tb_minRP top)) /\
    List.length (tb_dist top) = List.length rp /\ List.length (tb_time top) = List.length rp /\
    List.length (tb_tau top) = List.length rp /\
    (s_meet (sm_layers m w) -> s_upright (sm_layers m w) -> n_ok (tb_top b) -> n_ok d ->
     tb_top top = tb_top b -> tb_bot top = d -> all_rays m w rp top) /\
    tb_dist bot = list_sub (tb_dist b) (tb_dist top) /\
    tb_time bot = list_sub (tb_time b) (tb_time top) /\
    tb_tau bot = list_sub (tb_tau b) (tb_tau top) /\
    exists y z, In y (sm_layers m w) /\ In z (sm_layers m w) /\
     ((sl_topDepth y =? tb_top b = true /\ sl_botDepth z =? d = true /\ tb_top top = tb_top b /\ tb_bot top = d) \/
      (tb_top top = sl_topDepth y /\ sl_topDepth y =? tb_top b = false /\ close (sl_topDepth y) (tb_top b) /\ tb_bot top = d) \/
      (tb_bot top = sl_botDepth z /\ sl_botDepth z =? d = false /\ close (sl_botDepth z) d /\ tb_top top = tb_top b)).

  Lemma split_branches_spec : forall fuel (m : smodel T) w n d rp rpS rpP l l',
    split_branches fuel m w n d rp None None rpS rpP l = Ok l' ->
    exists b top bot, nth_error l n = Some b /\ l' = firstn n l ++ top :: bot :: skipn (S n) l /\
      parts d m w rp b top bot.
  Proof.
    intros fuel m w n d rp rpS rpP l l' H. unfold split_branches in H.
    rewrite insert_new_none in H. cbn [bind] in H. inv_as H as b Hb. inv_as H as top Ht. inv_as H as bot Hbot.
    rewrite insert_new_none in H. cbn [bind] in H. inversion H; subst l'. clear H.
    rewrite py_index_nat in Hb. destruct (nth_error l n) as [b'|] eqn:Eb; [|discriminate]. inversion Hb; subst b'.
    exists b, top, bot. split; [reflexivity|]. split; [reflexivity|].
    assert (Rays : s_meet (sm_layers m w) -> s_upright (sm_layers m w) -> n_ok (tb_top b) -> n_ok d ->
       tb_top top = tb_top b -> tb_bot top = d -> all_rays m w rp top)
      by (intros Hm Hu Ot Od E1 E2; exact (createBranch_rays _ _ _ _ _ _ _ _ Hm Hu Ot Od Ht E1 E2)).
    apply createBranch_near in Ht. destruct Ht as [T1 [T2 [T3 [T4 [T5 [T6 [T7 T8]]]]]]].
    apply difference_none in Hbot. destruct Hbot as [-> [D1 D2]]. unfold parts.
    cbn [tb_isP tb_top tb_bot tb_maxRP tb_minRP tb_minTurnRP tb_dist tb_time tb_tau].
    rewrite <- D1. repeat (split; [assumption || reflexivity|]). split; [exists fuel; split; assumption|].
    repeat (split; [assumption || reflexivity|]). assumption.
  Qed.

  Lemma at_edge_b : forall bs d, existsb (fun b => (tb_top b =? d) || (tb_bot b =? d)) bs = true <-> at_edge bs d.
  Proof.
    intros bs d. rewrite existsb_exists. unfold at_edge. split; intros [b [H1 H2]]; exists b; (split; [assumption|]);
    [apply orb_true_iff in H2|apply orb_true_iff]; assumption.
  Qed.

  Definition shifted (d x : T) (i : Z) : Z := if x >? d then (i + 1)%Z else i.

  Lemma depthCorrect_spec : forall fuel w (t : tmodel T) d w' t' r, decreasing (tm_rayParams t) ->
    tm_depthCorrect fuel w t d = Ok (w', t', r) ->
    tm_sourceDepth t =? n_0 = true /\ d >? tm_radius t = false /\
    tm_sourceDepth r = d /\ tm_rayParams r = tm_rayParams t /\ tm_radius r = tm_radius t /\
    tm_mohoDepth r = tm_mohoDepth t /\ tm_cmbDepth r = tm_cmbDepth t /\ tm_iocbDepth r = tm_iocbDepth t /\
    findBranch r d = Ok (tm_sourceBranch r) /\
    ((at_edge (tm_P t) d /\ w' = w /\ t' = t /\ tm_sMod r = tm_sMod t /\ tm_P r = tm_P t /\ tm_S r = tm_S t /\
      tm_mohoBranch r = tm_mohoBranch t /\ tm_cmbBranch r = tm_cmbBranch t /\ tm_iocbBranch r = tm_iocbBranch t) \/
     (~ at_edge (tm_P t) d /\ w' = w ++ [d] /\
      (exists mS iS m2 iP, splitLayer fuel (tm_sMod t) d false = Ok (mS, iS) /\
         splitLayer fuel (si_sMod iS) d true = Ok (m2, iP) /\ tm_sMod r = si_sMod iP /\
         tm_sMod t' = (if si_needed iS then mS else m2) /\
         t' = mkTM (tm_sMod t') (tm_rayParams t) (tm_P t) (tm_S t) (tm_mohoBranch t) (tm_cmbBranch t) (tm_iocbBranch t)
              (tm_mohoDepth t) (tm_cmbDepth t) (tm_iocbDepth t) (tm_sourceDepth t) (tm_sourceBranch t) (tm_radius t)) /\
      tm_mohoBranch r = shifted d (tm_mohoDepth t) (tm_mohoBranch t) /\
      tm_cmbBranch r = shifted d (tm_cmbDepth t) (tm_cmbBranch t) /\
      tm_iocbBranch r = shifted d (tm_iocbDepth t) (tm_iocbBranch t) /\
      exists n bP topP botP bS topS botS,
        nth_error (tm_P t) n = Some bP /\ in_branch bP d /\
        (forall j c, (j < n)%nat -> nth_error (tm_P t) j = Some c -> ~ in_branch c d) /\
        tm_P r = firstn n (tm_P t) ++ topP :: botP :: skipn (S n) (tm_P t) /\
        parts d (tm_sMod r) true (tm_rayParams t) bP topP botP /\
        nth_error (tm_S t) n = Some bS /\
        tm_S r = firstn n (tm_S t) ++ topS :: botS :: skipn (S n) (tm_S t) /\
        parts d (tm_sMod r) false (tm_rayParams t) bS topS botS)).
  Proof.
    intros fuel w t d w' t' r Hd H. unfold tm_depthCorrect in H.
    if_eq H E1; [discriminate|]. apply negb_false_iff in E1. if_eq H E2; [discriminate|].
    inv_as H as [[w1 self] dm] Hs. inv_as H as sb Hsb. inversion H; subst w' t' r. clear H.
    cbn [tm_sourceDepth tm_rayParams tm_radius tm_mohoDepth tm_cmbDepth tm_iocbDepth tm_sourceBranch tm_sMod tm_P tm_S
         tm_mohoBranch tm_cmbBranch tm_iocbBranch].
    split; [ar|]. split; [ar|]. split; [reflexivity|].
    change (findBranch (mkTM (tm_sMod dm) (tm_rayParams dm) (tm_P dm) (tm_S dm) (tm_mohoBranch dm) (tm_cmbBranch dm)
       (tm_iocbBranch dm) (tm_mohoDepth dm) (tm_cmbDepth dm) (tm_iocbDepth dm) d sb (tm_radius dm)) d) with (findBranch dm d).
    unfold splitBranch in Hs. if_eq Hs E3.
    - inversion Hs; subst w1 self dm. repeat (split; [ar|]). left. split; [apply at_edge_b; assumption|]. repeat (split; [ar|]). reflexivity.
    - inv_as Hs as [mS iS] HS. rewrite insert_rp_none in Hs by assumption.
      inv_as Hs as [m2 iP] HP. rewrite insert_rp_none in Hs by assumption.
      inv_as Hs as nb Hnb. inv_as Hs as P' HP'. inv_as Hs as S' HS'. inversion Hs; subst w1 self dm. clear Hs.
      cbn [tm_sourceDepth tm_rayParams tm_radius tm_mohoDepth tm_cmbDepth tm_iocbDepth tm_sourceBranch tm_sMod tm_P tm_S
         tm_mohoBranch tm_cmbBranch tm_iocbBranch].
      repeat (split; [ar|]). right.
      assert (Ne : ~ at_edge (tm_P t) d) by (intros F; apply at_edge_b in F; congruence).
      split; [assumption|]. split; [reflexivity|].
      split; [exists mS, iS, m2, iP; repeat (split; [ar|]); reflexivity|].
      split; [reflexivity|]. split; [reflexivity|]. split; [reflexivity|].
      destruct (findBranch_spec t d) as [[n [b [En [Hn [Hin Hfirst]]]]]|[_ [[_ F]|[b [[l Hl] F]]]]]; rewrite Hnb in *.
      2: discriminate.
      2:{ destruct (tb_bot b =? d) eqn:Eb; [|discriminate]. exfalso. apply Ne. exists b. split; [|right; assumption].
          rewrite Hl. apply in_or_app. right. left. reflexivity. }
      inversion En; subst nb. rewrite Nat2Z.id in HP', HS'.
      apply split_branches_spec in HP'. destruct HP' as [bP [topP [botP [Hb [-> HPp]]]]].
      apply split_branches_spec in HS'. destruct HS' as [bS [topS [botS [HbS [-> HSp]]]]].
      rewrite Hn in Hb. inversion Hb; subst bP.
      exists n, b, topP, botP, bS, topS, botS. do 7 (split; [ar|]). assumption.
  Qed.

  Lemma parts_exact : forall d m w rp b top bot, apart m d -> apart m (tb_top b) -> parts d m w rp b top bot ->
    tb_top top = tb_top b /\ tb_bot top = d.
  Proof.
    intros d m w rp b top bot Ad Ab H. unfold parts in H.
    destruct H as [_ [_ [_ [_ [_ [_ [_ [_ [_ [_ [_ [_ [_ [_ [_ [_ [_ [y [z [Hy [Hz H]]]]]]]]]]]]]]]]]]]]].
    unfold close in H. destruct H as [H|[[_ [H1 [H2 _]]]|[_ [H1 [H2 _]]]]]; [tauto|exfalso..].
    - destruct (Ab _ _ _ Hy (or_introl eq_refl)) as [F|[F _]]; congruence.
    - destruct (Ad _ _ _ Hz (or_intror eq_refl)) as [F|[F _]]; congruence.
  Qed.
  Lemma list_sub_length : forall l l' : list T, List.length l' = List.length l -> List.length (list_sub l l') = List.length l.
  Proof. intros l l' H. unfold list_sub. rewrite map_length, combine_length. lia. Qed.
  Lemma list_sub_nth : forall (l l' : list T) k x y z, nth_error l' k = Some x -> nth_error l k = Some y ->
    nth_error (list_sub l l') k = Some z -> z = y - x.
  Proof.
    induction l as [|a l IH]; intros l' [|k] x y z Hx Hy Hz; try discriminate; destruct l' as [|b l']; try discriminate; cbn in *.
    - congruence.
    - eapply IH; eassumption.
  Qed.
  Lemma parts_cut : forall d m w rp b top bot, apart m d -> apart m (tb_top b) -> parts d m w rp b top bot ->
    cut_branch d b top bot.
  Proof.
    intros d m w rp b top bot Ad Ab H. destruct (parts_exact _ _ _ _ _ _ _ Ad Ab H) as [E1 E2].
    destruct H as [A1 [A2 [A3 [A4 [A5 [A6 [A7 [A8 [A9 [_ [L1 [L2 [L3 [_ [B1 [B2 [B3 _]]]]]]]]]]]]]]]]].
    unfold cut_branch. repeat (split; [congruence|]).
    unfold rest_of. rewrite B1, B2, B3.
    split; [|split]; intros Hl; (split; [apply list_sub_length; assumption|intros; eapply list_sub_nth; eassumption]).
  Qed.

  Lemma parts_new : forall d m w rp b top bot, apart m d -> apart m (tb_top b) ->
    parts d m w rp b top bot -> new_branch m w rp top.
  Proof.
    intros d m w rp b top bot Ad Ab H. destruct (parts_exact _ _ _ _ _ _ _ Ad Ab H) as [E1 E2].
    destruct H as [_ [_ [_ [_ [_ [_ [_ [_ [_ [_ [L1 [L2 [L3 [R [_ [_ [_ [y [z [Hy [Hz H]]]]]]]]]]]]]]]]]]]]].
    unfold new_branch. split; [assumption|]. split; [assumption|]. split; [assumption|].
    unfold close in H. destruct H as [[H1 [H2 _]]|[[_ [H1 [H2 _]]]|[_ [H1 [H2 _]]]]].
    - intros Hm Hu. apply R; try assumption; [apply (eqb_ok _ _ H1)|apply (eqb_ok _ _ H2)].
    - exfalso. destruct (Ab _ _ _ Hy (or_introl eq_refl)) as [F|[F _]]; congruence.
    - exfalso. destruct (Ad _ _ _ Hz (or_intror eq_refl)) as [F|[F _]]; congruence.
  Qed.

  (** *** lists with one branch cut *)
  Lemma cut_list : forall (l : list (tbranch T)) n b a c, nth_error l n = Some b ->
    exists l1 l2, l = l1 ++ b :: l2 /\ List.length l1 = n /\ firstn n l ++ a :: c :: skipn (S n) l = l1 ++ a :: c :: l2.
  Proof.
    induction l as [|x l IH]; intros [|n] b a c H; try discriminate.
    - cbn in H. inversion H; subst. exists [], l. split; [reflexivity|]. split; reflexivity.
    - cbn in H. destruct (IH _ _ a c H) as [l1 [l2 [E1 [E2 E3]]]]. exists (x :: l1), l2.
      split; [rewrite E1; reflexivity|]. split; [cbn; lia|].
      cbn [firstn skipn app]. f_equal. exact E3.
  Qed.
  Lemma meet_cons : forall (a b : tbranch T) l, b_meet (a :: b :: l) <-> tb_bot a = tb_top b /\ b_meet (b :: l).
  Proof.
    intros a b l. split.
    - intros H. split; [apply (H 0%nat); reflexivity|]. intros i u v Hu Hv. apply (H (S i)); assumption.
    - intros [H1 H2] [|i] u v Hu Hv; cbn in Hu, Hv; [congruence|]. apply (H2 i); assumption.
  Qed.
  Lemma meet_one : forall a : tbranch T, b_meet [a].
  Proof. intros a [|i] u v Hu Hv; [discriminate|]. destruct i; discriminate. Qed.
  Lemma cut_meet : forall l1 (b : tbranch T) l2 a c, tb_top a = tb_top b -> tb_bot a = tb_top c -> tb_bot c = tb_bot b ->
    b_meet (l1 ++ b :: l2) -> b_meet (l1 ++ a :: c :: l2).
  Proof.
    induction l1 as [|x l1 IH]; intros b l2 a c E1 E2 E3 H; cbn [app] in *.
    - apply meet_cons. split; [assumption|]. destruct l2 as [|z l2]; [apply meet_one|].
      apply meet_cons in H. apply meet_cons. rewrite E3. assumption.
    - assert (Ht : b_meet (l1 ++ b :: l2)) by (intros i u v Hu Hv; apply (H (S i)); assumption).
      specialize (IH _ _ _ _ E1 E2 E3 Ht). destruct l1 as [|u l1]; cbn [app] in *; apply meet_cons in H; apply meet_cons;
      (split; [|assumption]); [rewrite E1|]; tauto.
  Qed.

  Lemma cut_points : forall l1 (b : tbranch T) l2 a c d k u, b_meet (l1 ++ b :: l2) -> b_upright (l1 ++ b :: l2) ->
    in_branch b d -> tb_top a = tb_top b -> nth_error (l1 ++ b :: l2) k = Some u ->
    exists v, nth_error (l1 ++ a :: c :: l2) (if tb_top u >? d then S k else k) = Some v /\ tb_top v = tb_top u.
  Proof.
    intros l1 b l2 a c d k u Hm Hu [I1 I2] E Hk.
    assert (Hb : nth_error (l1 ++ b :: l2) (List.length l1) = Some b) by (rewrite nth_error_app2, Nat.sub_diag by lia; reflexivity).
    destruct (Nat.lt_trichotomy k (List.length l1)) as [Hl|[Hl|Hl]].
    - assert (F : tb_top u <=? d = true).
      { eapply ord_trans; [apply ltb_leb, Hu; eapply nth_error_In; exact Hk|]. eapply ord_trans; [|exact I1].
        eapply b_sorted; eassumption. }
      destruct (tb_top u >? d) eqn:G; [rewrite (ltb_not_leb _ _ G) in F; discriminate|].
      exists u. split; [|reflexivity]. rewrite nth_error_app1 in * by assumption. assumption.
    - subst k. rewrite Hb in Hk. inversion Hk; subst u.
      destruct (tb_top b >? d) eqn:G; [rewrite (ltb_not_leb _ _ G) in I1; discriminate|].
      exists a. split; [|assumption]. rewrite nth_error_app2, Nat.sub_diag by lia. reflexivity.
    - assert (G : tb_top u >? d = true).
      { eapply ltb_leb_trans; [exact I2|]. eapply (b_sorted _ _ _ b u); try eassumption. }
      rewrite G. exists u. split; [|reflexivity]. rewrite nth_error_app2 in * by lia.
      replace (S k - List.length l1)%nat with (S (S (k - S (List.length l1)))) by lia.
      replace (k - List.length l1)%nat with (S (k - S (List.length l1))) in Hk by lia. assumption.
  Qed.

  Lemma shifted_starts : forall (t r : tmodel T) d l1 b l2 a c i x, b_meet (tm_P t) -> b_upright (tm_P t) ->
    tm_P t = l1 ++ b :: l2 -> tm_P r = l1 ++ a :: c :: l2 -> in_branch b d -> tb_top a = tb_top b ->
    starts_at t i x -> starts_at r (shifted d x i) x.
  Proof.
    intros t r d l1 b l2 a c i x Hm Hu E1 E2 Hin Ea [H0 [u [Hk Hx]]]. rewrite E1 in *.
    destruct (cut_points l1 b l2 a c d _ u Hm Hu Hin Ea Hk) as [v [Hv Ev]].
    unfold starts_at, shifted. subst x. rewrite E2. destruct (tb_top u >? d).
    - split; [lia|]. exists v. rewrite Z2Nat.inj_add by lia. change (Z.to_nat 1) with 1%nat. rewrite Nat.add_1_r. auto.
    - split; [assumption|]. exists v. auto.
  Qed.

  Lemma starts_ltb : forall (b : tbranch T) d, in_branch b d -> tb_top b =? d = false -> tb_top b <? d = true.
  Proof.
    intros b d [H1 H2] Hn. destruct (ord_leb_ok _ _ H1) as [O1 O2].
    destruct (tb_top b <? d) eqn:E; [reflexivity|]. exfalso. apply ltb_false_leb in E; [|assumption..].
    rewrite ord_eqb in Hn by assumption. rewrite H1, E in Hn. discriminate.
  Qed.

  Lemma depthCorrect_exact : forall fuel w (t : tmodel T) d w' t' r, decreasing (tm_rayParams t) ->
    b_meet (tm_P t) -> b_upright (tm_P t) ->
    (exists b, last_branch (tm_P t) b /\ d <? tb_bot b = true) ->
    tm_depthCorrect fuel w t d = Ok (w', t', r) ->
    apart (tm_sMod r) d -> (forall v b, In b (branches t v) -> apart (tm_sMod r) (tb_top b)) ->
    tm_sourceDepth r = d /\ same_depths t r /\
    (exists b, nth_error (tm_P r) (Z.to_nat (tm_sourceBranch r)) = Some b /\ (0 <= tm_sourceBranch r)%Z /\ tb_top b =? d = true) /\
    ((at_edge (tm_P t) d /\ w' = w /\ (forall v, branches r v = branches t v)) \/
     (~ at_edge (tm_P t) d /\ w' = w ++ [d] /\
      exists n, (forall v, cut_at (new_branch (tm_sMod r) v (tm_rayParams r)) d n (branches t v) (branches r v)) /\ tm_sourceBranch r = Z.of_nat (S n))) /\
    (starts_at t (tm_mohoBranch t) (tm_mohoDepth t) -> starts_at r (tm_mohoBranch r) (tm_mohoDepth r)) /\
    (starts_at t (tm_cmbBranch t) (tm_cmbDepth t) -> starts_at r (tm_cmbBranch r) (tm_cmbDepth r)) /\
    (starts_at t (tm_iocbBranch t) (tm_iocbDepth t) -> starts_at r (tm_iocbBranch r) (tm_iocbDepth r)).
  Proof.
    intros fuel w t d w' t' r Hd Hm Hu Hlast H Ad Ab.
    apply depthCorrect_spec in H; [|assumption].
    destruct H as [_ [_ [Es [Er [Era [Em [Ec [Ei [Hf H]]]]]]]]].
    split; [assumption|]. split; [unfold same_depths; tauto|].
    destruct H as [[He [-> [-> [_ [EP [ES [E1 [E2 E3]]]]]]]]|[He [-> [_ [E1 [E2 [E3 H]]]]]]].
    - unfold starts_at. rewrite EP, E1, E2, E3, Em, Ec, Ei. split.
      2:{ split; [|tauto]. left. split; [assumption|]. split; [reflexivity|]. intros []; assumption. }
      (* the branch found starts at d *)
      destruct Hlast as [bl [Hbl Hlt]].
      assert (Hex : exists k u, nth_error (tm_P t) k = Some u /\ tb_top u =? d = true).
      { destruct He as [u [Hi [Hu1|Hu1]]]; apply In_nth_error in Hi; destruct Hi as [k Hk]; [eauto|].
        destruct (nth_error (tm_P t) (S k)) as [v|] eqn:Ev.
        - exists (S k), v. split; [assumption|]. rewrite <- (Hm _ _ _ Hk Ev). assumption.
        - exfalso. destruct Hbl as [l El]. rewrite El in Hk, Ev. apply nth_error_None in Ev. rewrite app_length in Ev. cbn in Ev.
          assert (K : k = List.length l).
          { assert (k < List.length (l ++ [bl]))%nat by (apply nth_error_Some; congruence). rewrite app_length in *. cbn in *. lia. }
          subst k. rewrite nth_error_app2, Nat.sub_diag in Hk by lia. cbn in Hk. inversion Hk; subst u.
          apply eqb_leb in Hu1. rewrite (ltb_not_leb _ _ Hlt) in Hu1. discriminate. }
      destruct Hex as [k [u [Hk Eu]]].
      assert (Hin : in_branch u d).
      { split; [apply eqb_leb; assumption|]. eapply leb_ltb_trans; [apply eqb_geb; exact Eu|]. apply Hu. eapply nth_error_In; eassumption. }
      assert (F : findBranch r d = Ok (Z.of_nat k)).
      { apply findBranch_iff; rewrite ?EP; try assumption. exists u. auto. }
      rewrite Hf in F. inversion F as [G]. rewrite G, Nat2Z.id. exists u. split; [assumption|]. split; [lia|assumption].
    - destruct H as [n [bP [topP [botP [bS [topS [botS [Hn [Hin [_ [EP [HPp [HnS [ES HSp]]]]]]]]]]]]]].
      destruct (parts_exact _ _ _ _ _ _ _ Ad (Ab true _ (nth_error_In _ _ Hn)) HPp) as [T1 T2].
      pose proof (parts_cut _ _ _ _ _ _ _ Ad (Ab true _ (nth_error_In _ _ Hn)) HPp) as CP.
      pose proof (parts_cut _ _ _ _ _ _ _ Ad (Ab false _ (nth_error_In _ _ HnS)) HSp) as CS.
      pose proof (parts_new _ _ _ _ _ _ _ Ad (Ab true _ (nth_error_In _ _ Hn)) HPp) as NP.
      pose proof (parts_new _ _ _ _ _ _ _ Ad (Ab false _ (nth_error_In _ _ HnS)) HSp) as NS.
      destruct (cut_list _ _ _ topP botP Hn) as [l1 [l2 [L1 [L2 L3]]]]. rewrite L3 in EP. clear L3.
      destruct (cut_list _ _ _ topS botS HnS) as [s1 [s2 [S1 [S2 S3]]]]. rewrite S3 in ES. clear S3.
      pose proof CP as [_ [_ [C1 [C2 [C3 [C4 _]]]]]].
      assert (Lt : tb_top bP <? d = true).
      { apply starts_ltb; [assumption|]. destruct (tb_top bP =? d) eqn:F; [|reflexivity]. exfalso. apply He. exists bP.
        split; [eapply nth_error_In; eassumption|left; assumption]. }
      assert (Fn : findBranch r d = Ok (Z.of_nat (S n))).
      { apply findBranch_iff.
        - rewrite EP. eapply cut_meet; [exact C1| |exact C4|rewrite <- L1; assumption]. congruence.
        - rewrite EP. intros v Hv. apply in_app_or in Hv. rewrite L1 in Hu.
          destruct Hv as [Hv|[<-|[<-|Hv]]].
          + apply Hu. apply in_or_app. left. assumption.
          + rewrite C1, C2. assumption.
          + rewrite C3, C4. apply Hin.
          + apply Hu. apply in_or_app. right. right. assumption.
        - exists botP. rewrite EP. split.
          + rewrite nth_error_app2 by lia. replace (S n - List.length l1)%nat with 1%nat by lia. reflexivity.
          + split; rewrite ?C3, ?C4; [apply leb_refl; apply (ord_ltb_ok _ _ Lt)|apply Hin]. }
      rewrite Hf in Fn. assert (Fn' : tm_sourceBranch r = Z.of_nat (S n)) by congruence. rewrite Fn'. split.
      + exists botP. rewrite Nat2Z.id. split.
        * rewrite EP, nth_error_app2 by lia. replace (S n - List.length l1)%nat with 1%nat by lia. reflexivity.
        * split; [lia|]. rewrite C3. apply (ord_ltb_ok _ _ Lt).
      + split.
        * right. split; [assumption|]. split; [reflexivity|]. exists n. split; [|reflexivity]. intros [].
          -- exists l1, bP, l2, topP, botP. cbn [branches]. rewrite Er. auto.
          -- exists s1, bS, s2, topS, botS. cbn [branches]. rewrite Er. auto.
        * rewrite E1, E2, E3, Em, Ec, Ei. split; [|split]; intros St; eapply shifted_starts; eassumption.
  Qed.
End Split.

(** Proofs about velocity models. *)
From Coq Require Import ZArith Bool List String Ascii Reals Lia Lra.
From Verif Require Import Base Num PyStr VelocityModel NameSpec NameProofs VelSpec.
Import ListNotations.
Local Open Scope string_scope.
Local Open Scope list_scope.

Lemma last_cons : forall {A} (l : list A) x y, last (x :: l) y = last l x.
Proof.
  induction l as [|z l IH]; intros x y; [reflexivity|].
  change (last (x :: z :: l) y) with (last (z :: l) y). rewrite !IH. reflexivity.
Qed.

(** ** layer lookup *)
Lemma nth_layer_0 : forall {T} (ls : list (vlayer T)) l, nth_layer ls 0 l <-> exists r, ls = l :: r.
Proof.
  intros T ls l. unfold nth_layer. simpl. destruct ls as [|x r]; simpl; split.
  - intros [_ H]; discriminate.
  - intros [r H]; discriminate.
  - intros [_ H]. inversion H. eauto.
  - intros [r' H]. inversion H. split; [lia|reflexivity].
Qed.

Lemma nth_layer_S : forall {T} (x : vlayer T) ls i l, (0 <= i)%Z ->
  nth_layer (x :: ls) (i + 1) l <-> nth_layer ls i l.
Proof.
  intros T x ls i l Hi. unfold nth_layer. replace (Z.to_nat (i + 1)) with (S (Z.to_nat i)) by lia.
  simpl. intuition lia.
Qed.

Lemma nth_layer_cons : forall {T} (x : vlayer T) ls i l,
  nth_layer (x :: ls) i l <-> (i = 0%Z /\ l = x) \/ ((0 < i)%Z /\ nth_layer ls (i - 1) l).
Proof.
  intros T x ls i l. destruct (Z.eq_dec i 0) as [->|Hi].
  - rewrite nth_layer_0. split.
    + intros [r H]. inversion H. left. auto.
    + intros [[_ ->]|[H _]]; [eauto|lia].
  - destruct (Z_lt_dec 0 i) as [H|H].
    + replace i with ((i - 1) + 1)%Z at 1 by lia. rewrite nth_layer_S by lia.
      split; [auto|]. intros [[? _]|[_ ?]]; [lia|assumption].
    + split; [intros [? _]; lia|]. intros [[? _]|[? _]]; lia.
Qed.

Lemma nth_layer_In : forall {T} (ls : list (vlayer T)) i l, nth_layer ls i l -> In l ls.
Proof. intros T ls i l [_ H]. eapply nth_error_In. eassumption. Qed.
Lemma nth_layer_fun : forall {T} (ls : list (vlayer T)) i a b,
  nth_layer ls i a -> nth_layer ls i b -> a = b.
Proof. intros T ls i a b [_ H] [_ H']. congruence. Qed.
Lemma nth_layer_nil : forall {T} i (l : vlayer T), ~ nth_layer [] i l.
Proof. intros T i l [_ H]. destruct (Z.to_nat i); discriminate. Qed.
Lemma nth_layer_py : forall {T} (ls : list (vlayer T)) i l, nth_layer ls i l -> py_index ls i = Ok l.
Proof. intros T ls i l [Hi H]. apply py_index_nonneg; assumption. Qed.

Section Lookup.
  Context {T : Type} {N : Num T} {O : NumOrd T}.
  Local Open Scope num_scope.

  Lemma contiguous_tail : forall x (ls : list (vlayer T)), contiguous (x :: ls) -> contiguous ls.
  Proof.
    intros x ls H i a b Ha Hb. destruct Ha as [Hi Ha].
    apply (H (i + 1)%Z a b); apply nth_layer_S; try lia; auto. split; auto.
  Qed.
  Lemma thick_tail : forall x (ls : list (vlayer T)), thick (x :: ls) -> thick ls.
  Proof. intros x ls H l Hl. apply H. right. assumption. Qed.
  Lemma contiguous_head : forall x y (ls : list (vlayer T)), contiguous (x :: y :: ls) ->
    vl_botDepth x =? vl_topDepth y = true.
  Proof.
    intros x y ls H. apply (H 0%Z x y).
    - apply nth_layer_0. eauto.
    - change 1%Z with (0 + 1)%Z. apply nth_layer_S; [lia|]. apply nth_layer_0. eauto.
  Qed.

  (** all tops below the first are at least the bottom of the first *)
  Lemma below_all : forall (ls : list (vlayer T)) x, contiguous (x :: ls) -> thick (x :: ls) ->
    forall l, In l ls -> vl_botDepth x <=? vl_topDepth l = true.
  Proof.
    induction ls as [|y ls IH]; intros x Hc Ht l Hl; [destruct Hl|].
    pose proof (contiguous_head _ _ _ Hc) as E.
    destruct Hl as [<-|Hl]; [apply eqb_leb; assumption|].
    assert (H1 : vl_topDepth y <? vl_botDepth y = true) by (apply Ht; right; left; reflexivity).
    assert (H2 : vl_botDepth y <=? vl_topDepth l = true).
    { apply IH; [eapply contiguous_tail; eassumption|eapply thick_tail; eassumption|assumption]. }
    eapply ord_trans; [apply eqb_leb; exact E|]. eapply ord_trans; [apply ltb_leb; exact H1|exact H2].
  Qed.

  Lemma v_below_go_total : forall (ls : list (vlayer T)) k x,
    (exists i, v_below_go k ls x = Ok i) \/ v_below_go k ls x = Raise TauPException.
  Proof.
    induction ls as [|y ls IH]; intros k x; simpl; [auto|].
    destruct (_ && _); eauto.
  Qed.
  Lemma v_above_go_total : forall (ls : list (vlayer T)) k x,
    (exists i, v_above_go k ls x = Ok i) \/ v_above_go k ls x = Raise TauPException.
  Proof.
    induction ls as [|y ls IH]; intros k x; simpl; [auto|].
    destruct (_ && _); eauto.
  Qed.

  Lemma v_below_go_iff : forall (ls : list (vlayer T)) k x i, contiguous ls -> thick ls ->
    (v_below_go k ls x = Ok i <->
     exists l, nth_layer ls (i - k) l /\ vl_topDepth l <=? x = true /\ x <? vl_botDepth l = true).
  Proof.
    induction ls as [|y ls IH]; intros k x i Hc Ht; simpl.
    - split; [discriminate|]. intros [l [H _]]. destruct (nth_layer_nil _ _ H).
    - destruct ((vl_topDepth y <=? x) && (x <? vl_botDepth y)) eqn:E.
      + apply andb_prop in E. destruct E as [E1 E2]. split.
        * intros H. inversion H; subst. exists y. split; [|auto].
          rewrite Z.sub_diag. apply nth_layer_0. exists ls; reflexivity.
        * intros [l [Hl [H1 H2]]]. apply nth_layer_cons in Hl. destruct Hl as [[Hi _]|[Hi Hl]].
          -- f_equal. lia.
          -- exfalso. apply nth_layer_In in Hl.
             pose proof (below_all _ _ Hc Ht _ Hl) as H3.
             pose proof (ltb_leb_trans _ _ _ E2 H3) as H4.
             rewrite (ltb_not_leb _ _ H4) in H1. discriminate.
      + rewrite IH by (try (eapply contiguous_tail; eassumption); eapply thick_tail; eassumption).
        replace (i - (k + 1))%Z with (i - k - 1)%Z by lia. split.
        * intros [l [Hl H]]. exists l. split; [|assumption]. apply nth_layer_cons. right.
          split; [destruct Hl; lia|assumption].
        * intros [l [Hl [H1 H2]]]. exists l. split; [|auto].
          apply nth_layer_cons in Hl. destruct Hl as [[_ ->]|[_ Hl]]; [|assumption].
          rewrite H1, H2 in E. discriminate.
  Qed.

  Lemma v_above_go_iff : forall (ls : list (vlayer T)) k x i, contiguous ls -> thick ls ->
    (v_above_go k ls x = Ok i <->
     exists l, nth_layer ls (i - k) l /\ vl_topDepth l <? x = true /\ x <=? vl_botDepth l = true).
  Proof.
    induction ls as [|y ls IH]; intros k x i Hc Ht; simpl.
    - split; [discriminate|]. intros [l [H _]]. destruct (nth_layer_nil _ _ H).
    - destruct ((vl_topDepth y <? x) && (x <=? vl_botDepth y)) eqn:E.
      + apply andb_prop in E. destruct E as [E1 E2]. split.
        * intros H. inversion H; subst. exists y. split; [|auto].
          rewrite Z.sub_diag. apply nth_layer_0. exists ls; reflexivity.
        * intros [l [Hl [H1 H2]]]. apply nth_layer_cons in Hl. destruct Hl as [[Hi _]|[Hi Hl]].
          -- f_equal. lia.
          -- exfalso. apply nth_layer_In in Hl.
             pose proof (below_all _ _ Hc Ht _ Hl) as H3.
             pose proof (ord_trans _ _ _ E2 H3) as H4.
             rewrite (ltb_not_leb _ _ H1) in H4. discriminate.
      + rewrite IH by (try (eapply contiguous_tail; eassumption); eapply thick_tail; eassumption).
        replace (i - (k + 1))%Z with (i - k - 1)%Z by lia. split.
        * intros [l [Hl H]]. exists l. split; [|assumption]. apply nth_layer_cons. right.
          split; [destruct Hl; lia|assumption].
        * intros [l [Hl [H1 H2]]]. exists l. split; [|auto].
          apply nth_layer_cons in Hl. destruct Hl as [[_ ->]|[_ Hl]]; [|assumption].
          rewrite H1, H2 in E. discriminate.
  Qed.

  Lemma below_iff : forall m x i, contiguous (vm_layers m) -> thick (vm_layers m) ->
    (v_layerNumberBelow m x = Ok i <->
     exists l, nth_layer (vm_layers m) i l /\ vl_topDepth l <=? x = true /\ x <? vl_botDepth l = true).
  Proof.
    intros m x i Hc Ht. unfold v_layerNumberBelow. rewrite v_below_go_iff by assumption.
    rewrite Z.sub_0_r. tauto.
  Qed.
  Lemma above_iff : forall m x i, contiguous (vm_layers m) -> thick (vm_layers m) ->
    (v_layerNumberAbove m x = Ok i <->
     exists l, nth_layer (vm_layers m) i l /\ vl_topDepth l <? x = true /\ x <=? vl_botDepth l = true).
  Proof.
    intros m x i Hc Ht. unfold v_layerNumberAbove. rewrite v_above_go_iff by assumption.
    rewrite Z.sub_0_r. tauto.
  Qed.

  (** every depth of the model lies in some layer *)
  Lemma cover_below : forall (ls : list (vlayer T)) f, contiguous (f :: ls) -> thick (f :: ls) ->
    forall x, vl_topDepth f <=? x = true -> x <? vl_botDepth (last ls f) = true ->
    exists i l, nth_layer (f :: ls) i l /\ vl_topDepth l <=? x = true /\ x <? vl_botDepth l = true.
  Proof.
    induction ls as [|y ls IH]; intros f Hc Ht x H1 H2.
    - exists 0%Z, f. split; [apply nth_layer_0; eauto|auto].
    - destruct (x <? vl_botDepth f) eqn:E.
      + exists 0%Z, f. split; [apply nth_layer_0; eauto|auto].
      + destruct (IH y (contiguous_tail _ _ Hc) (thick_tail _ _ Ht) x) as [i [l [Hl Hx]]].
        * assert (Hok : n_ok x) by (apply ord_leb_ok in H1; tauto).
          assert (Hf : vl_topDepth f <? vl_botDepth f = true) by (apply Ht; left; reflexivity).
          destruct (ord_ltb_ok _ _ Hf) as [_ Hb].
          apply ltb_false_leb in E; [|assumption|assumption].
          eapply ord_trans; [|exact E]. apply eqb_geb. eapply contiguous_head; eassumption.
        * rewrite last_cons in H2. assumption.
        * exists (i + 1)%Z, l. split; [|assumption]. apply nth_layer_S; [destruct Hl; assumption|assumption].
  Qed.

  Lemma cover_above : forall (ls : list (vlayer T)) f, contiguous (f :: ls) -> thick (f :: ls) ->
    forall x, vl_topDepth f <? x = true -> x <=? vl_botDepth (last ls f) = true ->
    exists i l, nth_layer (f :: ls) i l /\ vl_topDepth l <? x = true /\ x <=? vl_botDepth l = true.
  Proof.
    induction ls as [|y ls IH]; intros f Hc Ht x H1 H2.
    - exists 0%Z, f. split; [apply nth_layer_0; eauto|auto].
    - destruct (x <=? vl_botDepth f) eqn:E.
      + exists 0%Z, f. split; [apply nth_layer_0; eauto|auto].
      + destruct (IH y (contiguous_tail _ _ Hc) (thick_tail _ _ Ht) x) as [i [l [Hl Hx]]].
        * assert (Hok : n_ok x) by (apply ord_ltb_ok in H1; tauto).
          assert (Hf : vl_topDepth f <? vl_botDepth f = true) by (apply Ht; left; reflexivity).
          destruct (ord_ltb_ok _ _ Hf) as [_ Hb].
          apply leb_false_ltb in E; [|assumption|assumption].
          eapply leb_ltb_trans; [|exact E]. apply eqb_geb. eapply contiguous_head; eassumption.
        * rewrite last_cons in H2. assumption.
        * exists (i + 1)%Z, l. split; [|assumption]. apply nth_layer_S; [destruct Hl; assumption|assumption].
  Qed.

  Lemma first_top : forall (ls : list (vlayer T)) f, contiguous (f :: ls) -> thick (f :: ls) ->
    forall l, In l (f :: ls) -> vl_topDepth f <=? vl_topDepth l = true.
  Proof.
    intros ls f Hc Ht l [<-|Hl].
    - apply leb_refl. assert (H : vl_topDepth f <? vl_botDepth f = true) by (apply Ht; left; reflexivity).
      apply ord_ltb_ok in H. tauto.
    - eapply ord_trans; [|eapply below_all; eassumption]. apply ltb_leb. apply Ht. left. reflexivity.
  Qed.
  Lemma last_bot : forall (ls : list (vlayer T)) f, contiguous (f :: ls) -> thick (f :: ls) ->
    forall l, In l (f :: ls) -> vl_botDepth l <=? vl_botDepth (last ls f) = true.
  Proof.
    induction ls as [|y ls IH]; intros f Hc Ht l Hl.
    - destruct Hl as [<-|[]]. simpl. apply leb_refl.
      assert (H : vl_topDepth f <? vl_botDepth f = true) by (apply Ht; left; reflexivity).
      apply ord_ltb_ok in H. tauto.
    - rewrite last_cons. pose proof (IH y (contiguous_tail _ _ Hc) (thick_tail _ _ Ht)) as IH'.
      destruct Hl as [<-|Hl]; [|apply IH'; assumption].
      eapply ord_trans; [|apply (IH' y); left; reflexivity].
      eapply ord_trans; [apply eqb_leb; eapply contiguous_head; eassumption|].
      apply ltb_leb. apply Ht. right. left. reflexivity.
  Qed.

  Lemma below_defined : forall m f ls x, vm_layers m = f :: ls ->
    contiguous (vm_layers m) -> thick (vm_layers m) ->
    ((exists i, v_layerNumberBelow m x = Ok i) <->
     vl_topDepth f <=? x = true /\ x <? vl_botDepth (last ls f) = true).
  Proof.
    intros m f ls x E Hc Ht. split.
    - intros [i H]. apply below_iff in H; [|assumption|assumption].
      rewrite E in *. destruct H as [l [Hl [H1 H2]]]. apply nth_layer_In in Hl. split.
      + eapply ord_trans; [|exact H1]. eapply first_top; eassumption.
      + eapply ltb_leb_trans; [exact H2|]. apply last_bot; assumption.
    - intros [H1 H2].
      destruct (cover_below ls f) with (x := x) as [i [l H]]; try rewrite <- E; try assumption.
      exists i. apply below_iff; [assumption|assumption|]. exists l. rewrite E. assumption.
  Qed.
  Lemma above_defined : forall m f ls x, vm_layers m = f :: ls ->
    contiguous (vm_layers m) -> thick (vm_layers m) ->
    ((exists i, v_layerNumberAbove m x = Ok i) <->
     vl_topDepth f <? x = true /\ x <=? vl_botDepth (last ls f) = true).
  Proof.
    intros m f ls x E Hc Ht. split.
    - intros [i H]. apply above_iff in H; [|assumption|assumption].
      rewrite E in *. destruct H as [l [Hl [H1 H2]]]. apply nth_layer_In in Hl. split.
      + eapply leb_ltb_trans; [|exact H1]. eapply first_top; eassumption.
      + eapply ord_trans; [exact H2|]. apply last_bot; assumption.
    - intros [H1 H2].
      destruct (cover_above ls f) with (x := x) as [i [l H]]; try rewrite <- E; try assumption.
      exists i. apply above_iff; [assumption|assumption|]. exists l. rewrite E. assumption.
  Qed.
  Lemma lookup_total : forall (m : vmodel T) x,
    ((exists i, v_layerNumberBelow m x = Ok i) \/ v_layerNumberBelow m x = Raise TauPException) /\
    ((exists i, v_layerNumberAbove m x = Ok i) \/ v_layerNumberAbove m x = Raise TauPException).
  Proof. intros. split; [apply v_below_go_total|apply v_above_go_total]. Qed.

  (** on the boundary between two layers *)
  Lemma lookup_boundary : forall m i a b x, contiguous (vm_layers m) -> thick (vm_layers m) ->
    nth_layer (vm_layers m) i a -> nth_layer (vm_layers m) (i + 1) b ->
    x =? vl_botDepth a = true ->
    v_layerNumberAbove m x = Ok i /\ v_layerNumberBelow m x = Ok (i + 1)%Z.
  Proof.
    intros m i a b x Hc Ht Ha Hb E.
    assert (Ta := Ht _ (nth_layer_In _ _ _ Ha)). assert (Tb := Ht _ (nth_layer_In _ _ _ Hb)).
    assert (J := Hc _ _ _ Ha Hb). split.
    - apply above_iff; [assumption|assumption|]. exists a. split; [assumption|].
      split; [eapply ltb_leb_trans; [exact Ta|apply eqb_geb; exact E]|apply eqb_leb; exact E].
    - apply below_iff; [assumption|assumption|]. exists b. split; [assumption|].
      pose proof (eqb_trans _ _ _ E J) as E'.
      split; [apply eqb_geb; exact E'|eapply leb_ltb_trans; [apply eqb_leb; exact E'|exact Tb]].
  Qed.
End Lookup.

(** ** evaluation *)
Definition prop_sel {T} (l : vlayer T) (prop : string) : option (T * T) :=
  let prop := str_lower prop in
  if String.eqb prop "p" then Some (vl_topP l, vl_botP l)
  else if String.eqb prop "s" then Some (vl_topS l, vl_botS l)
  else if str_in prop "rd" then Some (vl_topD l, vl_botD l) else None.

Lemma str_in_iff : forall p s, str_in p s = true <-> exists a b, s = (a ++ p ++ b)%string.
Proof.
  intros p. unfold str_in. induction s as [|c s IH]; cbn [index].
  - destruct p as [|pc pp]; split; try discriminate; try reflexivity.
    + intros _. exists ""%string, ""%string. reflexivity.
    + intros [a [b H]]. destruct a; discriminate.
  - destruct (prefix p (String c s)) eqn:E.
    + split; [|reflexivity]. intros _. apply prefix_iff in E. destruct E as [t E].
      exists ""%string, t. assumption.
    + destruct (index 0 p s) eqn:E2.
      * split; [|reflexivity]. intros _. destruct (proj1 IH eq_refl) as [a [b H]].
        exists (String c a), b. simpl. f_equal. assumption.
      * split; [discriminate|]. intros [a [b H]]. destruct a as [|c' a]; simpl in H.
        -- assert (prefix p (String c s) = true) by (apply prefix_iff; eauto). congruence.
        -- apply IH. exists a, b. congruence.
Qed.

Lemma in_rd : forall x, str_in x "rd" = true <-> In x density_words.
Proof.
  intros x. rewrite str_in_iff. split.
  - intros [a [b H]].
    destruct a as [|a1 [|a2 [|a3 a]]]; simpl in H; try discriminate H.
    + destruct x as [|x1 [|x2 [|x3 x]]]; simpl in H; try discriminate H.
      * simpl; auto.
      * injection H; intros; subst; simpl; auto.
      * injection H; intros; subst; simpl; auto.
    + injection H as <- H. destruct x as [|x1 [|x2 x]]; simpl in H; try discriminate H.
      * simpl; auto.
      * injection H; intros; subst; simpl; auto.
    + injection H as <- <- H. destruct x; simpl in H; [|discriminate H]. simpl; auto.
  - intros [<-|[<-|[<-|[<-|[]]]]].
    + exists "", "rd". reflexivity.
    + exists "", "d". reflexivity.
    + exists "r", "". reflexivity.
    + exists "", "". reflexivity.
Qed.

Lemma no_upper_words : forall w, In w ("p" :: "s" :: density_words)%string -> no_upper w.
Proof.
  intros w H. simpl in H.
  repeat (destruct H as [<-|H]; [repeat constructor; simpl; lia|]). destruct H.
Qed.

Lemma values_iff : forall {T} (l : vlayer T) prop tv bv,
  values l prop tv bv <-> prop_sel l prop = Some (tv, bv).
Proof.
  intros T l prop tv bv. unfold values, prop_sel.
  assert (Ew : forall w, In w ("p" :: "s" :: density_words)%string -> same_word prop w <-> str_lower prop = w)
    by (intros w Hw; symmetry; apply str_lower_same, no_upper_words, Hw).
  assert (Ed : (exists w, In w density_words /\ same_word prop w) <-> str_in (str_lower prop) "rd" = true).
  { rewrite in_rd. split.
    - intros [w [H1 H2]]. apply Ew in H2; [|simpl in *; tauto]. subst. assumption.
    - intros H. exists (str_lower prop). split; [assumption|]. apply Ew; [simpl in *; tauto|reflexivity]. }
  rewrite Ed, (Ew "p"%string), (Ew "s"%string) by (simpl; auto).
  destruct (String.eqb_spec (str_lower prop) "p") as [E|E].
  - rewrite E. split.
    + intros [[_ [-> ->]]|[[H _]|[H _]]]; [reflexivity|discriminate|discriminate].
    + intros H. inversion H. left. auto.
  - destruct (String.eqb_spec (str_lower prop) "s") as [E'|E'].
    + rewrite E'. split.
      * intros [[H _]|[[_ [-> ->]]|[H _]]]; [discriminate|reflexivity|discriminate].
      * intros H. inversion H. right. left. auto.
    + destruct (str_in (str_lower prop) "rd").
      * split.
        -- intros [[H _]|[[H _]|[H [-> ->]]]]; [contradiction|contradiction|reflexivity].
        -- intros H. inversion H. right. right. auto.
      * split; [|discriminate]. intros [[H _]|[[H _]|[H _]]]; try contradiction; discriminate.
Qed.

Lemma known_iff : forall {T} (l : vlayer T) prop,
  known_property prop <-> exists tv bv, values l prop tv bv.
Proof.
  intros T l prop. unfold known_property, values. split.
  - intros [w [[<-|[<-|Hw]] H]]; do 2 eexists; [left|right; left|right; right]; (split; [|split; reflexivity]); eauto.
  - intros [tv [bv [[H _]|[[H _]|[[w [Hw H]] _]]]]].
    + exists "p"%string. simpl. auto.
    + exists "s"%string. simpl. auto.
    + exists w. simpl. auto.
Qed.

Lemma evaluateAt_sel : forall {T} {N : Num T} (l : vlayer T) x prop,
  evaluateAt l x prop =
  match prop_sel l prop with
  | Some (tv, bv) => let! slope := py_div (n_sub bv tv) (vl_thickness l) in
                     Ok (n_add (n_mul slope (n_sub x (vl_topDepth l))) tv)
  | None => Raise TauPException
  end.
Proof.
  intros. unfold evaluateAt, prop_sel.
  destruct (String.eqb _ _); [reflexivity|]. destruct (String.eqb _ _); [reflexivity|].
  destruct (str_in _ _); reflexivity.
Qed.

Lemma evaluateAtTop_iff : forall {T} {N : Num T} (l : vlayer T) prop tv,
  evaluateAtTop l prop = Ok tv <-> exists bv, values l prop tv bv.
Proof.
  intros. unfold evaluateAtTop.
  transitivity (exists bv, prop_sel l prop = Some (tv, bv)).
  - unfold prop_sel. destruct (String.eqb _ _); [|destruct (String.eqb _ _); [|destruct (str_in _ _)]];
      (split; [intros H; inversion H; eauto|intros [bv H]; inversion H; reflexivity]).
  - split; intros [bv H]; exists bv; apply values_iff; assumption.
Qed.
Lemma evaluateAtBottom_iff : forall {T} {N : Num T} (l : vlayer T) prop bv,
  evaluateAtBottom l prop = Ok bv <-> exists tv, values l prop tv bv.
Proof.
  intros. unfold evaluateAtBottom.
  transitivity (exists tv, prop_sel l prop = Some (tv, bv)).
  - unfold prop_sel. destruct (String.eqb _ _); [|destruct (String.eqb _ _); [|destruct (str_in _ _)]];
      (split; [intros H; inversion H; eauto|intros [tv H]; inversion H; reflexivity]).
  - split; intros [tv H]; exists tv; apply values_iff; assumption.
Qed.
Lemma evaluateAtEnds_total : forall {T} {N : Num T} (l : vlayer T) prop,
  ((exists v, evaluateAtTop l prop = Ok v) \/ evaluateAtTop l prop = Raise TauPException) /\
  ((exists v, evaluateAtBottom l prop = Ok v) \/ evaluateAtBottom l prop = Raise TauPException).
Proof.
  intros. unfold evaluateAtTop, evaluateAtBottom.
  destruct (String.eqb _ _); [|destruct (String.eqb _ _); [|destruct (str_in _ _)]]; split; eauto.
Qed.

(** evaluation in one layer of positive thickness *)
Lemma evaluateAt_R : forall (l : vlayer R) x prop, (vl_topDepth l < vl_botDepth l)%R ->
  (forall v, evaluateAt l x prop = Ok v <->
     exists tv bv, values l prop tv bv /\ v = line (vl_topDepth l) tv (vl_botDepth l) bv x) /\
  (~ known_property prop -> evaluateAt l x prop = Raise TauPException).
Proof.
  intros l x prop Ht. rewrite evaluateAt_sel. split.
  - intros v. split.
    + intros H. destruct (prop_sel l prop) as [[tv bv]|] eqn:E; [|discriminate].
      exists tv, bv. split; [apply values_iff; assumption|].
      inv_bind H. apply py_div_R_inv in Ha. destruct Ha as [_ ->]. inversion H. simpl.
      unfold vl_thickness, line. simpl. unfold Rdiv. ring.
    + intros [tv [bv [Hv ->]]]. apply values_iff in Hv. rewrite Hv.
      unfold vl_thickness. simpl. rewrite py_div_R by lra. simpl. f_equal.
      unfold line, Rdiv. ring.
  - intros Hk. destruct (prop_sel l prop) as [[tv bv]|] eqn:E; [|reflexivity].
    exfalso. apply Hk. apply (known_iff l). exists tv, bv. apply values_iff. assumption.
Qed.

Lemma evaluateBelow_iff : forall (m : vmodel R) x prop v, contiguous (vm_layers m) -> thick (vm_layers m) ->
  (evaluateBelow m x prop = Ok v <->
   exists i l tv bv, nth_layer (vm_layers m) i l /\ (vl_topDepth l <= x < vl_botDepth l)%R /\
     values l prop tv bv /\ v = line (vl_topDepth l) tv (vl_botDepth l) bv x).
Proof.
  intros m x prop v Hc Ht. unfold evaluateBelow. split.
  - intros H. inv_as H as i Hi. apply below_iff in Hi; [|assumption|assumption].
    destruct Hi as [l [Hl [H1 H2]]]. rewrite (nth_layer_py _ _ _ Hl) in H. cbn [bind] in H.
    apply Rleb_true in H1. apply Rltb_true in H2.
    apply evaluateAt_R in H; [|lra]. destruct H as [tv [bv [Hv E]]].
    exists i, l, tv, bv. auto.
  - intros [i [l [tv [bv [Hl [[H1 H2] [Hv E]]]]]]].
    assert (Hi : v_layerNumberBelow m x = Ok i).
    { apply below_iff; [assumption|assumption|]. exists l. split; [assumption|].
      split; [apply Rleb_true; assumption|apply Rltb_true; assumption]. }
    rewrite Hi. cbn [bind]. rewrite (nth_layer_py _ _ _ Hl). cbn [bind].
    apply evaluateAt_R; [lra|]. eauto.
Qed.
Lemma evaluateAbove_iff : forall (m : vmodel R) x prop v, contiguous (vm_layers m) -> thick (vm_layers m) ->
  (evaluateAbove m x prop = Ok v <->
   exists i l tv bv, nth_layer (vm_layers m) i l /\ (vl_topDepth l < x <= vl_botDepth l)%R /\
     values l prop tv bv /\ v = line (vl_topDepth l) tv (vl_botDepth l) bv x).
Proof.
  intros m x prop v Hc Ht. unfold evaluateAbove. split.
  - intros H. inv_as H as i Hi. apply above_iff in Hi; [|assumption|assumption].
    destruct Hi as [l [Hl [H1 H2]]]. rewrite (nth_layer_py _ _ _ Hl) in H. cbn [bind] in H.
    apply Rltb_true in H1. apply Rleb_true in H2.
    apply evaluateAt_R in H; [|lra]. destruct H as [tv [bv [Hv E]]].
    exists i, l, tv, bv. auto.
  - intros [i [l [tv [bv [Hl [[H1 H2] [Hv E]]]]]]].
    assert (Hi : v_layerNumberAbove m x = Ok i).
    { apply above_iff; [assumption|assumption|]. exists l. split; [assumption|].
      split; [apply Rltb_true; assumption|apply Rleb_true; assumption]. }
    rewrite Hi. cbn [bind]. rewrite (nth_layer_py _ _ _ Hl). cbn [bind].
    apply evaluateAt_R; [lra|]. eauto.
Qed.

Lemma evaluate_errors : forall (m : vmodel R) x prop, contiguous (vm_layers m) -> thick (vm_layers m) ->
  ((exists v, evaluateBelow m x prop = Ok v) \/ evaluateBelow m x prop = Raise TauPException) /\
  ((exists v, evaluateAbove m x prop = Ok v) \/ evaluateAbove m x prop = Raise TauPException).
Proof.
  intros m x prop Hc Ht. unfold evaluateBelow, evaluateAbove.
  assert (H : forall l, (vl_topDepth l < vl_botDepth l)%R ->
             (exists v, evaluateAt l x prop = Ok v) \/ evaluateAt l x prop = Raise TauPException).
  { intros l Hl. destruct (prop_sel l prop) as [[tv bv]|] eqn:E.
    - left. eexists. apply evaluateAt_R; [assumption|]. exists tv, bv. split; [|reflexivity].
      apply values_iff. assumption.
    - right. rewrite evaluateAt_sel, E. reflexivity. }
  destruct (lookup_total m x) as [Hb Ha]. split.
  - destruct Hb as [[i Hi]|Hb]; [|rewrite Hb; auto].
    rewrite Hi. cbn [bind]. apply below_iff in Hi; [|assumption|assumption].
    destruct Hi as [l [Hl _]]. rewrite (nth_layer_py _ _ _ Hl). cbn [bind].
    apply H. apply Rltb_true. apply Ht. eapply nth_layer_In. eassumption.
  - destruct Ha as [[i Hi]|Ha]; [|rewrite Ha; auto].
    rewrite Hi. cbn [bind]. apply above_iff in Hi; [|assumption|assumption].
    destruct Hi as [l [Hl _]]. rewrite (nth_layer_py _ _ _ Hl). cbn [bind].
    apply H. apply Rltb_true. apply Ht. eapply nth_layer_In. eassumption.
Qed.

(** the line stays between its end values *)
Lemma line_between : forall x0 y0 x1 y1 x, (x0 < x1 -> x0 <= x <= x1 ->
  Rmin y0 y1 <= line x0 y0 x1 y1 x <= Rmax y0 y1)%R.
Proof.
  intros x0 y0 x1 y1 x H Hx. unfold line.
  assert (Hr : (0 <= (x - x0) / (x1 - x0) <= 1)%R).
  { split.
    - apply Rmult_le_pos; [lra|]. left. apply Rinv_0_lt_compat. lra.
    - apply (Rmult_le_reg_r (x1 - x0)); [lra|]. unfold Rdiv. rewrite Rmult_assoc, Rinv_l; lra. }
  set (r := ((x - x0) / (x1 - x0))%R) in *. unfold Rmin, Rmax. destruct (Rle_dec y0 y1); nra.
Qed.
Lemma line_ends : forall x0 y0 x1 y1, (x0 < x1)%R ->
  line x0 y0 x1 y1 x0 = y0 /\ line x0 y0 x1 y1 x1 = y1.
Proof.
  intros. unfold line, Rdiv. split.
  - replace (x0 - x0)%R with 0%R by ring. ring.
  - rewrite Rinv_r by lra. ring.
Qed.

(** a model is continuous in a property when it takes the same value on both sides of
    every boundary *)
Lemma evaluate_agree : forall (m : vmodel R) x prop v w, contiguous (vm_layers m) -> thick (vm_layers m) ->
  (forall i a b ta ba tb bb, nth_layer (vm_layers m) i a -> nth_layer (vm_layers m) (i + 1) b ->
     vl_botDepth a = x -> values a prop ta ba -> values b prop tb bb -> ba = tb) ->
  evaluateAbove m x prop = Ok v -> evaluateBelow m x prop = Ok w -> v = w.
Proof.
  intros m x prop v w Hc Ht Hcont Ha Hb.
  apply evaluateAbove_iff in Ha; [|assumption|assumption].
  apply evaluateBelow_iff in Hb; [|assumption|assumption].
  destruct Ha as [i [a [ta [ba [Na [Xa [Va ->]]]]]]].
  destruct Hb as [j [b [tb [bb [Nb [Xb [Vb ->]]]]]]].
  destruct (Req_EM_T x (vl_botDepth a)) as [E|E].
  - (* on a boundary *)
    assert (Hi : v_layerNumberBelow m x = Ok j).
    { apply below_iff; [assumption|assumption|]. exists b. split; [assumption|].
      split; [apply Rleb_true; lra|apply Rltb_true; lra]. }
    destruct (nth_error (vm_layers m) (Z.to_nat (i + 1))) as [b'|] eqn:En.
    + assert (Nb' : nth_layer (vm_layers m) (i + 1) b') by (destruct Na; split; [lia|assumption]).
      destruct (lookup_boundary m i a b' x Hc Ht Na Nb') as [_ H].
      { apply Reqb_true. assumption. }
      rewrite Hi in H. inversion H; subst j.
      pose proof (nth_layer_fun _ _ _ _ Nb Nb'). subst b'.
      assert (ba = tb) by (exact (Hcont _ _ _ _ _ _ _ Na Nb (eq_sym E) Va Vb)). subst tb.
      pose proof (Hc _ _ _ Na Nb) as J. apply Reqb_true in J.
      assert (Xb0 : x = vl_topDepth b) by congruence.
      transitivity ba.
      * rewrite E. apply line_ends. lra.
      * rewrite Xb0. symmetry. apply line_ends. lra.
    + (* a is the last layer: x is not inside below *)
      exfalso. destruct Nb as [Hj Nb].
      assert (i + 1 > j)%Z.
      { apply nth_error_None in En. assert (nth_error (vm_layers m) (Z.to_nat j) <> None) by congruence.
        apply nth_error_Some in H. lia. }
      assert (Hle : (vl_botDepth b <= vl_botDepth a)%R).
      { apply Rleb_true. destruct (vm_layers m) as [|f ls] eqn:El; [destruct (Z.to_nat j); discriminate|].
        assert (Hl : last ls f = a).
        { destruct Na as [Hi0 Na]. clear - Na En Hi0.
          replace (Z.to_nat (i + 1)) with (S (Z.to_nat i)) in En by lia.
          revert f Na En. generalize (Z.to_nat i) as n. clear. intros n. revert ls.
          induction n as [|n IH]; intros ls f Na En; simpl in *.
          - inversion Na; subst. destruct ls; [reflexivity|discriminate].
          - destruct ls as [|g ls]; [destruct n; discriminate|]. rewrite last_cons. apply IH; assumption. }
        rewrite <- Hl. exact (last_bot ls f Hc Ht b (nth_error_In _ _ Nb)). }
      lra.
  - assert (Hi : v_layerNumberBelow m x = Ok j).
    { apply below_iff; [assumption|assumption|]. exists b. split; [assumption|].
      split; [apply Rleb_true; lra|apply Rltb_true; lra]. }
    assert (Hi' : v_layerNumberBelow m x = Ok i).
    { apply below_iff; [assumption|assumption|]. exists a. split; [assumption|].
      split; [apply Rleb_true; lra|apply Rltb_true; lra]. }
    rewrite Hi in Hi'. inversion Hi'; subst.
    pose proof (nth_layer_fun _ _ _ _ Na Nb). subst.
    apply values_iff in Va, Vb. rewrite Va in Vb. inversion Vb. reflexivity.
Qed.

(** ** validate *)
Section Validate.
  Context {T : Type} {N : Num T} {O : NumOrd T}.
  Local Open Scope num_scope.

  Lemma ltb_iff : forall a b : T, n_ok a -> n_ok b -> (a <=? b = false <-> b <? a = true).
  Proof.
    intros a b Ha Hb. rewrite ord_ltb by assumption. destruct (a <=? b); simpl; split; congruence.
  Qed.
  Lemma leb_iff : forall a b : T, n_ok a -> n_ok b -> (a <? b = false <-> b <=? a = true).
  Proof.
    intros a b Ha Hb. rewrite ord_ltb by assumption. destruct (b <=? a); simpl; split; congruence.
  Qed.

  Definition layer_numbers (l : vlayer T) : Prop :=
    n_ok (vl_topDepth l) /\ n_ok (vl_botDepth l) /\ n_ok (vl_topP l) /\ n_ok (vl_botP l) /\
    n_ok (vl_topS l) /\ n_ok (vl_botS l).

  Lemma layer_ok_iff : forall l, layer_numbers l ->
    layer_ok l <->
    (vl_botDepth l =? vl_topDepth l = false /\
     (vl_topP l <=? n_0) || (vl_botP l <=? n_0) = false /\
     (vl_topS l <? n_0) || (vl_botS l <? n_0) = false /\
     ((vl_topP l <>? n_0) && (vl_botP l =? n_0)) || ((vl_topP l =? n_0) && (vl_botP l <>? n_0)) = false /\
     ((vl_topS l <>? n_0) && (vl_botS l =? n_0)) || ((vl_topS l =? n_0) && (vl_botS l <>? n_0)) = false).
  Proof.
    intros l [H1 [H2 [H3 [H4 [H5 H6]]]]]. pose proof n_0_ok as H0. unfold layer_ok.
    rewrite !orb_false_iff, !ltb_iff, !leb_iff by assumption.
    rewrite (eqb_sym (vl_topDepth l)).
    split.
    - intros [A [B [C [D' [E F]]]]]. repeat split; auto.
      + destruct (vl_botDepth l =? vl_topDepth l); [exfalso; apply A; reflexivity|reflexivity].
      + rewrite (ltb_gneqb _ _ C). apply andb_false_r.
      + rewrite (ltb_gneqb _ _ B). reflexivity.
      + destruct (vl_botS l =? n_0) eqn:G; [|apply andb_false_r].
        rewrite (proj2 F eq_refl). reflexivity.
      + destruct (vl_botS l =? n_0) eqn:G; [apply andb_false_r|].
        destruct (vl_topS l =? n_0) eqn:G2; [|reflexivity].
        assert (X := proj1 F eq_refl). discriminate X.
    - intros [A [[B C] [[D' E] [[F G] [H I]]]]].
      repeat split; auto.
      + rewrite A. discriminate.
      + intros J. rewrite J in I. simpl in I. destruct (vl_botS l =? n_0); [reflexivity|discriminate].
      + intros J. rewrite J in H. rewrite andb_true_r in H.
        destruct (vl_topS l =? n_0); [reflexivity|discriminate].
  Qed.

  Lemma contiguous_cons : forall (x y : vlayer T) ls,
    contiguous (x :: y :: ls) <-> vl_botDepth x =? vl_topDepth y = true /\ contiguous (y :: ls).
  Proof.
    intros x y ls. split.
    - intros H. split; [eapply contiguous_head; eassumption|eapply contiguous_tail; eassumption].
    - intros [H1 H2] i a b Ha Hb. apply nth_layer_cons in Ha. destruct Ha as [[-> ->]|[Hi Ha]].
      + apply (nth_layer_S x (y :: ls) 0 b ltac:(lia)) in Hb.
        apply nth_layer_0 in Hb. destruct Hb as [r Hb]. inversion Hb; subst. assumption.
      + apply (nth_layer_S x (y :: ls) i b ltac:(lia)) in Hb. replace i with (i - 1 + 1)%Z in Hb by lia.
        exact (H2 _ _ _ Ha Hb).
  Qed.

  Lemma validate_layers_iff : forall ls p, (forall l, In l ls -> layer_numbers l) ->
    v_validate_layers p ls = true <->
    (match ls with [] => True | l :: _ => p =? vl_topDepth l = true end) /\
    contiguous ls /\ forall l, In l ls -> layer_ok l.
  Proof.
    induction ls as [|c ls IH]; intros p Hn; simpl.
    - split; [|reflexivity]. intros _. split; [exact I|]. split; [|intros l0 []].
      intros i a b Ha. destruct (nth_layer_nil _ _ Ha).
    - assert (Hc : layer_numbers c) by (apply Hn; left; reflexivity).
      assert (Hn' : forall l, In l ls -> layer_numbers l) by (intros; apply Hn; right; assumption).
      specialize (IH (vl_botDepth c) Hn').
      assert (K : contiguous (c :: ls) <->
                  (match ls with [] => True | l :: _ => vl_botDepth c =? vl_topDepth l = true end)
                  /\ contiguous ls).
      { destruct ls as [|y ls].
        - split.
          + intros _. split; [exact I|]. intros i a b Ha. destruct (nth_layer_nil _ _ Ha).
          + intros _ i a b Ha Hb. apply nth_layer_cons in Hb. destruct Hb as [[Hb _]|[_ Hb]].
            * destruct Ha as [Ha _]. lia.
            * destruct (nth_layer_nil _ _ Hb).
        - apply contiguous_cons. }
      rewrite K.
      pose proof (layer_ok_iff c Hc) as L.
      assert (M : (forall l, c = l \/ In l ls -> layer_ok l) <-> layer_ok c /\ forall l, In l ls -> layer_ok l).
      { split; [intros H; split; [apply H; auto|intros; apply H; auto]|intros [H1 H2] l [<-|Hl]; auto]. }
      rewrite M, L. clear M L K.
      destruct (p =? vl_topDepth c); simpl; [|split; [discriminate|intros [? _]; discriminate]].
      destruct (vl_botDepth c =? vl_topDepth c); simpl;
        [split; [discriminate|intros H; decompose [and] H; discriminate]|].
      destruct ((vl_topP c <=? n_0) || (vl_botP c <=? n_0)); simpl;
        [split; [discriminate|intros H; decompose [and] H; discriminate]|].
      destruct ((vl_topS c <? n_0) || (vl_botS c <? n_0)); simpl;
        [split; [discriminate|intros H; decompose [and] H; discriminate]|].
      destruct (((vl_topP c <>? n_0) && (vl_botP c =? n_0)) || ((vl_topP c =? n_0) && (vl_botP c <>? n_0)));
        simpl; [split; [discriminate|intros H; decompose [and] H; discriminate]|].
      destruct (((vl_topS c <>? n_0) && (vl_botS c =? n_0)) || ((vl_topS c =? n_0) && (vl_botS c <>? n_0)));
        simpl; [split; [discriminate|intros H; decompose [and] H; discriminate]|].
      rewrite IH. tauto.
  Qed.

  Lemma header_iff : forall (m : vmodel T) (k : result bool), model_numbers m ->
    (if vm_radius m <=? n_0 then Ok false
     else if vm_moho m <? n_0 then Ok false
     else if vm_cmb m <? vm_moho m then Ok false
     else if vm_cmb m <=? n_0 then Ok false
     else if vm_iocb m <? vm_cmb m then Ok false
     else if vm_iocb m <=? n_0 then Ok false
     else if vm_minRadius m <? n_0 then Ok false
     else if vm_maxRadius m <=? n_0 then Ok false
     else if vm_maxRadius m <=? vm_minRadius m then Ok false
     else k) = (if andb (n_0 <? vm_radius m) (andb (n_0 <=? vm_moho m) (andb (vm_moho m <=? vm_cmb m)
                (andb (vm_cmb m <=? vm_iocb m) (andb (n_0 <? vm_cmb m) (andb (n_0 <=? vm_minRadius m)
                (vm_minRadius m <? vm_maxRadius m)))))) then k else Ok false).
  Proof.
    intros m k [H1 [H2 [H3 [H4 [H5 [H6 _]]]]]]. pose proof n_0_ok as H0.
    assert (A : forall a b : T, n_ok a -> n_ok b -> a <=? b = negb (b <? a)).
    { intros. rewrite ord_ltb by assumption. rewrite negb_involutive. reflexivity. }
    assert (B : forall a b : T, n_ok a -> n_ok b -> a <? b = negb (b <=? a)).
    { intros. apply ord_ltb; assumption. }
    rewrite (A (vm_radius m) n_0), (B (vm_moho m) n_0), (B (vm_cmb m) (vm_moho m)), (A (vm_cmb m) n_0),
      (B (vm_iocb m) (vm_cmb m)), (B (vm_minRadius m) n_0), (A (vm_maxRadius m) (vm_minRadius m)) by assumption.
    destruct (n_0 <? vm_radius m); simpl; [|reflexivity].
    destruct (n_0 <=? vm_moho m); simpl; [|reflexivity].
    destruct (vm_moho m <=? vm_cmb m); simpl; [|reflexivity].
    destruct (vm_cmb m <=? vm_iocb m) eqn:E1; simpl; [|destruct (n_0 <? vm_cmb m); reflexivity].
    destruct (n_0 <? vm_cmb m) eqn:E2; simpl; [|reflexivity].
    rewrite (ltb_not_leb _ _ (ltb_leb_trans _ _ _ E2 E1)).
    destruct (n_0 <=? vm_minRadius m) eqn:E3; simpl; [|reflexivity].
    destruct (vm_minRadius m <? vm_maxRadius m) eqn:E4; simpl.
    - rewrite (ltb_not_leb _ _ (leb_ltb_trans _ _ _ E3 E4)). reflexivity.
    - destruct (vm_maxRadius m <=? n_0); reflexivity.
  Qed.

  Lemma validate_iff : forall m, model_numbers m -> vm_layers m <> [] ->
    (v_validate m = Ok true <->
       header_ok m /\ contiguous (vm_layers m) /\ forall l, In l (vm_layers m) -> layer_ok l) /\
    (v_validate m = Ok true \/ v_validate m = Ok false).
  Proof.
    intros m Hm Hne. unfold v_validate. rewrite header_iff by assumption.
    destruct (vm_layers m) as [|f ls] eqn:El; [congruence|].
    change (py_index (f :: ls) 0) with (@Ok (vlayer T) f). cbn [bind].
    assert (Hn : forall l, In l (f :: ls) -> layer_numbers l).
    { intros l Hl. destruct Hm as [_ [_ [_ [_ [_ [_ Hm]]]]]]. apply Hm. rewrite El. assumption. }
    pose proof (validate_layers_iff (f :: ls) (vl_topDepth f) Hn) as V.
    assert (E0 : vl_topDepth f =? vl_topDepth f = true) by (apply (Hn f); left; reflexivity).
    assert (Hh : header_ok m <-> andb (n_0 <? vm_radius m) (andb (n_0 <=? vm_moho m) (andb (vm_moho m <=? vm_cmb m)
                (andb (vm_cmb m <=? vm_iocb m) (andb (n_0 <? vm_cmb m) (andb (n_0 <=? vm_minRadius m)
                (vm_minRadius m <? vm_maxRadius m)))))) = true).
    { unfold header_ok. rewrite !andb_true_iff. tauto. }
    rewrite Hh.
    match goal with |- context [if ?b then _ else _] => destruct b end.
    - split; [|destruct (v_validate_layers _ _); auto].
      transitivity (v_validate_layers (vl_topDepth f) (f :: ls) = true).
      + split; [intros H; inversion H; reflexivity|intros ->; reflexivity].
      + rewrite V. tauto.
    - split; [|auto]. split; [discriminate|]. intros [H _]. discriminate.
  Qed.
End Validate.

(** ** fixDisconDepths *)
Lemma adjacent_nth : forall {A} (l : list A) k a b,
  nth_error (adjacent l) k = Some (a, b) <-> nth_error l k = Some a /\ nth_error l (S k) = Some b.
Proof.
  induction l as [|x l IH]; intros k a b.
  - simpl. destruct k; simpl; split; try discriminate; intros [? ?]; discriminate.
  - destruct l as [|y l].
    + simpl. destruct k as [|[|k]]; simpl; split; try discriminate; intros [? ?]; discriminate.
    + change (adjacent (x :: y :: l)) with ((x, y) :: adjacent (y :: l)).
      destruct k as [|k].
      * simpl. split; [intros H; inversion H; auto|intros [H1 H2]; inversion H1; inversion H2; reflexivity].
      * cbn [nth_error]. rewrite IH. reflexivity.
Qed.

Section Fix.
  Context {T : Type} {N : Num T} {O : NumOrd T}.
  Local Open Scope num_scope.

  Section Scan.
    Context {A : Type}.
    Variables (sel : A -> bool) (val dist : A -> T).

    Definition scan_step (s : T * T) (a : A) : T * T :=
      if sel a && (dist a <? fst s) then (dist a, val a) else s.

    Lemma scan_spec : forall l mn cur,
      let r := snd (fold_left scan_step l (mn, cur)) in
      (r = cur /\ forall k a, nth_error l k = Some a -> sel a = true -> dist a <? mn = false)
      \/ exists i a, nth_error l i = Some a /\ sel a = true /\ r = val a /\ dist a <? mn = true /\
           forall j b, nth_error l j = Some b -> sel b = true ->
             ((j < i)%nat -> dist b <=? dist a = false) /\ ((i < j)%nat -> dist b <? dist a = false).
    Proof.
      induction l as [|x l IH]; intros mn cur; simpl.
      - left. split; [reflexivity|]. intros [|k] a H; discriminate.
      - assert (ES : scan_step (mn, cur) x = if sel x && (dist x <? mn) then (dist x, val x) else (mn, cur))
          by reflexivity.
        rewrite ES. clear ES. destruct (sel x && (dist x <? mn)) eqn:E.
        + apply andb_prop in E. destruct E as [E1 E2].
          destruct (IH (dist x) (val x)) as [[H1 H2]|[i [a [Hn [Hs [Hr [Hd Hall]]]]]]].
          * right. exists 0%nat, x. simpl. split; [reflexivity|]. split; [assumption|]. split; [assumption|].
            split; [assumption|]. intros j b H H0. split; [lia|]. intros _. destruct j as [|j]; simpl in H.
            -- inversion H; subst. apply ltb_irrefl.
            -- eapply H2; eassumption.
          * right. exists (S i), a. simpl. split; [assumption|]. split; [assumption|]. split; [assumption|].
            split; [eapply ltb_trans; eassumption|]. intros j b H H0. split.
            -- destruct j as [|j]; simpl in H.
               ++ inversion H; subst. intros _. apply ltb_not_leb. assumption.
               ++ intros Hj. apply (Hall j b H H0). lia.
            -- destruct j as [|j]; simpl in H; [lia|]. intros Hj. apply (Hall j b H H0). lia.
        + destruct (IH mn cur) as [[H1 H2]|[i [a [Hn [Hs [Hr [Hd Hall]]]]]]].
          * left. split; [assumption|]. intros [|k] a H Hs; simpl in H; [|eapply H2; eassumption].
            inversion H; subst. rewrite Hs in E. assumption.
          * right. exists (S i), a. simpl. split; [assumption|]. split; [assumption|]. split; [assumption|].
            split; [assumption|]. intros j b H H0. split.
            -- destruct j as [|j]; simpl in H.
               ++ inversion H; subst. intros _. rewrite H0 in E. simpl in E.
                  destruct (dist b <=? dist a) eqn:F; [|reflexivity].
                  rewrite (leb_ltb_trans _ _ _ F Hd) in E. discriminate.
               ++ intros Hj. apply (Hall j b H H0). lia.
            -- destruct j as [|j]; simpl in H; [lia|]. intros Hj. apply (Hall j b H H0). lia.
    Qed.
  End Scan.

  Lemma scan_nearest : forall ls d0 lim dflt (sel : vlayer T * vlayer T -> bool) (cand : Z -> T -> Prop),
    (forall i x, cand i x <-> exists a b, nth_layer ls i a /\ nth_layer ls (i + 1) b /\
                                           x = vl_botDepth a /\ sel (a, b) = true) ->
    nearest_within cand d0 lim dflt
      (snd (fold_left (scan_step sel (fun ab => vl_botDepth (fst ab))
                                 (fun ab => n_abs (d0 - vl_botDepth (fst ab))))
                      (adjacent ls) (lim, dflt))).
  Proof.
    intros ls d0 lim dflt sel cand Hc.
    assert (K : forall i x, cand i x -> exists ab, nth_error (adjacent ls) (Z.to_nat i) = Some ab /\
                                            sel ab = true /\ x = vl_botDepth (fst ab) /\ (0 <= i)%Z).
    { intros i x H. apply Hc in H. destruct H as [a [b [[Hi Ha] [[_ Hb] [Hx Hs]]]]].
      exists (a, b). repeat split; auto. apply adjacent_nth. split; [assumption|].
      replace (S (Z.to_nat i)) with (Z.to_nat (i + 1)) by lia. assumption. }
    unfold nearest_within.
    destruct (scan_spec sel (fun ab => vl_botDepth (fst ab))
                (fun ab => n_abs (d0 - vl_botDepth (fst ab))) (adjacent ls) lim dflt)
      as [[H1 H2]|[i [ab [Hn [Hs [Hr [Hd Hall]]]]]]].
    - left. split; [assumption|]. intros i x H. destruct (K i x H) as [ab [Hab [Hs [-> _]]]].
      exact (H2 _ _ Hab Hs).
    - right. exists (Z.of_nat i). rewrite Hr. split; [|split; [assumption|]].
      + apply Hc. destruct ab as [a b]. exists a, b. apply adjacent_nth in Hn. destruct Hn as [Ha Hb].
        repeat split; auto; try lia.
        * rewrite Nat2Z.id. assumption.
        * replace (Z.to_nat (Z.of_nat i + 1)) with (S i) by lia. assumption.
      + intros j x H. destruct (K j x H) as [cd [Hcd [Hs' [-> Hj]]]].
        destruct (Hall _ _ Hcd Hs') as [H1 H2]. split; intros Hlt; [apply H1|apply H2]; lia.
  Qed.

  Lemma discon_iff : forall (ls : list (vlayer T)) i x, discon ls i x <->
    exists a b, nth_layer ls i a /\ nth_layer ls (i + 1) b /\ x = vl_botDepth a /\
      discon_between a b = true.
  Proof.
    intros. unfold discon, discon_between.
    split; intros [a [b [Ha [Hb [Hx H]]]]]; exists a, b;
      (split; [assumption|]; split; [assumption|]; split; [assumption|]).
    - destruct (vl_botP a =? vl_topP b); [|reflexivity].
      destruct (vl_botS a =? vl_topS b); [|reflexivity]. exfalso. auto.
    - destruct (vl_botP a =? vl_topP b); [|intros [? _]; discriminate].
      destruct (vl_botS a =? vl_topS b); [discriminate|intros [_ ?]; discriminate].
  Qed.

  Lemma discon_fs_iff : forall (ls : list (vlayer T)) i x, discon_fluid_solid ls i x <->
    exists a b, nth_layer ls i a /\ nth_layer ls (i + 1) b /\ x = vl_botDepth a /\
      discon_between a b && ((vl_botS a =? n_0) && (vl_topS b >? n_0)) = true.
  Proof.
    intros ls i x. unfold discon_fluid_solid. rewrite discon_iff. split.
    - intros [[a [b [Ha [Hb [Hx H]]]]] [a' [b' [Ha' [Hb' [H1 H2]]]]]].
      pose proof (nth_layer_fun _ _ _ _ Ha Ha'). pose proof (nth_layer_fun _ _ _ _ Hb Hb'). subst.
      exists a', b'. repeat split; try apply Ha'; try apply Hb'. rewrite H, H1, H2. reflexivity.
    - intros [a [b [Ha [Hb [Hx H]]]]]. apply andb_prop in H. destruct H as [H H'].
      apply andb_prop in H'. split; [exists a, b; auto|]. exists a, b. tauto.
  Qed.

  Lemma fix_fold : forall m l s,
    let f := fold_left (fix_step m) l s in
    (fx_mohoMin f, fx_moho f) =
      fold_left (scan_step (fun ab => discon_between (fst ab) (snd ab)) (fun ab => vl_botDepth (fst ab))
                           (fun ab => n_abs (vm_moho m - vl_botDepth (fst ab)))) l (fx_mohoMin s, fx_moho s) /\
    (fx_cmbMin f, fx_cmb f) =
      fold_left (scan_step (fun ab => discon_between (fst ab) (snd ab)) (fun ab => vl_botDepth (fst ab))
                           (fun ab => n_abs (vm_cmb m - vl_botDepth (fst ab)))) l (fx_cmbMin s, fx_cmb s) /\
    (fx_iocbMin f, fx_iocb f) =
      fold_left (scan_step (fun ab => discon_between (fst ab) (snd ab) &&
                                      ((vl_botS (fst ab) =? n_0) && (vl_topS (snd ab) >? n_0)))
                           (fun ab => vl_botDepth (fst ab))
                           (fun ab => n_abs (vm_iocb m - vl_botDepth (fst ab)))) l (fx_iocbMin s, fx_iocb s).
  Proof.
    intros m. induction l as [|[a b] l IH]; intros s; simpl; [auto|].
    destruct (IH (fix_step m s (a, b))) as [H1 [H2 H3]].
    assert (E : (fx_mohoMin (fix_step m s (a, b)), fx_moho (fix_step m s (a, b))) =
                scan_step (fun ab => discon_between (fst ab) (snd ab)) (fun ab => vl_botDepth (fst ab))
                  (fun ab => n_abs (vm_moho m - vl_botDepth (fst ab))) (fx_mohoMin s, fx_moho s) (a, b) /\
                (fx_cmbMin (fix_step m s (a, b)), fx_cmb (fix_step m s (a, b))) =
                scan_step (fun ab => discon_between (fst ab) (snd ab)) (fun ab => vl_botDepth (fst ab))
                  (fun ab => n_abs (vm_cmb m - vl_botDepth (fst ab))) (fx_cmbMin s, fx_cmb s) (a, b) /\
                (fx_iocbMin (fix_step m s (a, b)), fx_iocb (fix_step m s (a, b))) =
                scan_step (fun ab => discon_between (fst ab) (snd ab) &&
                                      ((vl_botS (fst ab) =? n_0) && (vl_topS (snd ab) >? n_0)))
                  (fun ab => vl_botDepth (fst ab))
                  (fun ab => n_abs (vm_iocb m - vl_botDepth (fst ab))) (fx_iocbMin s, fx_iocb s) (a, b)).
    { unfold fix_step, scan_step. cbn [fst snd].
      destruct (discon_between a b); simpl; [|auto].
      destruct (n_abs (vm_moho m - vl_botDepth a) <? fx_mohoMin s);
      destruct (n_abs (vm_cmb m - vl_botDepth a) <? fx_cmbMin s);
      destruct ((vl_botS a =? n_0) && (vl_topS b >? n_0));
      destruct (n_abs (vm_iocb m - vl_botDepth a) <? fx_iocbMin s); simpl; auto. }
    destruct E as [E1 [E2 E3]]. rewrite E1 in H1. rewrite E2 in H2. rewrite E3 in H3. auto.
  Qed.

  Lemma fix_spec : forall m,
    let m' := fst (fixDisconDepths m) in
    nearest_within (discon (vm_layers m)) (vm_moho m) (n_lit 65 0) n_0 (vm_moho m') /\
    nearest_within (discon (vm_layers m)) (vm_cmb m) (vm_radius m) (vm_radius m) (vm_cmb m') /\
    (exists ic,
      nearest_within (discon_fluid_solid (vm_layers m)) (vm_iocb m) (vm_radius m - n_lit 100 0)
                     (vm_radius m) ic /\
      (vm_cmb m' =? ic = true -> vm_iocb m' = vm_radius m) /\
      (vm_cmb m' =? ic = false -> vm_iocb m' = ic) /\
      (snd (fixDisconDepths m) = false <->
       vm_moho m =? vm_moho m' = true /\ vm_cmb m =? vm_cmb m' = true /\ vm_iocb m =? ic = true)).
  Proof.
    intros m m'. subst m'. unfold fixDisconDepths.
    set (s0 := mkFix _ _ _ _ _ _).
    destruct (fix_fold m (adjacent (vm_layers m)) s0) as [H1 [H2 H3]].
    set (f := fold_left (fix_step m) (adjacent (vm_layers m)) s0) in *. cbn [fst snd vm_moho vm_cmb vm_iocb].
    split; [|split; [|exists (fx_iocb f); split; [|split; [|split]]]].
    - change (fx_moho f) with (snd (fx_mohoMin f, fx_moho f)). rewrite H1.
      apply scan_nearest. intros. apply discon_iff.
    - change (fx_cmb f) with (snd (fx_cmbMin f, fx_cmb f)). rewrite H2.
      apply scan_nearest. intros. apply discon_iff.
    - change (fx_iocb f) with (snd (fx_iocbMin f, fx_iocb f)). rewrite H3.
      apply scan_nearest. intros. apply discon_fs_iff.
    - intros E. rewrite E. reflexivity.
    - intros E. rewrite E. reflexivity.
    - rewrite !orb_false_iff, !negb_false_iff. tauto.
  Qed.

  Lemma fix_rest : forall m : vmodel T, let m' := fst (fixDisconDepths m) in
    vm_layers m' = vm_layers m /\ vm_radius m' = vm_radius m /\ vm_name m' = vm_name m /\
    vm_minRadius m' = vm_minRadius m /\ vm_maxRadius m' = vm_maxRadius m /\
    vm_spherical m' = vm_spherical m.
  Proof. intros m. unfold fixDisconDepths. simpl. auto 10. Qed.
End Fix.

(** ** reading .tvel files *)
Lemma is_space_iff : forall c, is_space c = true <-> space c.
Proof.
  intros c. unfold is_space, space. rewrite orb_true_iff, !andb_true_iff, !Nat.leb_le. tauto.
Qed.

Lemma before_hash_content : forall l, content l (before_hash l).
Proof.
  intros l. induction l as [|c l [IH1 IH2]]; simpl.
  - split; [|auto]. intros [a [b H]]. destruct a; discriminate.
  - destruct (Ascii.eqb_spec c "#") as [->|Hc].
    + split; [intros [a [b H]]; destruct a; discriminate|]. right. exists l. reflexivity.
    + split.
      * intros [a [b H]]. destruct a as [|x a]; simpl in H; inversion H; subst; [congruence|].
        apply IH1. exists a, b. assumption.
      * destruct IH2 as [IH2|[r IH2]]; [left; congruence|]. right. exists r. simpl. congruence.
Qed.
Lemma content_fun : forall l s, content l s -> s = before_hash l.
Proof.
  intros l s. revert l. induction s as [|c s IH]; intros l [H1 H2].
  - destruct H2 as [->|[r ->]]; reflexivity.
  - assert (Hc : c <> "#"%char).
    { intros ->. apply H1. exists "", s. reflexivity. }
    assert (Hs : ~ has_char "#" s).
    { intros [a [b ->]]. apply H1. exists (String c a), b. reflexivity. }
    destruct H2 as [->|[r ->]]; simpl; destruct (Ascii.eqb_spec c "#"); try contradiction; f_equal.
    + apply IH. split; auto.
    + apply IH. split; [assumption|]. right. exists r. reflexivity.
Qed.

Lemma all_chars_app : forall P a b, all_chars P (a ++ b)%string <-> all_chars P a /\ all_chars P b.
Proof.
  unfold all_chars. induction a as [|c a IH]; intros b; simpl.
  - split; [intros H; split; [constructor|assumption]|tauto].
  - split.
    + intros H. inversion H; subst. apply IH in H3. destruct H3. split; [constructor; assumption|assumption].
    + intros [H1 H2]. inversion H1; subst. constructor; [assumption|]. apply IH. auto.
Qed.
Lemma all_chars_rev : forall P a, all_chars P a -> all_chars P (str_rev a).
Proof.
  intros P. induction a as [|c a IH]; intros H; [exact H|].
  rewrite str_rev_cons. inversion H; subst. apply all_chars_app. split; [apply IH; assumption|].
  constructor; [assumption|constructor].
Qed.
Lemma str_rev_nonempty : forall a, a <> "" -> str_rev a <> "".
Proof.
  intros [|c a] H; [congruence|]. rewrite str_rev_cons. destruct (str_rev a); discriminate.
Qed.

Lemma split_go_words : forall s cur, all_chars (fun c => ~ space c) cur ->
  words (str_rev cur ++ s)%string (split_go s cur).
Proof.
  induction s as [|c s IH]; intros cur Hc; simpl.
  - rewrite str_app_nil_r. destruct cur as [|x cur]; [constructor|].
    apply words_end; [apply str_rev_nonempty; discriminate|apply all_chars_rev; assumption].
  - destruct (is_space c) eqn:E.
    + apply is_space_iff in E. assert (IH0 := IH "" (Forall_nil _)). simpl in IH0.
      destruct cur as [|x cur].
      * apply words_space; assumption.
      * apply words_word; auto; [apply str_rev_nonempty; discriminate|apply all_chars_rev; assumption].
    + assert (E' : ~ space c) by (rewrite <- is_space_iff; congruence).
      specialize (IH (String c cur)). rewrite str_rev_cons in IH.
      rewrite str_app_assoc in IH. apply IH. constructor; assumption.
Qed.

Lemma split_go_nospace : forall w s cur, all_chars (fun c => ~ space c) w ->
  split_go (w ++ s)%string cur = split_go s (str_rev w ++ cur)%string.
Proof.
  induction w as [|c w IH]; intros s cur H; simpl; [reflexivity|].
  inversion H; subst. destruct (is_space c) eqn:E; [apply is_space_iff in E; contradiction|].
  rewrite IH by assumption. rewrite str_rev_cons, str_app_assoc. reflexivity.
Qed.

Lemma words_fun : forall s l, words s l -> l = str_split s.
Proof.
  unfold str_split. induction 1 as [|c s l Hs Hw IH|w Hne Hw|w c s l Hne Hw Hs Hws IH].
  - reflexivity.
  - simpl. apply is_space_iff in Hs. rewrite Hs. assumption.
  - rewrite <- (str_app_nil_r w) at 2. rewrite split_go_nospace by assumption.
    rewrite str_app_nil_r. simpl. pose proof (str_rev_nonempty w Hne).
    destruct (str_rev w) eqn:E; [congruence|]. rewrite <- E, str_rev_involutive. reflexivity.
  - rewrite split_go_nospace by assumption. rewrite str_app_nil_r. simpl.
    apply is_space_iff in Hs. rewrite Hs. pose proof (str_rev_nonempty w Hne).
    destruct (str_rev w) eqn:E; [congruence|]. rewrite <- E, str_rev_involutive, IH. reflexivity.
Qed.
Lemma str_split_words : forall s, words s (str_split s).
Proof. intros s. exact (split_go_words s "" (Forall_nil _)). Qed.

Section Reading.
  Context {T : Type} {N : Num T}.
  Local Open Scope num_scope.
  Variable py_float : string -> option T.

  Lemma col_spec : forall cols i,
    float_col py_float cols (Z.of_nat i) =
    match nth_error cols i with
    | None => Raise IndexError
    | Some c => match py_float c with Some x => Ok x | None => Raise ValueError end
    end.
  Proof. intros. unfold float_col. rewrite py_index_nat. destruct (nth_error cols i); reflexivity. Qed.

  Lemma read_row_iff : forall line r, read_row py_float line = Ok r <-> row_of py_float line r.
  Proof.
    intros line r. unfold read_row.
    change 0%Z with (Z.of_nat 0). change 1%Z with (Z.of_nat 1). change 2%Z with (Z.of_nat 2).
    change 3%Z with (Z.of_nat 3). rewrite !col_spec.
    set (cols := str_split (before_hash line)). split.
    - intros H. inv_as H as x Hx. inv_as H as p Hp. inv_as H as v Hv.
      destruct (v >? p) eqn:E; [discriminate|].
      destruct (Nat.eqb_spec (List.length cols) 4) as [Hl|Hl]; [|discriminate]. cbn [negb] in H.
      inv_as H as rho Hr. inversion H; subst r. unfold cols in *.
      assert (W := str_split_words (before_hash line)).
      destruct (str_split (before_hash line)) as [|c0 [|c1 [|c2 [|c3 [|c4 cs]]]]]; try discriminate Hl.
      simpl in *.
      exists (before_hash line), c0, c1, c2, c3, x, p, v, rho.
      split; [apply before_hash_content|]. split; [assumption|]. split; [reflexivity|].
      destruct (py_float c0), (py_float c1), (py_float c2), (py_float c3); try discriminate.
      inversion Hx; inversion Hp; inversion Hv; inversion Hr; subst. auto 10.
    - intros [s [c0 [c1 [c2 [c3 [x [p [v [rho [Hc [Hw [-> [H0 [H1 [H2 [H3 E]]]]]]]]]]]]]]]].
      apply content_fun in Hc. subst s. apply words_fun in Hw. unfold cols. rewrite <- Hw. simpl.
      rewrite H0, H1, H2, H3. cbn [bind]. rewrite E. reflexivity.
  Qed.

  Lemma read_row_raise : forall line e, read_row py_float line = Raise e <-> bad_row py_float line e.
  Proof.
    intros line e. unfold read_row.
    change 0%Z with (Z.of_nat 0). change 1%Z with (Z.of_nat 1). change 2%Z with (Z.of_nat 2).
    change 3%Z with (Z.of_nat 3). rewrite !col_spec.
    assert (K : bad_row py_float line e <-> exists cols, cols = str_split (before_hash line) /\
      (((List.length cols < 3)%nat /\ (forall c, In c cols -> py_float c <> None) /\ e = IndexError)
     \/ ((exists i c, (i < 3)%nat /\ nth_error cols i = Some c /\ py_float c = None) /\ e = ValueError)
     \/ exists c0 c1 c2 rest d p v,
          cols = c0 :: c1 :: c2 :: rest /\ py_float c0 = Some d /\ py_float c1 = Some p /\
          py_float c2 = Some v /\
          ((v >? p = true /\ e = TauPException)
           \/ (v >? p = false /\ List.length cols <> 4%nat /\ e = ValueError)
           \/ (v >? p = false /\ (exists c3, rest = [c3] /\ py_float c3 = None) /\ e = ValueError)))).
    { unfold bad_row. split.
      - intros [s [cols [Hc [Hw H]]]]. apply content_fun in Hc. subst s. apply words_fun in Hw.
        exists cols. auto.
      - intros [cols [-> H]]. exists (before_hash line), (str_split (before_hash line)).
        split; [apply before_hash_content|]. split; [apply str_split_words|]. assumption. }
    rewrite K. clear K.
    set (cols := str_split (before_hash line)). clearbody cols. split.
    - intros H. exists cols. split; [reflexivity|].
      destruct cols as [|c0 cols]; [simpl in H; inversion H; left; simpl; split; [lia|]; split; [intros c []|reflexivity]|].
      simpl in H. destruct (py_float c0) as [x|] eqn:E0;
        [|right; left; simpl in H; inversion H; split; [exists 0%nat, c0; auto|reflexivity]].
      destruct cols as [|c1 cols].
      { simpl in H; inversion H; left; simpl; split; [lia|]; split; [|reflexivity].
        intros c [<-|[]]. congruence. }
      simpl in H. destruct (py_float c1) as [p|] eqn:E1;
        [|right; left; simpl in H; inversion H; split; [exists 1%nat, c1; auto|reflexivity]].
      destruct cols as [|c2 cols].
      { simpl in H; inversion H; left; simpl; split; [lia|]; split; [|reflexivity].
        intros c [<-|[<-|[]]]; congruence. }
      simpl in H. destruct (py_float c2) as [v|] eqn:E2;
        [|right; left; simpl in H; inversion H; split; [exists 2%nat, c2; auto|reflexivity]].
      right. right. exists c0, c1, c2, cols, x, p, v.
      split; [reflexivity|]. split; [assumption|]. split; [assumption|]. split; [assumption|].
      simpl in H. destruct (v >? p); [inversion H; auto|]. right.
      destruct cols as [|c3 [|c4 cols]]; simpl in H; try (inversion H; left; split; [reflexivity|split; [simpl; lia|reflexivity]]).
      destruct (py_float c3) eqn:E3; simpl in H; inversion H. right. split; [reflexivity|]. split; [|reflexivity].
      exists c3. auto.
    - intros [cols' [<- H]]. destruct H as [[Hl [Hf ->]]|[[[i [c [Hi [Hn Hf]]]] ->]|H]].
      + destruct cols' as [|c0 [|c1 [|c2 cols]]]; simpl in *; try lia.
        * reflexivity.
        * destruct (py_float c0) eqn:E0; [reflexivity|]. exfalso. apply (Hf c0); auto.
        * destruct (py_float c0) eqn:E0; [|exfalso; apply (Hf c0); auto].
          destruct (py_float c1) eqn:E1; [reflexivity|]. exfalso. apply (Hf c1); auto.
      + destruct i as [|[|[|i]]]; [| | |lia].
        * rewrite Hn, Hf. reflexivity.
        * destruct cols' as [|c0 cols]; [discriminate|]. simpl in *. rewrite Hn, Hf.
          destruct (py_float c0); reflexivity.
        * destruct cols' as [|c0 [|c1 cols]]; try discriminate. simpl in *. rewrite Hn, Hf.
          destruct (py_float c0), (py_float c1); reflexivity.
      + destruct H as [c0 [c1 [c2 [rest [x [p [v [-> [E0 [E1 [E2 H]]]]]]]]]]].
        simpl. rewrite E0, E1, E2. cbn [bind].
        destruct H as [[E ->]|[[E [Hl ->]]|[E [[c3 [-> E3]] ->]]]].
        * rewrite E. reflexivity.
        * rewrite E. destruct rest as [|c3 [|c4 rest]]; try reflexivity. simpl in Hl. congruence.
        * rewrite E. simpl. rewrite E3. reflexivity.
  Qed.

  Lemma read_row_total : forall line,
    (exists r, read_row py_float line = Ok r) \/ (exists e, read_row py_float line = Raise e).
  Proof.
    intros line. destruct (read_row py_float line) as [r|e|] eqn:E; eauto. exfalso.
    unfold read_row in E.
    change 0%Z with (Z.of_nat 0) in E. change 1%Z with (Z.of_nat 1) in E. change 2%Z with (Z.of_nat 2) in E.
    change 3%Z with (Z.of_nat 3) in E. rewrite !col_spec in E.
    set (cols := str_split (before_hash line)) in *. clearbody cols.
    destruct (nth_error cols 0) as [c|]; [destruct (py_float c)|]; cbn [bind] in E; try discriminate.
    destruct (nth_error cols 1) as [c1|]; [destruct (py_float c1)|]; cbn [bind] in E; try discriminate.
    destruct (nth_error cols 2) as [c2|]; [destruct (py_float c2)|]; cbn [bind] in E; try discriminate.
    match type of E with (if ?b then _ else _) = _ => destruct b end; try discriminate.
    match type of E with (if ?b then _ else _) = _ => destruct b end; try discriminate.
    destruct (nth_error cols 3) as [c3|]; [destruct (py_float c3)|]; cbn [bind] in E; try discriminate.
  Qed.

  Lemma read_rows_iff : forall lines n top ls bot,
    read_rows py_float lines n top = Ok (ls, bot) <->
    exists rows, Forall2 (row_of py_float) lines rows /\ layers_of n (top :: rows) ls /\
                 bot = last rows top.
  Proof.
    induction lines as [|line lines IH]; intros n top ls bot; cbn [read_rows].
    - split.
      + intros H. inversion H; subst. exists []. split; [constructor|]. split; [constructor|reflexivity].
      + intros [rows [H1 [H2 ->]]]. inversion H1; subst. inversion H2; subst. reflexivity.
    - split.
      + intros H. inv_as H as r Hr. apply read_row_iff in Hr.
        destruct top as [[[td tp] ts] tr]. destruct r as [[[bd bp] bs] br].
        destruct (td =? bd) eqn:E; cbn [negb] in H.
        * apply IH in H. destruct H as [rows [H1 [H2 H3]]].
          exists ((bd, bp, bs, br) :: rows). split; [constructor; assumption|]. split.
          -- apply lo_skip; assumption.
          -- rewrite last_cons. assumption.
        * inv_as H as [ls' bot'] Hrest. simpl in H. inversion H; subst. apply IH in Hrest.
          destruct Hrest as [rows [H1 [H2 H3]]].
          exists ((bd, bp, bs, br) :: rows). split; [constructor; assumption|]. split.
          -- apply lo_layer; assumption.
          -- rewrite last_cons. assumption.
      + intros [rows [H1 [H2 ->]]]. inversion H1 as [|? r ? rows' Hr Hrs]; subst.
        apply read_row_iff in Hr. rewrite Hr. cbn [bind]. rewrite last_cons.
        inversion H2; subst.
        * destruct top as [[[td tp] ts] tr]. destruct r as [[[bd bp] bs] br]. simpl in *.
          match goal with H : _ =? _ = true |- _ => rewrite H end. cbn [negb].
          apply IH. eauto.
        * match goal with H : _ =? _ = false |- _ => rewrite H end. cbn [negb].
          match goal with H : layers_of (n + 1) _ ?l |- _ =>
            assert (Hx : read_rows py_float lines (n + 1) (d2, p2, v2, g2) = Ok (l, last rows' (d2, p2, v2, g2)))
              by (apply IH; eauto) end.
          rewrite Hx. reflexivity.
  Qed.

  Lemma read_rows_raise : forall lines n top e,
    read_rows py_float lines n top = Raise e <->
    exists good line rest, lines = good ++ line :: rest /\
      (forall l, In l good -> exists r, row_of py_float l r) /\ bad_row py_float line e.
  Proof.
    induction lines as [|line lines IH]; intros n top e; cbn [read_rows].
    - split; [discriminate|]. intros [good [line [rest [H _]]]]. destruct good; discriminate.
    - split.
      + intros H. destruct (read_row_total line) as [[r Hr]|[e' Hr]].
        * rewrite Hr in H. cbn [bind] in H.
          assert (H' : exists n' top', read_rows py_float lines n' top' = Raise e).
          { destruct top as [[[td tp] ts] tr]. destruct r as [[[bd bp] bs] br].
            destruct (td =? bd); cbn [negb] in H; [eauto|].
            destruct (read_rows py_float lines (n + 1) (bd, bp, bs, br)) eqn:E; try discriminate.
            simpl in H. inversion H; subst. eauto. }
          destruct H' as [n' [top' H']]. apply IH in H'.
          destruct H' as [good [bad [rest [-> [Hg Hb]]]]].
          exists (line :: good), bad, rest. split; [reflexivity|]. split; [|assumption].
          intros l [<-|Hl]; [|auto]. exists r. apply read_row_iff. assumption.
        * rewrite Hr in H. inversion H; subst. exists [], line, lines.
          split; [reflexivity|]. split; [intros l []|]. apply read_row_raise. assumption.
      + intros [good [bad [rest [H [Hg Hb]]]]]. destruct good as [|g good].
        * inversion H; subst. apply read_row_raise in Hb. rewrite Hb. reflexivity.
        * inversion H; subst. destruct (Hg g (or_introl eq_refl)) as [r Hr].
          apply read_row_iff in Hr. rewrite Hr. cbn [bind].
          assert (Hx : forall n' top', read_rows py_float (good ++ bad :: rest) n' top' = Raise e).
          { intros. apply IH. exists good, bad, rest. split; [reflexivity|]. split; [|assumption].
            intros; apply Hg; right; assumption. }
          destruct top as [[[td tp] ts] tr]. destruct r as [[[bd bp] bs] br].
          rewrite !Hx. destruct (_ =? _); reflexivity.
  Qed.

  Definition strip5 (b : string) : string := substring 0 (String.length b - 5) b.

  Lemma readTVel_iff : forall base lines m,
    readTVelFile py_float base lines = Ok m <->
    exists row rows, Forall2 (row_of py_float) (skipn 2 lines) (row :: rows) /\
      layers_of 0 (row :: rows) (vm_layers m) /\
      m = mkVModel (strip5 base) (row_depth (last rows row)) (n_lit 35 0) (n_lit 2889 0) (n_lit 51539 (-1))
                   n_0 (row_depth (last rows row)) true (vm_layers m).
  Proof.
    intros base lines m. unfold readTVelFile.
    assert (K : skipn 2 lines = [] /\ nth 2 lines "" = "" /\ skipn 3 lines = []
                \/ skipn 2 lines = nth 2 lines "" :: skipn 3 lines).
    { destruct lines as [|a [|b [|c l]]]; simpl; auto. }
    destruct K as [[K1 [K2 K3]]|K].
    - rewrite K2. split; [discriminate|]. intros [row [rows [H _]]]. rewrite K1 in H. inversion H.
    - rewrite K. split.
      + intros H. inv_as H as top Ht. inv_as H as [ls bot] Hr. apply read_row_iff in Ht.
        apply read_rows_iff in Hr. destruct Hr as [rows [H1 [H2 H3]]].
        destruct bot as [[[d p] s] g]. inversion H; subst m. simpl.
        exists top, rows. split; [constructor; assumption|]. split; [assumption|].
        rewrite <- H3. reflexivity.
      + intros [row [rows [H1 [H2 H3]]]]. inversion H1; subst.
        match goal with H : row_of _ _ _ |- _ => apply read_row_iff in H; rewrite H end. cbn [bind].
        assert (Hx : read_rows py_float (skipn 3 lines) 0 row = Ok (vm_layers m, last rows row))
          by (apply read_rows_iff; eauto).
        rewrite Hx. cbn [bind]. rewrite H3. cbn [vm_layers].
        destruct (last rows row) as [[[d p] s] g]. reflexivity.
  Qed.

  Lemma readTVel_raise : forall base lines e,
    readTVelFile py_float base lines = Raise e <->
    (skipn 2 lines = [] /\ e = IndexError) \/
    exists good line rest, skipn 2 lines = good ++ line :: rest /\
      (forall l, In l good -> exists r, row_of py_float l r) /\ bad_row py_float line e.
  Proof.
    intros base lines e. unfold readTVelFile.
    assert (K : skipn 2 lines = [] /\ nth 2 lines "" = "" /\ skipn 3 lines = []
                \/ skipn 2 lines = nth 2 lines "" :: skipn 3 lines).
    { destruct lines as [|a [|b [|c l]]]; simpl; auto. }
    destruct K as [[K1 [K2 K3]]|K].
    - rewrite K2, K1. split.
      + intros H. simpl in H. inversion H. auto.
      + intros [[_ ->]|[good [line [rest [H _]]]]]; [reflexivity|]. destruct good; discriminate.
    - rewrite K. split.
      + intros H. right. destruct (read_row_total (nth 2 lines "")) as [[r Hr]|[e' Hr]].
        * rewrite Hr in H. cbn [bind] in H.
          assert (Hx : read_rows py_float (skipn 3 lines) 0 r = Raise e).
          { destruct (read_rows py_float (skipn 3 lines) 0 r) as [[? [[[? ?] ?] ?]]| |]; simpl in H; congruence. }
          apply read_rows_raise in Hx. destruct Hx as [good [bad [rest [-> [Hg Hb]]]]].
          exists (nth 2 lines "" :: good), bad, rest. split; [reflexivity|]. split; [|assumption].
          intros l [<-|Hl]; [|auto]. exists r. apply read_row_iff. assumption.
        * rewrite Hr in H. inversion H; subst. exists [], (nth 2 lines ""), (skipn 3 lines).
          split; [reflexivity|]. split; [intros l []|]. apply read_row_raise. assumption.
      + intros [[H _]|[good [bad [rest [H [Hg Hb]]]]]]; [discriminate|]. destruct good as [|g good].
        * injection H as H1 H2. rewrite H1. apply read_row_raise in Hb. rewrite Hb. reflexivity.
        * injection H as H1 H2. rewrite H1. destruct (Hg g (or_introl eq_refl)) as [r Hr].
          apply read_row_iff in Hr. rewrite Hr. cbn [bind].
          assert (Hx : read_rows py_float (skipn 3 lines) 0 r = Raise e).
          { apply read_rows_raise. exists good, bad, rest. split; [assumption|]. split; [|assumption].
            intros; apply Hg; right; assumption. }
          rewrite Hx. reflexivity.
  Qed.

  Context {O : NumOrd T}.

  (** the layers read are contiguous and never of zero thickness *)
  Lemma layers_of_top : forall n rows (ls : list (vlayer T)), layers_of n rows ls ->
    (forall r, In r rows -> n_ok (row_depth r)) ->
    forall f g fs rs, ls = f :: fs -> rows = g :: rs -> row_depth g =? vl_topDepth f = true.
  Proof.
    induction 1 as [n r|n r1 r2 rs ls E H IH|n d1 p1 v1 g1 d2 p2 v2 g2 rs ls E H IH];
      intros Hok f g fs rs' El Er.
    - discriminate.
    - inversion Er; subst. eapply eqb_trans; [exact E|]. eapply IH; [|reflexivity|reflexivity].
      intros; apply Hok; right; assumption.
    - inversion Er; inversion El; subst. simpl. apply (Hok (d1, p1, v1, g1)). left. reflexivity.
  Qed.

  Lemma layers_of_contiguous : forall n rows (ls : list (vlayer T)), layers_of n rows ls ->
    (forall r, In r rows -> n_ok (row_depth r)) ->
    contiguous ls /\ (forall l, In l ls -> vl_topDepth l =? vl_botDepth l = false) /\
    (forall i l, nth_layer ls i l -> vl_num l = (n + i)%Z).
  Proof.
    induction 1 as [n r|n r1 r2 rs ls E H IH|n d1 p1 v1 g1 d2 p2 v2 g2 rs ls E H IH]; intros Hok.
    - split; [intros i a b Ha; destruct (nth_layer_nil _ _ Ha)|].
      split; [intros l []|intros i l Hl; destruct (nth_layer_nil _ _ Hl)].
    - apply IH. intros; apply Hok; right; assumption.
    - assert (Hok' : forall r, In r ((d2, p2, v2, g2) :: rs) -> n_ok (row_depth r))
        by (intros; apply Hok; right; assumption).
      destruct (IH Hok') as [H1 [H2 H3]]. split; [|split].
      + intros i a b Ha Hb. apply nth_layer_cons in Ha, Hb.
        destruct Hb as [[Hi _]|[Hi Hb]].
        { destruct Ha as [[? _]|[? _]]; lia. }
        replace (i + 1 - 1)%Z with i in Hb by lia.
        destruct Ha as [[-> ->]|[Hi' Ha]].
        * simpl. apply nth_layer_0 in Hb. destruct Hb as [r Hb].
          exact (layers_of_top _ _ _ H Hok' _ _ _ _ Hb eq_refl).
        * replace i with (i - 1 + 1)%Z in Hb by lia. exact (H1 _ _ _ Ha Hb).
      + intros l [<-|Hl]; [assumption|auto].
      + intros i l Hl. apply nth_layer_cons in Hl. destruct Hl as [[-> ->]|[Hi Hl]].
        * simpl. lia.
        * rewrite (H3 _ _ Hl). lia.
  Qed.

  Lemma readTVel_contiguous : forall base lines m,
    (forall s x, py_float s = Some x -> n_ok x) ->
    readTVelFile py_float base lines = Ok m ->
    contiguous (vm_layers m) /\ (forall l, In l (vm_layers m) -> vl_topDepth l =? vl_botDepth l = false) /\
    (forall i l, nth_layer (vm_layers m) i l -> vl_num l = i).
  Proof.
    intros base lines m Hf H. apply readTVel_iff in H. destruct H as [row [rows [H1 [H2 _]]]].
    destruct (layers_of_contiguous _ _ _ H2) as [A [B C]].
    - intros r Hr. clear H2. revert r Hr. revert H1. generalize (skipn 2 lines) as ll.
      generalize (row :: rows) as l. intros l ll H. induction H; intros r []; subst; auto.
      destruct H as [s [c0 [c1 [c2 [c3 [x0 [p [v [rho [_ [_ [-> [H _]]]]]]]]]]]]]. simpl. eauto.
    - split; [assumption|]. split; [assumption|]. intros i l Hl. rewrite (C _ _ Hl). lia.
  Qed.
End Reading.

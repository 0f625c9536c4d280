(** Proofs about [addSlowness]. *)
From Coq Require Import ZArith Bool List String Reals Lia Lra.
From Verif Require Import Base Num PyStr VelocityModel VelSpec VelProofs SlownessLayer SlownessModel
  SlowSpec SlowProofs CalcTimeProofs.
Import ListNotations.
Local Open Scope list_scope.
Local Open Scope num_scope.

Section Ids.
  Context {T : Type} {N : Num T}.

  Definition ids2 (l1 l2 : list (slayer T)) (next : Z) : Prop :=
    NoDup (map sl_id l1) /\ NoDup (map sl_id l2) /\
    (forall y, In y l1 \/ In y l2 -> (sl_id y < next)%Z) /\
    (forall y z, In y l1 -> In z l2 -> sl_id y = sl_id z -> y = z).

  Lemma ids2_sym : forall l1 l2 n, ids2 l1 l2 n -> ids2 l2 l1 n.
  Proof.
    intros l1 l2 n [A [B [C D]]]. split; [assumption|]. split; [assumption|]. split.
    - intros y [H|H]; apply C; tauto.
    - intros y z Hy Hz E. symmetry. apply D; auto.
  Qed.

  Definition sub1 (id : Z) (a b : slayer T) (i : Z) : option (slayer T * slayer T) :=
    if (i =? id)%Z then Some (a, b) else None.

  Lemma splice_cons : forall f y (l : list (slayer T)),
    splice f (y :: l) = match f (sl_id y) with Some (a, b) => [a; b] | None => [y] end ++ splice f l.
  Proof. reflexivity. Qed.
  Lemma splice_app : forall f (l l' : list (slayer T)), splice f (l ++ l') = splice f l ++ splice f l'.
  Proof. intros. unfold splice. apply flat_map_app. Qed.
  Lemma splice_none : forall f (l : list (slayer T)), (forall y, In y l -> f (sl_id y) = None) -> splice f l = l.
  Proof.
    intros f. induction l as [|y l IH]; intros H; [reflexivity|].
    rewrite splice_cons. rewrite (H y) by (left; reflexivity). cbn [app].
    rewrite IH; [reflexivity|]. intros z Hz. apply H. right. assumption.
  Qed.
  Lemma splice_ext : forall f g (l : list (slayer T)), (forall y, In y l -> f (sl_id y) = g (sl_id y)) ->
    splice f l = splice g l.
  Proof.
    intros f g. induction l as [|y l IH]; intros H; [reflexivity|].
    rewrite !splice_cons, IH by (intros z Hz; apply H; right; assumption).
    rewrite (H y) by (left; reflexivity). reflexivity.
  Qed.

  Lemma replace_shared_splice : forall id a b (l : list (slayer T)), NoDup (map sl_id l) ->
    replace_shared id a b l = splice (sub1 id a b) l.
  Proof.
    intros id a b. induction l as [|y l IH]; intros H; [reflexivity|].
    inversion H; subst. cbn [replace_shared]. rewrite splice_cons. unfold sub1 at 1.
    destruct (Z.eqb_spec (sl_id y) id) as [E|E].
    - cbn [app]. do 2 f_equal. symmetry. apply splice_none. intros z Hz. unfold sub1.
      destruct (Z.eqb_spec (sl_id z) id) as [F|F]; [|reflexivity].
      exfalso. apply H2. rewrite E, <- F. apply in_map. assumption.
    - cbn [app]. f_equal. apply IH. assumption.
  Qed.

  Lemma splice_In : forall f (l : list (slayer T)) y, In y (splice f l) ->
    (In y l /\ f (sl_id y) = None) \/
    exists z a b, In z l /\ f (sl_id z) = Some (a, b) /\ (y = a \/ y = b).
  Proof.
    intros f l y H. unfold splice in H. apply in_flat_map in H. destruct H as [z [Hz H]].
    destruct (f (sl_id z)) as [[a b]|] eqn:E.
    - right. exists z, a, b. split; [assumption|]. split; [assumption|].
      destruct H as [<-|[<-|[]]]; auto.
    - destruct H as [<-|[]]. left. auto.
  Qed.
  Lemma splice_In_keep : forall f (l : list (slayer T)) y, In y l -> f (sl_id y) = None -> In y (splice f l).
  Proof.
    intros f l y H E. unfold splice. apply in_flat_map. exists y. rewrite E. split; [assumption|left; reflexivity].
  Qed.
  Lemma splice_In_new : forall f (l : list (slayer T)) y a b, In y l -> f (sl_id y) = Some (a, b) ->
    In a (splice f l) /\ In b (splice f l).
  Proof.
    intros f l y a b H E. unfold splice. split; apply in_flat_map; exists y; rewrite E;
      (split; [assumption|simpl; auto]).
  Qed.

  Lemma NoDup_replace : forall (l1 : list (slayer T)) s l2 a b next,
    NoDup (map sl_id (l1 ++ s :: l2)) -> (forall y, In y (l1 ++ s :: l2) -> (sl_id y < next)%Z) ->
    (sl_id a = next + 1)%Z -> sl_id b = next ->
    NoDup (map sl_id (l1 ++ a :: b :: l2)).
  Proof.
    intros l1 s l2 a b next H Hn Ea Eb. rewrite map_app in *. cbn [map] in *.
    pose proof (NoDup_remove_1 _ _ _ H) as H1.
    assert (Old : forall x, In x (map sl_id l1 ++ map sl_id l2) -> (x < next)%Z).
    { intros x Hx. rewrite <- map_app in Hx. apply in_map_iff in Hx. destruct Hx as [y [<- Hy]].
      apply Hn. rewrite in_app_iff in *. simpl. tauto. }
    apply NoDup_Add with (a := sl_id a) (l := map sl_id l1 ++ sl_id b :: map sl_id l2);
      [apply Add_app|]. split.
    - apply NoDup_Add with (a := sl_id b) (l := map sl_id l1 ++ map sl_id l2); [apply Add_app|].
      split; [assumption|]. intros Hx. apply Old in Hx. lia.
    - intros Hx. rewrite in_app_iff in Hx. cbn [In] in Hx.
      assert (sl_id a = sl_id b \/ In (sl_id a) (map sl_id l1 ++ map sl_id l2)) by
        (rewrite in_app_iff; destruct Hx as [?|[?|?]]; auto).
      destruct H0 as [H0|H0]; [lia|]. apply Old in H0. lia.
  Qed.

  (** replacing one object by two new ones in both lists *)
  Lemma ids2_replace : forall (l1 : list (slayer T)) s l2 other a b next,
    ids2 (l1 ++ s :: l2) other next -> sl_id b = next -> (sl_id a = next + 1)%Z ->
    ids2 (l1 ++ a :: b :: l2) (splice (sub1 (sl_id s) a b) other) (next + 2).
  Proof.
    intros l1 s l2 other a b next [A [B [C D]]] Eb Ea. split; [|split; [|split]].
    - eapply NoDup_replace; try eassumption. intros y Hy. apply C. auto.
    - destruct (in_dec Z.eq_dec (sl_id s) (map sl_id other)) as [I|I].
      + apply in_map_iff in I. destruct I as [z [Ez Hz]].
        apply in_split in Hz. destruct Hz as [o1 [o2 ->]].
        rewrite splice_app, splice_cons. unfold sub1 at 2. rewrite Ez, Z.eqb_refl. cbn [app].
        assert (ND : forall x, In x (o1 ++ o2) -> sub1 (sl_id s) a b (sl_id x) = None).
        { intros x Hx. unfold sub1. destruct (Z.eqb_spec (sl_id x) (sl_id s)) as [F|F]; [|reflexivity].
          exfalso. rewrite map_app in B. cbn [map] in B. apply NoDup_remove_2 in B. apply B.
          rewrite <- map_app, Ez, <- F. apply in_map. assumption. }
        rewrite !splice_none by (intros x Hx; apply ND; rewrite in_app_iff; auto).
        eapply NoDup_replace; try eassumption. intros y Hy. apply C. auto.
      + rewrite splice_none; [assumption|]. intros y Hy. unfold sub1.
        destruct (Z.eqb_spec (sl_id y) (sl_id s)) as [F|F]; [|reflexivity].
        exfalso. apply I. rewrite <- F. apply in_map. assumption.
    - intros y [Hy|Hy].
      + rewrite in_app_iff in Hy. cbn [In] in Hy. destruct Hy as [Hy|[<-|[<-|Hy]]]; try lia.
        * assert (sl_id y < next)%Z by (apply C; left; rewrite in_app_iff; auto). lia.
        * assert (sl_id y < next)%Z by (apply C; left; rewrite in_app_iff; simpl; auto). lia.
      + apply splice_In in Hy. destruct Hy as [[Hy _]|[z [a' [b' [_ [Hz Hy]]]]]].
        * assert (sl_id y < next)%Z by (apply C; auto). lia.
        * unfold sub1 in Hz. destruct (_ =? _)%Z; inversion Hz; subst. destruct Hy; subst; lia.
    - intros y z Hy Hz E.
      assert (Old : In y (l1 ++ s :: l2) /\ sl_id y <> sl_id s \/ y = a \/ y = b).
      { rewrite map_app in A. cbn [map] in A. apply NoDup_remove_2 in A. rewrite <- map_app in A.
        rewrite in_app_iff in Hy. cbn [In] in Hy. destruct Hy as [Hy|[<-|[<-|Hy]]]; auto; left;
          (split; [rewrite in_app_iff; simpl; auto|]); intros F; apply A; rewrite <- F; apply in_map;
          rewrite in_app_iff; auto. }
      apply splice_In in Hz. destruct Hz as [[Hz Nz]|[z' [a' [b' [Hz' [Ez Hz]]]]]].
      + destruct Old as [[Hy' _]|[->| ->]].
        * apply D; assumption.
        * assert (sl_id z < next)%Z by (apply C; auto). lia.
        * assert (sl_id z < next)%Z by (apply C; auto). lia.
      + unfold sub1 in Ez. destruct (_ =? _)%Z; inversion Ez; subst a' b'.
        destruct Old as [[Hy' _]|[->| ->]].
        * assert (sl_id y < next)%Z by (apply C; auto). destruct Hz; subst; lia.
        * destruct Hz; subst; [reflexivity|lia].
        * destruct Hz; subst; [lia|reflexivity].
  Qed.
End Ids.

Section Add.
  Context {T : Type} {N : Num T} {O : NumOrd T}.

  Lemma layer_velocities_tv : forall vm (y : slayer T) tv bv, layer_velocities vm false y = Ok (tv, bv) ->
    (tv =? n_0 = true <-> fluid_there vm y).
  Proof.
    intros vm y tv bv H. unfold layer_velocities in H. unfold fluid_there.
    destruct (sl_topDepth y =? sl_botDepth y) eqn:E; cbn [negb] in H; inv_bind H; inv_bind H; inversion H; subst.
    - split; [intros E0; exists tv; auto|]. intros [v [Hv [[F _]|[_ F]]]]; [discriminate|]. congruence.
    - split; [intros E0; exists tv; auto|]. intros [v [Hv [[_ F]|[F _]]]]; [congruence|discriminate].
  Qed.

  Lemma split_pair_halves : forall radius p tv bv (s : slayer T) next a b,
    split_pair radius p tv bv s next = Ok (a, b) ->
    halves p s a b /\ n_0 <=? sl_botDepth a = true /\ sl_id b = next /\ sl_id a = (next + 1)%Z.
  Proof.
    intros radius p tv bv s next a b H. unfold split_pair in H. inv_as H as d Hd.
    inv_as H as b' Hb. inv_as H as a' Ha. inversion H; subst. unfold new_slayer in *.
    destruct (d >=? n_0) eqn:E; [|discriminate].
    destruct (sl_botDepth s >=? n_0); inversion Hb; subst.
    destruct (sl_topDepth s >=? n_0); inversion Ha; subst.
    unfold halves. simpl. tauto.
  Qed.

  Lemma bottom_not_spans : forall p (s a b : slayer T), halves p s a b ->
    ~ spans a p /\ ~ spans b p.
  Proof.
    intros p s a b [H1 [H2 [H3 [H4 [H5 [H6 H7]]]]]]. unfold spans. rewrite H3, H4.
    rewrite ord_self_split, ord_self_split_r. split; discriminate.
  Qed.

  (** what one pass of the loop does *)
  Definition cut_spec (vm : vmodel T) (radius : T) (next : Z) (innerS : bool) (p : T) (w : bool) (todo : list (slayer T))
             (f : Z -> option (slayer T * slayer T)) : Prop :=
    (forall id, f id <> None -> In id (map sl_id todo)) /\
    (forall y a b, In y todo -> f (sl_id y) = Some (a, b) ->
       spans y p /\ halves p y a b /\ n_0 <=? sl_botDepth a = true /\
       exists tv bv n, (next <= n)%Z /\ layer_velocities vm w y = Ok (tv, bv) /\
                       split_pair radius p tv bv y n = Ok (a, b)) /\
    (forall i y, nth_error todo i = Some y ->
       (f (sl_id y) = None <->
        ~ (spans y p /\
           (w = true \/
            (~ fluid_there vm y /\
             (innerS = true \/
              forall j z, (j <= i)%nat -> nth_error todo j = Some z -> vm_iocb vm <? sl_botDepth z = false)))))).

  Lemma addS_go_spec : forall fuel vm radius innerS p w done todo other next out other' next',
    addS_go fuel vm radius innerS p w done todo other next = Ok (out, other', next') ->
    ids2 (rev done ++ todo) other next ->
    ids2 out other' next' /\ (next <= next')%Z /\
    exists f, out = rev done ++ splice f todo /\ other' = splice f other /\
      cut_spec vm radius next innerS p w todo f.
  Proof.
    induction fuel as [|fuel IH]; intros vm radius innerS p w done todo other next out other' next' H Hid;
      [discriminate|].
    cbn [addS_go] in H. destruct todo as [|s rest].
    { inversion H; subst. split; [rewrite app_nil_r in Hid; assumption|]. split; [lia|].
      exists (fun _ => None). split; [rewrite app_nil_r; reflexivity|].
      split; [symmetry; apply splice_none; auto|]. split; [congruence|]. split; [discriminate|].
      intros [|i] y Hy; discriminate. }
    inv_as H as [tv bv] Hv.
    destruct (negb w && (negb innerS && (sl_botDepth s >? vm_iocb vm))) eqn:Brk.
    { inversion H; subst. rewrite rev_append_rev. split; [assumption|]. split; [lia|].
      exists (fun _ => None). split; [rewrite splice_none by auto; reflexivity|].
      split; [symmetry; apply splice_none; auto|]. split; [congruence|]. split; [discriminate|].
      intros i y Hy. split; [|reflexivity]. intros _ [_ [F|[_ [F|F]]]].
      - rewrite F in Brk. discriminate.
      - rewrite F, andb_false_r in Brk. discriminate.
      - specialize (F 0%nat s (Nat.le_0_l _) eq_refl). rewrite F, !andb_false_r in Brk. discriminate. }
    (* reaching layer i of the rest is the same as reaching layer i+1 *)
    assert (Reach : forall i, 
      (innerS = true \/ forall j z, (j <= i)%nat -> nth_error rest j = Some z -> vm_iocb vm <? sl_botDepth z = false) ->
      w = false ->
      (innerS = true \/ forall j z, (j <= S i)%nat -> nth_error (s :: rest) j = Some z -> vm_iocb vm <? sl_botDepth z = false)).
    { intros i [F|F] Ew; [auto|]. subst w. cbn [negb andb] in Brk.
      destruct innerS; [auto|]. cbn [negb andb] in Brk. right. intros [|j] z Hj Hz.
      - inversion Hz; subst. assumption.
      - apply (F j); [lia|assumption]. }
    assert (Reach' : forall i, 
      (innerS = true \/ forall j z, (j <= S i)%nat -> nth_error (s :: rest) j = Some z -> vm_iocb vm <? sl_botDepth z = false) ->
      (innerS = true \/ forall j z, (j <= i)%nat -> nth_error rest j = Some z -> vm_iocb vm <? sl_botDepth z = false)).
    { intros i [F|F]; [auto|]. right. intros j z Hj Hz. apply (F (S j)); [lia|assumption]. }
    assert (Later : forall f : Z -> option (slayer T * slayer T), (forall i y, nth_error rest i = Some y ->
       (f (sl_id y) = None <->
        ~ (spans y p /\
           (w = true \/
            (~ fluid_there vm y /\
             (innerS = true \/
              forall j z, (j <= i)%nat -> nth_error rest j = Some z -> vm_iocb vm <? sl_botDepth z = false)))))) ->
       forall i y, nth_error rest i = Some y ->
       (f (sl_id y) = None <->
        ~ (spans y p /\
           (w = true \/
            (~ fluid_there vm y /\
             (innerS = true \/
              forall j z, (j <= S i)%nat -> nth_error (s :: rest) j = Some z -> vm_iocb vm <? sl_botDepth z = false)))))).
    { intros f Hf3 i y Hy. rewrite (Hf3 i y Hy). split.
      + intros F [F1 F2]. apply F. split; [assumption|]. destruct F2 as [F2|[F2 F3]]; [auto|].
        right. split; [assumption|]. apply Reach'. assumption.
      + intros F [F1 F2]. apply F. split; [assumption|]. destruct w; [auto|].
        destruct F2 as [F2|[F2 F3]]; [discriminate|]. right. split; [assumption|]. apply Reach; auto. }
    assert (Hid' := Hid). destruct Hid' as [ND1 [ND2 [Hlt Hag]]].
    assert (RestLt : forall y, In y rest -> (sl_id y < next)%Z /\ sl_id y <> sl_id s).
    { intros y Hy. split; [apply Hlt; left; rewrite in_app_iff; simpl; auto|].
      intros F. rewrite map_app in ND1. cbn [map] in ND1. apply NoDup_remove_2 in ND1. apply ND1.
      rewrite in_app_iff. right. rewrite <- F. apply in_map. assumption. }
    assert (Keep : addS_go fuel vm radius innerS p w (s :: done) rest other next = Ok (out, other', next') ->
      ~ (spans s p /\ (w = true \/ ~ fluid_there vm s)) ->
      ids2 out other' next' /\ (next <= next')%Z /\
      exists f, out = rev done ++ splice f (s :: rest) /\ other' = splice f other /\
      cut_spec vm radius next innerS p w (s :: rest) f).
    { clear H. intros H Hs. apply IH in H; [|cbn [rev]; rewrite <- app_assoc; exact Hid].
      destruct H as [Hids [Hle [f [Ho [Ho' [Hf1 [Hf2 Hf3]]]]]]].
      assert (Es : f (sl_id s) = None).
      { destruct (f (sl_id s)) eqn:E; [|reflexivity]. exfalso.
        assert (I : In (sl_id s) (map sl_id rest)) by (apply Hf1; congruence).
        apply in_map_iff in I. destruct I as [y [Ey Hy]]. apply RestLt in Hy. tauto. }
      split; [assumption|]. split; [assumption|]. exists f. split.
      { rewrite Ho. cbn [rev]. rewrite <- app_assoc. rewrite splice_cons, Es. reflexivity. }
      split; [assumption|]. split; [intros y Hy; right; auto|]. split.
      { intros y a b [<-|Hy] E; [congruence|]. apply Hf2; assumption. }
      intros [|i] y Hy.
      - inversion Hy; subst y. rewrite Es. split; [|reflexivity]. intros _ [F1 [F2|[F2 _]]]; apply Hs; auto.
      - apply Later; assumption. }
    destruct (negb w && (tv =? n_0)) eqn:Fl.
    { apply Keep; [assumption|]. apply andb_prop in Fl. destruct Fl as [F1 F2]. destruct w; [discriminate|].
      intros [_ [F|F]]; [discriminate|]. apply F. eapply layer_velocities_tv; eassumption. }
    destruct (strictly_contains s p) eqn:Sp.
    2:{ apply Keep; [assumption|]. intros [F _]. unfold spans in F. unfold strictly_contains in Sp. congruence. }
    inv_as H as [top bot] Hp. pose proof Hp as Hpair. apply split_pair_halves in Hp. destruct Hp as [Hh [H0 [Eb Ea]]].
    pose proof (bottom_not_spans _ _ _ _ Hh) as [NSa NSb].
    rewrite replace_shared_splice in H by assumption.
    apply IH in H.
    2:{ cbn [rev]. rewrite <- app_assoc. cbn [app]. eapply ids2_replace; eassumption. }
    destruct H as [Hids [Hle [f [Ho [Ho' [Hf1 [Hf2 Hf3]]]]]]].
    split; [assumption|]. split; [lia|].
    assert (Eb' : f (sl_id bot) = None).
    { destruct (f (sl_id bot)) as [[a b]|] eqn:E; [|reflexivity]. exfalso.
      apply (Hf2 bot a b) in E; [tauto|left; reflexivity]. }
    assert (New : forall id, f id <> None -> In id (map sl_id rest)).
    { intros id Hy. pose proof (Hf1 id Hy) as [<-|I]; [congruence|assumption]. }
    assert (Old : forall id, f id <> None -> (id < next)%Z /\ id <> sl_id s).
    { intros id Hy. apply New in Hy. apply in_map_iff in Hy. destruct Hy as [y [<- Hy]]. auto. }
    assert (Ea' : f (sl_id top) = None).
    { destruct (f (sl_id top)) as [[a b]|] eqn:E; [|reflexivity]. exfalso.
      assert (F : f (sl_id top) <> None) by congruence. apply Old in F. lia. }
    set (g := fun id => match sub1 (sl_id s) top bot id with Some ab => Some ab | None => f id end).
    assert (gs : g (sl_id s) = Some (top, bot)) by (unfold g, sub1; rewrite Z.eqb_refl; reflexivity).
    assert (gr : forall id, id <> sl_id s -> g id = f id).
    { intros id Hne. unfold g, sub1. destruct (Z.eqb_spec id (sl_id s)); [contradiction|reflexivity]. }
    assert (grest : splice g rest = splice f rest).
    { apply splice_ext. intros y Hy. apply gr. apply RestLt in Hy. tauto. }
    exists g. split; [|split].
    - rewrite Ho. cbn [rev]. rewrite <- app_assoc. rewrite !splice_cons, gs, Eb', grest. reflexivity.
    - rewrite Ho'. clear - Ea' Eb' gs gr. induction other as [|y l IH]; [reflexivity|].
      rewrite !splice_cons, splice_app, IH. f_equal. unfold sub1.
      destruct (Z.eqb_spec (sl_id y) (sl_id s)) as [E|E].
      + rewrite E, gs, !splice_cons, Ea', Eb'. reflexivity.
      + rewrite gr by assumption. rewrite splice_cons. cbn [splice flat_map]. rewrite app_nil_r. reflexivity.
    - split; [|split].
      + intros id Hy. destruct (Z.eq_dec id (sl_id s)) as [->|Hne]; [left; reflexivity|].
        rewrite gr in Hy by assumption. right. apply New. assumption.
      + intros y a b [<-|Hy] E.
        * rewrite gs in E. inversion E; subst a b. split; [exact Sp|]. split; [assumption|]. split; [assumption|].
          exists tv, bv, next. split; [lia|]. auto.
        * rewrite gr in E by (apply RestLt in Hy; tauto).
          destruct (Hf2 y a b (or_intror Hy) E) as [X1 [X2 [X3 [tv' [bv' [n' [X4 X5]]]]]]].
          do 3 (split; [assumption|]). exists tv', bv', n'. split; [lia|assumption].
      + intros [|i] y Hy.
        * inversion Hy; subst y. rewrite gs. split; [discriminate|]. intros F. exfalso. apply F.
          split; [exact Sp|]. destruct w; [auto|]. right. cbn [negb andb] in *. split.
          -- intros G. apply (layer_velocities_tv _ _ _ _ Hv) in G. congruence.
          -- destruct innerS; [auto|]. right. intros j z Hj Hz. assert (j = 0%nat) by lia. subst j.
             inversion Hz; subst. exact Brk.
        * cbn [nth_error] in Hy. assert (Iy : In y rest) by (eapply nth_error_In; eassumption).
          rewrite gr by (apply RestLt in Iy; tauto).
          apply (Later f); [|assumption]. intros j z Hz. rewrite (Hf3 (S j) z Hz). split.
          -- intros F [F1 F2]. apply F. split; [assumption|]. destruct w; [auto|].
             destruct F2 as [F2|[F2 F3]]; [discriminate|]. right. split; [assumption|].
             destruct F3 as [F3|F3]; [auto|]. destruct innerS; [auto|]. right.
             intros [|k] u Hk Hu.
             ++ inversion Hu; subst u. destruct Hh as [_ [_ [_ [_ [_ [_ Hbd]]]]]]. rewrite Hbd. exact Brk.
             ++ apply (F3 k); [lia|assumption].
          -- intros F [F1 F2]. apply F. split; [assumption|]. destruct F2 as [F2|[F2 F3]]; [auto|].
             right. split; [assumption|]. destruct F3 as [F3|F3]; [auto|]. right.
             intros k u Hk Hu. apply (F3 (S k)); [lia|assumption].
  Qed.

  (** the loop ends *)
  Fixpoint weight (p : T) (l : list (slayer T)) : nat :=
    match l with [] => 0 | s :: l => (if strictly_contains s p then 2 else 1) + weight p l end%nat.
  Lemma weight_le : forall p l, (weight p l <= 2 * List.length l)%nat.
  Proof. intros p. induction l as [|s l IH]; simpl; [lia|]. destruct (strictly_contains s p); simpl in *; lia. Qed.

  Lemma layer_velocities_nd : forall vm w (y : slayer T), layer_velocities vm w y <> Diverge.
  Proof.
    intros. unfold layer_velocities. nd; auto using evaluateBelow_nd, evaluateAbove_nd.
  Qed.
  Lemma interpolate_nd : forall a b c d e : T, interpolate a b c d e <> Diverge.
  Proof. intros. unfold interpolate. nd. apply py_div_nd. Qed.
  Lemma new_slayer_nd : forall id (a b c d : T), new_slayer id a b c d <> Diverge.
  Proof. intros. unfold new_slayer. nd. Qed.
  Lemma split_pair_nd : forall radius p tv bv (s : slayer T) next, split_pair radius p tv bv s next <> Diverge.
  Proof.
    intros. unfold split_pair. nd; auto using py_div_nd, interpolate_nd, new_slayer_nd.
  Qed.

  Lemma addS_go_nd : forall fuel vm radius innerS p w done todo other next, (weight p todo < fuel)%nat ->
    addS_go fuel vm radius innerS p w done todo other next <> Diverge.
  Proof.
    induction fuel as [|fuel IH]; intros vm radius innerS p w done todo other next Hw; [lia|].
    cbn [addS_go]. destruct todo as [|s rest]; [discriminate|]. cbn [weight] in Hw.
    pose proof (layer_velocities_nd vm w s) as Hn.
    destruct (layer_velocities vm w s) as [[tv bv]| |]; cbn [bind]; [|discriminate|congruence].
    destruct (negb w && _); [discriminate|].
    destruct (negb w && _); [apply IH; destruct (strictly_contains s p); lia|].
    destruct (strictly_contains s p) eqn:Sp; [|apply IH; lia].
    pose proof (split_pair_nd radius p tv bv s next) as Hn'.
    destruct (split_pair radius p tv bv s next) as [[top bot]| |] eqn:Ep; cbn [bind]; [|discriminate|congruence].
    apply IH. cbn [weight]. apply split_pair_halves in Ep. destruct Ep as [Hh _].
    apply bottom_not_spans in Hh. destruct Hh as [_ Hh]. unfold spans in Hh.
    unfold strictly_contains at 1. destruct (_ >? _); [congruence|lia].
  Qed.
  Lemma addSlowness_nd : forall (m : smodel T) p w, addSlowness m p w <> Diverge.
  Proof.
    intros. unfold addSlowness. apply bind_not_diverge; [|intros [[a b] c]; discriminate].
    apply addS_go_nd. pose proof (weight_le p (sm_layers m w)). lia.
  Qed.

  Lemma ids_ok_ids2 : forall (m : smodel T) w, ids_ok m <-> ids2 (sm_layers m w) (sm_layers m (negb w)) (sm_next m).
  Proof.
    intros m w. destruct w; simpl; [reflexivity|]. split; intros H; [|apply ids2_sym; exact H].
    apply ids2_sym in H. exact H.
  Qed.

  Lemma addSlowness_spec0 : forall (m : smodel T) p w m', addSlowness m p w = Ok m' -> ids_ok m ->
    ids_ok m' /\ (sm_next m <= sm_next m')%Z /\ same_setup m m' /\
    exists f, sm_layers m' w = splice f (sm_layers m w) /\
              sm_layers m' (negb w) = splice f (sm_layers m (negb w)) /\
              cut_spec (sm_vMod m) (sm_radius m) (sm_next m) (sm_allowInnerCoreS m) p w (sm_layers m w) f.
  Proof.
    intros m p w m' H Hid. unfold addSlowness in H. inv_as H as [[l o] n] Hg.
    apply addS_go_spec in Hg; [|apply ids_ok_ids2; assumption].
    destruct Hg as [A [B [f [C [D E]]]]]. cbn [rev app] in C.
    assert (Em : sm_layers m' w = l /\ sm_layers m' (negb w) = o /\ sm_next m' = n /\ same_setup m m').
    { destruct w; inversion H; subst; unfold same_setup; simpl; repeat split; reflexivity. }
    destruct Em as [E1 [E2 [E3 E4]]]. split; [apply (ids_ok_ids2 _ w); rewrite E1, E2, E3; assumption|].
    split; [rewrite E3; assumption|]. split; [assumption|].
    exists f. rewrite E1, E2. auto.
  Qed.

  Lemma addSlowness_spec : forall (m : smodel T) p w m', addSlowness m p w = Ok m' -> ids_ok m ->
    ids_ok m' /\ (sm_next m <= sm_next m')%Z /\ same_setup m m' /\
    exists f, sm_layers m' w = splice f (sm_layers m w) /\
              sm_layers m' (negb w) = splice f (sm_layers m (negb w)) /\
              (forall id, f id <> None -> In id (map sl_id (sm_layers m w))) /\
              (forall y a b, In y (sm_layers m w) -> f (sl_id y) = Some (a, b) ->
                 halves p y a b /\ n_0 <=? sl_botDepth a = true) /\
              (forall i y, nth_error (sm_layers m w) i = Some y ->
                 (f (sl_id y) = None <-> ~ (spans y p /\ cuttable m w (sm_layers m w) i y))).
  Proof.
    intros m p w m' H Hid. apply addSlowness_spec0 in H; [|assumption].
    destruct H as [A [B [C [f [D [E [F [G K]]]]]]]]. do 3 (split; [assumption|]).
    exists f. do 3 (split; [assumption|]). split; [|exact K].
    intros y a b Hy Hf. destruct (G y a b Hy Hf) as [_ [X [Y _]]]. auto.
  Qed.
End Add.

(** ** consequences of cutting layers *)
Section Cut.
  Context {T : Type} {N : Num T} {O : NumOrd T}.

  Definition cuts (p : T) (f : Z -> option (slayer T * slayer T)) (l : list (slayer T)) : Prop :=
    forall y a b, In y l -> f (sl_id y) = Some (a, b) -> halves p y a b /\ n_0 <=? sl_botDepth a = true.

  Lemma cuts_tail : forall p f y l, cuts p f (y :: l) -> cuts p f l.
  Proof. intros p f y l H z a b Hz. apply H. right. assumption. Qed.

  (** first and last values *)
  Lemma splice_head : forall p f y l, cuts p f (y :: l) ->
    exists z l', splice f (y :: l) = z :: l' /\ sl_topDepth z = sl_topDepth y /\ sl_topP z = sl_topP y.
  Proof.
    intros p f y l H. rewrite splice_cons. destruct (f (sl_id y)) as [[a b]|] eqn:E.
    - apply (H y a b) in E; [|left; reflexivity]. destruct E as [[H1 [H2 _]] _]. exists a, (b :: splice f l). auto.
    - exists y, (splice f l). auto.
  Qed.
  Lemma splice_last : forall p f l y d, cuts p f (y :: l) ->
    sl_botDepth (last (splice f (y :: l)) d) = sl_botDepth (last l y) /\
    sl_botP (last (splice f (y :: l)) d) = sl_botP (last l y).
  Proof.
    intros p f. induction l as [|g l IH]; intros y d H.
    - rewrite splice_cons. cbn [splice flat_map]. rewrite app_nil_r. destruct (f (sl_id y)) as [[a b]|] eqn:E.
      + apply (H y a b) in E; [|left; reflexivity]. destruct E as [[_ [_ [_ [_ [_ [H1 H2]]]]]] _].
        cbn [last]. auto.
      + cbn [last]. auto.
    - rewrite splice_cons, (last_cons l g y).
      destruct (splice_head p f g l (cuts_tail _ _ _ _ H)) as [z [l' [E _]]].
      assert (L : forall e, last (match f (sl_id y) with Some (a, b) => [a; b] | None => [y] end ++ splice f (g :: l)) d
                = last (splice f (g :: l)) e).
      { intros e. rewrite E. destruct (f (sl_id y)) as [[a b]|]; cbn [app]; rewrite !last_cons; reflexivity. }
      rewrite (L d). apply IH. eapply cuts_tail; eassumption.
  Qed.

  Lemma s_meet_cons : forall y z (l : list (slayer T)), s_meet (y :: z :: l) <->
    sl_botDepth y =? sl_topDepth z = true /\ s_meet (z :: l).
  Proof.
    intros y z l. split.
    - intros H. split; [apply (H 0%nat); reflexivity|]. eapply s_meet_tail; eassumption.
    - intros [H1 H2] [|i] a b Ha Hb; [inversion Ha; inversion Hb; subst; assumption|].
      eapply H2; eassumption.
  Qed.
  Lemma s_join_cons : forall y z (l : list (slayer T)), s_join (y :: z :: l) <->
    sl_botP y =? sl_topP z = true /\ s_join (z :: l).
  Proof.
    intros y z l. split.
    - intros H. split; [apply (H 0%nat); reflexivity|]. eapply s_join_tail; eassumption.
    - intros [H1 H2] [|i] a b Ha Hb; [inversion Ha; inversion Hb; subst; assumption|].
      eapply H2; eassumption.
  Qed.
  Lemma s_meet_one : forall y : slayer T, s_meet [y].
  Proof. intros y i a b Ha Hb; destruct i as [|[|i]]; discriminate. Qed.
  Lemma s_join_one : forall y : slayer T, s_join [y].
  Proof. intros y i a b Ha Hb; destruct i as [|[|i]]; discriminate. Qed.

  Lemma splice_meet : forall p f l, cuts p f l -> s_meet l -> s_meet (splice f l).
  Proof.
    intros p f. induction l as [|y l IH]; intros Hc Hm; [intros [|i]; discriminate|].
    specialize (IH (cuts_tail _ _ _ _ Hc) (s_meet_tail _ _ Hm)).
    rewrite splice_cons.
    assert (Nx : forall x, sl_botDepth x = sl_botDepth y -> s_meet (x :: splice f l)).
    { intros x Ex. destruct l as [|z l]; [apply s_meet_one|].
      destruct (splice_head p f z l (cuts_tail _ _ _ _ Hc)) as [z' [l' [E [E1 _]]]].
      rewrite E in *. apply s_meet_cons. split; [|assumption]. rewrite Ex, E1.
      apply s_meet_cons in Hm. tauto. }
    destruct (f (sl_id y)) as [[a b]|] eqn:E; cbn [app]; [|apply Nx; reflexivity].
    apply (Hc y a b) in E; [|left; reflexivity].
    destruct E as [[H1 [H2 [H3 [H4 [H5 [H6 H7]]]]]] H0].
    apply s_meet_cons. split; [|apply Nx; assumption]. rewrite <- H5.
    apply ord_leb_ok in H0. destruct H0. assumption.
  Qed.
  Lemma splice_join : forall p f l, n_ok p -> cuts p f l -> s_join l -> s_join (splice f l).
  Proof.
    intros p f l Hp. induction l as [|y l IH]; intros Hc Hm; [intros [|i]; discriminate|].
    specialize (IH (cuts_tail _ _ _ _ Hc) (s_join_tail _ _ Hm)).
    rewrite splice_cons.
    assert (Nx : forall x, sl_botP x = sl_botP y -> s_join (x :: splice f l)).
    { intros x Ex. destruct l as [|z l]; [apply s_join_one|].
      destruct (splice_head p f z l (cuts_tail _ _ _ _ Hc)) as [z' [l' [E [_ E1]]]].
      rewrite E in *. apply s_join_cons. split; [|assumption]. rewrite Ex, E1.
      apply s_join_cons in Hm. tauto. }
    destruct (f (sl_id y)) as [[a b]|] eqn:E; cbn [app]; [|apply Nx; reflexivity].
    apply (Hc y a b) in E; [|left; reflexivity].
    destruct E as [[H1 [H2 [H3 [H4 [H5 [H6 H7]]]]]] H0].
    apply s_join_cons. split; [|apply Nx; assumption]. rewrite H3, H4. exact Hp.
  Qed.
  Lemma splice_boundary : forall p f l x, cuts p f l -> boundary l x -> boundary (splice f l) x.
  Proof.
    intros p f l x Hc [y [Hy Hx]]. destruct (f (sl_id y)) as [[a b]|] eqn:E.
    - destruct (splice_In_new f l y a b Hy E) as [Ia Ib].
      apply (Hc y a b Hy) in E. destruct E as [[H1 [H2 [H3 [H4 [H5 [H6 H7]]]]]] _].
      destruct Hx as [Hx|Hx]; [exists a|exists b]; (split; [assumption|]); [left|right]; congruence.
    - exists y. split; [apply splice_In_keep; assumption|assumption].
  Qed.

  (** a shared object is cut in the same way in the other list *)
  Lemma cuts_other : forall (m : smodel T) p w f, ids_ok m ->
    (forall id, f id <> None -> In id (map sl_id (sm_layers m w))) ->
    cuts p f (sm_layers m w) -> cuts p f (sm_layers m (negb w)).
  Proof.
    intros m p w f Hid Hf Hc y a b Hy E. apply (ids_ok_ids2 m w) in Hid. destruct Hid as [_ [_ [_ D]]].
    assert (I : f (sl_id y) <> None) by congruence. apply Hf in I. apply in_map_iff in I.
    destruct I as [z [Ez Hz]]. assert (z = y) by (apply D; assumption). subst z. apply Hc; assumption.
  Qed.

  (** gap-freeness, first and last values and boundaries survive *)
  Lemma addSlowness_keeps : forall (m : smodel T) p w m' v, addSlowness m p w = Ok m' -> ids_ok m ->
    (s_meet (sm_layers m v) -> s_meet (sm_layers m' v)) /\
    (n_ok p -> s_join (sm_layers m v) -> s_join (sm_layers m' v)) /\
    (forall x, boundary (sm_layers m v) x -> boundary (sm_layers m' v) x) /\
    (forall y l, sm_layers m v = y :: l -> exists z l', sm_layers m' v = z :: l' /\
       sl_topDepth z = sl_topDepth y /\ sl_topP z = sl_topP y /\
       sl_botDepth (last l' z) = sl_botDepth (last l y) /\ sl_botP (last l' z) = sl_botP (last l y)).
  Proof.
    intros m p w m' v H Hid. apply addSlowness_spec in H; [|assumption].
    destruct H as [_ [_ [_ [f [A [B [C [D _]]]]]]]].
    assert (K : sm_layers m' v = splice f (sm_layers m v) /\ cuts p f (sm_layers m v)).
    { destruct (Bool.bool_dec v w) as [->|Hne].
      - split; [assumption|exact D].
      - assert (v = negb w) by (destruct v, w; try reflexivity; exfalso; apply Hne; reflexivity). subst v. split; [assumption|].
        apply cuts_other; assumption. }
    destruct K as [K1 K2]. rewrite K1. split; [|split; [|split]].
    - apply splice_meet with p. assumption.
    - intros Hp. apply splice_join with p; assumption.
    - intros x. apply splice_boundary with p. assumption.
    - intros y l E. rewrite E in *. destruct (splice_head p f y l K2) as [z [l' [E1 [E2 E3]]]].
      exists z, l'. rewrite E1. destruct (splice_last p f l y y K2) as [E4 E5].
      rewrite E1, last_cons in E4, E5. auto.
  Qed.

  (** no layer that may be cut still spans the sample *)
  Lemma addSlowness_done : forall (m : smodel T) p m', addSlowness m p true = Ok m' -> ids_ok m ->
    forall y, In y (sm_P m') -> ~ spans y p.
  Proof.
    intros m p m' H Hid y Hy. apply addSlowness_spec in H; [|assumption].
    destruct H as [_ [_ [_ [f [A [_ [_ [D E]]]]]]]]. simpl in A. rewrite A in Hy.
    apply splice_In in Hy. destruct Hy as [[Hy F]|[z [a [b [Hz [F Hab]]]]]].
    - apply In_nth_error in Hy. destruct Hy as [i Hi]. apply (E i y Hi) in F.
      intros G. apply F. split; [assumption|]. left. reflexivity.
    - apply (D z a b Hz) in F. destruct F as [F _]. apply bottom_not_spans in F. destruct Hab; subst; tauto.
  Qed.

  Lemma splice_nth : forall f (l : list (slayer T)) i y', nth_error (splice f l) i = Some y' ->
    exists k y, nth_error l k = Some y /\
      ((f (sl_id y) = None /\ y' = y) \/ exists a b, f (sl_id y) = Some (a, b) /\ (y' = a \/ y' = b)) /\
      (y' = y -> forall p k' z, cuts p f l -> (k' <= k)%nat -> nth_error l k' = Some z ->
         exists j z', (j <= i)%nat /\ nth_error (splice f l) j = Some z' /\ sl_botDepth z' = sl_botDepth z).
  Proof.
    intros f. induction l as [|y l IH]; intros i y' H; [destruct i; discriminate|].
    rewrite splice_cons in H. destruct (f (sl_id y)) as [[a b]|] eqn:E.
    - cbn [app] in H. destruct i as [|[|i]]; cbn [nth_error] in H.
      + inversion H; subst. exists 0%nat, y. split; [reflexivity|]. split; [right; exists y', b; auto|].
        intros -> p k' z Hc Hk Hz. assert (k' = 0)%nat by lia. subst. inversion Hz; subst.
        exists 0%nat, z. rewrite splice_cons, E. split; [lia|]. split; reflexivity.
      + inversion H; subst. exists 0%nat, y. split; [reflexivity|]. split; [right; exists a, y'; auto|].
        intros -> p k' z Hc Hk Hz. assert (k' = 0)%nat by lia. subst. inversion Hz; subst.
        exists 1%nat, z. rewrite splice_cons, E. split; [lia|]. split; reflexivity.
      + apply IH in H. destruct H as [k [y0 [H1 [H2 H3]]]]. exists (S k), y0. split; [assumption|].
        split; [assumption|]. intros Ey p k' z Hc Hk Hz. rewrite splice_cons, E.
        destruct k' as [|k'].
        * inversion Hz; subst. exists 1%nat, b. split; [lia|]. split; [reflexivity|].
          destruct (Hc z a b (or_introl eq_refl) E) as [[_ [_ [_ [_ [_ [_ Hb]]]]]] _]. assumption.
        * destruct (H3 Ey p k' z (cuts_tail _ _ _ _ Hc) ltac:(lia) Hz) as [j [z' [J1 [J2 J3]]]].
          exists (S (S j)), z'. split; [lia|]. auto.
    - cbn [app] in H. destruct i as [|i]; cbn [nth_error] in H.
      + inversion H; subst. exists 0%nat, y'. split; [reflexivity|]. split; [auto|].
        intros _ p k' z Hc Hk Hz. assert (k' = 0)%nat by lia. subst. inversion Hz; subst.
        exists 0%nat, z. rewrite splice_cons, E. split; [lia|]. split; reflexivity.
      + apply IH in H. destruct H as [k [y0 [H1 [H2 H3]]]]. exists (S k), y0. split; [assumption|].
        split; [assumption|]. intros Ey p k' z Hc Hk Hz. rewrite splice_cons, E.
        destruct k' as [|k'].
        * inversion Hz; subst. exists 0%nat, z. split; [lia|]. split; reflexivity.
        * destruct (H3 Ey p k' z (cuts_tail _ _ _ _ Hc) ltac:(lia) Hz) as [j [z' [J1 [J2 J3]]]].
          exists (S j), z'. split; [lia|]. auto.
  Qed.

  Lemma addSlowness_done2 : forall (m : smodel T) p w m', addSlowness m p w = Ok m' -> ids_ok m ->
    forall i y, nth_error (sm_layers m' w) i = Some y ->
      ~ (spans y p /\ cuttable m' w (sm_layers m' w) i y).
  Proof.
    intros m p w m' H Hid i y Hy [Hs Hc]. apply addSlowness_spec in H; [|assumption].
    destruct H as [_ [_ [Hse [f [A [_ [_ [D E]]]]]]]]. rewrite A in Hy.
    destruct (splice_nth _ _ _ _ Hy) as [k [z [Hk [[[F ->]|[a [b [F Hab]]]] P]]]].
    - apply (E k z Hk) in F. apply F. split; [assumption|].
      destruct Hc as [Hc|[Hc1 Hc2]]; [left; assumption|right].
      destruct Hse as [S1 [_ [_ [_ [_ [_ [S2 _]]]]]]]. rewrite S1 in *. rewrite S2 in *. split; [assumption|].
      destruct Hc2 as [Hc2|Hc2]; [left; assumption|right]. intros j u Hj Hu.
      destruct (P eq_refl p j u D Hj Hu) as [j' [u' [J1 [J2 J3]]]]. rewrite <- J3.
      apply (Hc2 j' u' J1). rewrite A. assumption.
    - apply nth_error_In in Hk. apply (D z a b Hk) in F. destruct F as [F _].
      apply bottom_not_spans in F. destruct Hab; subst; tauto.
  Qed.
End Cut.

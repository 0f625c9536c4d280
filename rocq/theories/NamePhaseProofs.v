From Coq Require Import ZArith Bool List String Ascii Permutation Lia.
From Verif Require Import Base Num PyStr VelocityModel SlownessLayer SlownessModel TauModel Legs
  SeismicPhase Pierce TauPTime NameSpec NameProofs.
Import ListNotations.
Local Open Scope string_scope.

Lemma mapM_fails : forall {A B} (f : A -> result B) (l : list A) (E : exn -> Prop),
  (forall x, In x l -> (exists y, f x = Ok y) \/ exists e, f x = Raise e /\ E e) ->
  (exists x e, In x l /\ f x = Raise e) ->
  exists e, mapM f l = Raise e /\ E e.
Proof.
  induction l as [|a l IH]; intros E H [x [e [Hx Hf]]]; [destruct Hx|]. simpl.
  destruct (H a (or_introl eq_refl)) as [[y Hy]|[e' [He HE]]].
  - rewrite Hy. simpl. destruct Hx as [<-|Hx]; [congruence|].
    destruct (IH E) as [e' [He HE]].
    + intros z Hz. apply H. right; assumption.
    + exists x, e; split; assumption.
    + rewrite He. simpl. eauto.
  - rewrite He. simpl. eauto.
Qed.

Section C03.
  Context {T : Type} {N : Num T} {L : Libm T}.
  Variable show : T -> string.

  Definition IV (e : exn) : Prop := e = IndexError \/ e = ValueError.

  Lemma py_index_IE : forall {A} (l : list A) i,
    (exists x, py_index l i = Ok x) \/ py_index l i = Raise IndexError.
  Proof.
    intros A l i. unfold py_index. destruct (_ <? 0)%Z; [right; reflexivity|].
    destruct (nth_error _ _); [left; eauto|right; reflexivity].
  Qed.

  Lemma str_get_IE : forall s i, (exists x, str_get s i = Ok x) \/ str_get s i = Raise IndexError.
  Proof.
    intros. unfold str_get. destruct (get i s); eauto.
  Qed.

  Lemma closestBranchToDepth_V : forall w t s,
    (exists i, closestBranchToDepth w t s = Ok i) \/ closestBranchToDepth w t s = Raise ValueError.
  Proof.
    intros. unfold closestBranchToDepth.
    destruct (seq_ s "m"); [left; eauto|]. destruct (seq_ s "c"); [left; eauto|].
    destruct (seq_ s "i"); [left; eauto|]. destruct (leg_float s); [left; eauto|right; reflexivity].
  Qed.

  Lemma purist_leg_cases : forall w t leg,
    (exists y, purist_leg show w t leg = Ok y) \/ exists e, purist_leg show w t leg = Raise e /\ IV e.
  Proof.
    intros w t leg. unfold purist_leg, second_char, IV.
    destruct (sw leg "v" || sw leg "^").
    - destruct (str_get_IE leg 1) as [[x Hx]|Hx]; rewrite Hx; simpl; [|right; eauto].
      destruct (closestBranchToDepth_V w t (str1 x)) as [[i Hi]|Hi]; rewrite Hi; simpl; [|right; eauto].
      destruct (py_index_IE (tm_P t) i) as [[b Hb]|Hb]; rewrite Hb; simpl; [|right; eauto].
      destruct (str_get_IE leg 0) as [[c Hc]|Hc]; rewrite Hc; simpl; [left; eauto|right; eauto].
    - destruct (leg_float leg).
      + destruct (closestBranchToDepth_V w t leg) as [[i Hi]|Hi]; rewrite Hi; simpl; [|right; eauto].
        destruct (py_index_IE (tm_P t) i) as [[b Hb]|Hb]; rewrite Hb; simpl; [left; eauto|right; eauto].
      + left; eauto.
  Qed.

  Lemma purist_leg_caret : forall w t c x, c = "^"%char \/ c = "v"%char ->
    x = String c "" \/ (exists d, In d second_chars /\ x = String c (String d "")) ->
    exists e, purist_leg show w t x = Raise e.
  Proof.
    intros w t c x Hc [->|[d [Hd ->]]].
    - destruct Hc; subst; eexists; reflexivity.
    - simpl in Hd. destruct Hc; subst;
        repeat (destruct Hd as [Hd|Hd]; [subst; eexists; reflexivity|]); destruct Hd.
  Qed.

  Lemma newPhase_kmps : forall w t tid name, is_kmps name ->
    newPhase show w t tid name = Raise TypeError.
  Proof.
    intros w t tid name H. unfold newPhase.
    assert (E : legPuller name = Ok [name; "END"]) by (apply legPuller_iff; auto).
    rewrite E. simpl. unfold createPuristName, parseName.
    change (py_index [name; "END"] 0) with (Ok name). simpl.
    apply is_kmps_iff in H. rewrite H. reflexivity.
  Qed.

  Lemma newPhase_bad : forall w t tid name, (forall l, ~ Tokens name l) -> ~ is_kmps name ->
    newPhase show w t tid name = Raise TauModelError.
  Proof.
    intros w t tid name H K. unfold newPhase.
    destruct (legPuller_total name) as [[l Hl]|Hl]; rewrite ?Hl; [|reflexivity].
    apply legPuller_iff in Hl. destruct Hl as [[Hk _]|[_ [l' [Hl _]]]]; [contradiction|].
    exfalso. eapply H; eassumption.
  Qed.

  Lemma newPhase_caret : forall w t tid name c l, ~ is_kmps name ->
    c = "^"%char \/ c = "v"%char -> has_char c name -> Tokens name l ->
    newPhase show w t tid name = Raise IndexError \/ newPhase show w t tid name = Raise ValueError.
  Proof.
    intros w t tid name c l K Hc Hh Hl. unfold newPhase.
    assert (E : legPuller name = Ok (l ++ ["END"])%list) by (apply legPuller_iff; eauto).
    rewrite E. simpl. unfold createPuristName.
    destruct (Tokens_caret _ _ _ Hl Hc Hh) as [l1 [x [l2 [El Hx]]]].
    destruct (py_index_IE (l ++ ["END"]) 0) as [[f Hf]|Hf]; rewrite Hf; simpl; [|auto].
    assert (Ek : (List.length (l ++ ["END"]) =? 2)%nat && str_endswith "kmps" f = false).
    { destruct (str_endswith "kmps" f) eqn:Ef; [|apply andb_false_r].
      destruct l as [|a [|b l]].
      - destruct l1; discriminate.
      - exfalso. unfold py_index in Hf. simpl in Hf. injection Hf as <-.
        apply Tokens_join in Hl. simpl in Hl. rewrite str_app_nil_r in Hl. subst a.
        apply K. apply is_kmps_iff. assumption.
      - simpl. rewrite app_length. simpl. destruct (List.length l); reflexivity. }
    rewrite Ek. rewrite removelast_last.
    destruct (mapM_fails (purist_leg show w t) l IV) as [e [He HE]].
    - intros y _. apply purist_leg_cases.
    - destruct (purist_leg_caret w t c x Hc Hx) as [e He]. exists x, e. split; [|assumption].
      subst l. apply in_or_app. right. left. reflexivity.
    - rewrite He. simpl. destruct HE; subst; auto.
  Qed.

  (** a cached phase always carries the requested name *)
  Lemma cache_scan_found : forall fuel name depth id i l kept ph,
    cache_scan fuel name depth id i l = Ok (kept, Some ph) -> ph_name ph = name /\ In ph l.
  Proof.
    induction fuel as [|fuel IH]; simpl; intros name depth id i l kept ph H; [discriminate|].
    destruct (nth_error l i) as [p|] eqn:En; [|discriminate].
    apply nth_error_In in En as Hin.
    destruct (seq_ (ph_name p) name) eqn:Es.
    - destruct (_ && _).
      + injection H as <- <-. split; [apply String.eqb_eq; assumption|assumption].
      + apply IH in H. destruct H as [H1 H2]. split; [assumption|].
        clear - H2. revert H2. generalize i. induction l as [|a l IHl]; intros [|j]; simpl; auto.
        intros [H|H]; auto. right. eapply IHl; eassumption.
    - apply IH in H. assumption.
  Qed.

  Lemma list_del_In : forall {A} (l : list A) i x, In x (list_del l i) -> In x l.
  Proof.
    induction l as [|a l IHl]; intros [|j] x; simpl; auto.
    intros [H|H]; auto. right. eapply IHl; eassumption.
  Qed.

  Lemma cache_scan_kept : forall fuel name depth id i l kept o,
    cache_scan fuel name depth id i l = Ok (kept, o) -> incl kept l.
  Proof.
    induction fuel as [|fuel IH]; simpl; intros name depth id i l kept o H; [discriminate|].
    destruct (nth_error l i) as [p|] eqn:En; [|injection H as <- <-; apply incl_refl].
    destruct (seq_ (ph_name p) name) eqn:Es.
    - destruct (_ && _).
      + injection H as <- <-. intros x. apply list_del_In.
      + apply IH in H. intros x Hx. eapply list_del_In. apply H. assumption.
    - eapply IH; eassumption.
  Qed.

  Lemma newPhase_name : forall w t tid name ph, newPhase show w t tid name = Ok ph -> ph_name ph = name.
  Proof.
    intros w t tid name ph H. unfold newPhase in H.
    inv_bind H. inv_bind H. inv_as H as o Ho. destruct o as [s|]; [|discriminate].
    match type of H with (if ?b then _ else _) = _ => destruct b end; [injection H as <-; reflexivity|].
    inv_bind H. inv_bind H. inv_bind H. inv_bind H. inv_as H as sp Hsp.
    destruct sp as [[? ?]|]; [|injection H as <-; reflexivity].
    inv_bind H. inv_bind H. inv_bind H. inv_bind H. injection H as <-. reflexivity.
  Qed.

  Definition fatal (bad : string) : Prop :=
    forall w t tid, exists e, newPhase show w t tid bad = Raise e /\ e <> TauModelError.

  Lemma recalc_go_fatal : forall bad, fatal bad -> forall names w t id depth first phases r,
    recalc_go show w t id depth first names phases = Ok r ->
    (forall ph, In ph phases -> ph_name ph <> bad) ->
    ~ In bad names /\ forall ph, In ph r -> ph_name ph <> bad.
  Proof.
    intros bad Hbad. induction names as [|n names IH]; cbn [recalc_go In]; intros w t id depth first phases r H Hph.
    - injection H as <-. split; [tauto|assumption].
    - inv_as H as [kept found] Hscan. inv_as H as x Hnew.
      assert (Hbase : forall ph, In ph (if first then [] else kept) -> ph_name ph <> bad).
      { destruct first; simpl; [tauto|]. intros ph Hin. apply Hph.
        exact (cache_scan_kept _ _ _ _ _ _ _ _ Hscan ph Hin). }
      assert (G : n <> bad /\ forall ph, In ph x -> ph_name ph <> bad).
      { destruct found as [p|].
        - apply cache_scan_found in Hscan. destruct Hscan as [E Hin].
          injection Hnew as <-. assert (n <> bad) by (subst; auto). split; [assumption|].
          intros ph Hi. apply in_app_or in Hi. destruct Hi as [Hi|[<-|[]]]; auto.
        - destruct (newPhase show w t id n) as [p|e|] eqn:En.
          + injection Hnew as <-.
            assert (n <> bad). { intros ->. destruct (Hbad w t id) as [e [He _]]. congruence. }
            split; [assumption|]. intros ph Hi. apply in_app_or in Hi.
            destruct Hi as [Hi|[<-|[]]]; auto. rewrite (newPhase_name _ _ _ _ _ En). assumption.
          + destruct e; try discriminate. injection Hnew as <-. split; [|assumption].
            intros ->. destruct (Hbad w t id) as [e [He Hne]]. congruence.
          + discriminate. }
      destruct G as [G1 G2]. apply IH in H; [|assumption]. destruct H as [H1 H2].
      split; [|assumption]. intros [E|E]; [congruence|contradiction].
  Qed.

  Lemma recalcPhases_fatal : forall bad, fatal bad -> forall w s s',
    recalcPhases show w s = Ok s' -> (forall ph, In ph (tt_phases s) -> ph_name ph <> bad) ->
    ~ In bad (tt_names s) /\ tt_names s' = tt_names s /\
    forall ph, In ph (tt_phases s') -> ph_name ph <> bad.
  Proof.
    intros bad Hb w s s' H Hp. unfold recalcPhases in H. inv_as H as l Hl. injection H as <-. simpl.
    eapply recalc_go_fatal in Hl; [|eassumption|eassumption]. tauto.
  Qed.

  Lemma tt_run_fatal : forall bad, fatal bad ->
    forall fuel order w t pl depth deg coords, In bad (parsePhaseList order pl) ->
    forall r, tt_run show fuel order w t pl depth deg coords <> Ok r.
  Proof.
    intros bad Hb fuel order w t pl depth deg coords Hin r H.
    unfold tt_run in H. inv_as H as [w3 s3] H2. clear H. unfold tt_rerun in H2.
    inv_as H2 as dg Hdg. inv_as H2 as [w1 s1] H1.
    unfold calculate in H2. inv_as H2 as [w2 s2] H3.
    inv_as H2 as s4 H5. cbn [tt_new tt_tMod tt_tModDepth tt_depthId tt_nextId tt_phases
      tt_sourceDepth tt_arrivals] in H1.
    set (s0 := mkTT t t 0 1 (parsePhaseList order pl) [] depth depth []) in *.
    assert (D : forall w s d w' s', tt_depthCorrect show fuel w s d = Ok (w', s') ->
              (forall ph, In ph (tt_phases s) -> ph_name ph <> bad) ->
              tt_names s' = tt_names s /\ forall ph, In ph (tt_phases s') -> ph_name ph <> bad).
    { clear - Hb. intros w s d w' s' H Hp. unfold tt_depthCorrect in H. inv_as H as [w1 s1] H0.
      injection H as <- <-. simpl.
      match type of H0 with (if ?b then _ else _) = _ => destruct b end; [|injection H0 as <- <-; auto].
      inv_as H0 as [[w2 self] d'] H1. inv_as H0 as s2 H2. injection H0 as <- <-.
      eapply recalcPhases_fatal in H2; [|eassumption|assumption]. simpl in H2. tauto. }
    destruct (D _ _ _ _ _ H1) as [N1 P1]; [simpl; tauto|].
    destruct (D _ _ _ _ _ H3 P1) as [N2 P2].
    eapply recalcPhases_fatal in H5; [|eassumption|assumption].
    destruct H5 as [Habs _]. apply Habs. rewrite N2, N1. simpl. assumption.
  Qed.

  Lemma kmps_fatal : forall name, is_kmps name -> fatal name.
  Proof.
    intros name H w t tid. exists TypeError. split; [apply newPhase_kmps; assumption|discriminate].
  Qed.

  Lemma caret_fatal : forall name c l, ~ is_kmps name -> c = "^"%char \/ c = "v"%char ->
    has_char c name -> Tokens name l -> fatal name.
  Proof.
    intros name c l K Hc Hh Hl w t tid.
    destruct (newPhase_caret w t tid name c l K Hc Hh Hl) as [E|E]; rewrite E; eexists;
      (split; [reflexivity|discriminate]).
  Qed.
End C03.

(** names with '^' or 'v', or ending in "kmps", are not group names *)
Lemma same_word_char : forall n a c, same_word n a -> has_char c n ->
  exists d, In d (list_ascii_of_string a) /\ same_letter c d.
Proof.
  intros n a c H [p [q ->]]. unfold same_word in H.
  revert a H. induction p as [|x p IH]; intros [|y a] H; simpl in H; inversion H; subst.
  - exists y. split; [left; reflexivity|assumption].
  - destruct (IH a H5) as [d [H1 H2]]. exists d. split; [right; assumption|assumption].
Qed.

Lemma caret_no_group : forall n c, c = "^"%char \/ c = "v"%char -> has_char c n ->
  forall a g, In (a, g) groups -> ~ same_word n a.
Proof.
  intros n c Hc Hh a g Hin Hw. destruct (same_word_char _ _ _ Hw Hh) as [d [Hd Hs]].
  assert (d = c). { destruct Hs as [Hs|[Hs _]]; [auto|]. destruct Hc; subst; destruct Hs as [_ Hs]; apply Nat.leb_le in Hs; discriminate Hs. }
  subst d. simpl in Hin.
  repeat (destruct Hin as [Hin|Hin]; [injection Hin as <- <-; simpl in Hd; destruct Hc; subst;
     repeat (destruct Hd as [Hd|Hd]; [discriminate|]); destruct Hd|]).
  destruct Hin.
Qed.

Lemma kmps_no_group : forall n, is_kmps n -> forall a g, In (a, g) groups -> ~ same_word n a.
Proof.
  intros n [p ->] a g Hin Hw.
  assert (Hh : has_char "k" (p ++ "kmps")) by (exists p, "mps"; reflexivity).
  destruct (same_word_char _ _ _ Hw Hh) as [d [Hd Hs]].
  assert (d = "k"%char). { destruct Hs as [Hs|[Hs _]]; [auto|]. destruct Hs as [_ Hs]; apply Nat.leb_le in Hs; discriminate Hs. }
  subst d. simpl in Hin.
  repeat (destruct Hin as [Hin|Hin]; [injection Hin as <- <-; simpl in Hd;
     repeat (destruct Hd as [Hd|Hd]; [discriminate|]); destruct Hd|]).
  destruct Hin.
Qed.

Lemma requested_in : forall order pl n, set_order_ok order -> In n pl ->
  (forall a g, In (a, g) groups -> ~ same_word n a) -> In n (parsePhaseList order pl).
Proof.
  intros order pl n Ho Hin Hn. apply parsePhaseList_spec; [assumption|].
  exists n. split; [assumption|]. right. auto.
Qed.

Lemma groups_nested : forall order, set_order_ok order ->
  let ph a := parsePhaseList order [a] in
  incl (ph "ttp") (ph "ttp+") /\ incl (ph "ttp+") (ph "ttbasic") /\
  incl (ph "tts") (ph "tts+") /\ incl (ph "tts+") (ph "ttbasic") /\
  incl (ph "ttbasic") (ph "ttall").
Proof.
  intros order Ho ph. unfold ph.
  repeat split.
  - apply (group_mono order _ group_ttp _ group_ttp_plus Ho); simpl; tauto || auto 12.
    apply names_incl; reflexivity.
  - apply (group_mono order _ group_ttp_plus _ group_ttbasic Ho); simpl; tauto || auto 12.
    apply names_incl; reflexivity.
  - apply (group_mono order _ group_tts _ group_tts_plus Ho); simpl; tauto || auto 12.
    apply names_incl; reflexivity.
  - apply (group_mono order _ group_tts_plus _ group_ttbasic Ho); simpl; tauto || auto 12.
    apply names_incl; reflexivity.
  - apply (group_mono order _ group_ttbasic _ group_ttall Ho); simpl; tauto || auto 12.
    apply names_incl; reflexivity.
Qed.

Lemma caret_raises :
  forall {T} {N : Num T} {L : Libm T} (show : T -> string) w t tid name c,
  ~ is_kmps name -> c = "^"%char \/ c = "v"%char -> has_char c name ->
  ((exists l, Tokens name l) ->
     newPhase show w t tid name = Raise IndexError \/ newPhase show w t tid name = Raise ValueError)
  /\ ((forall l, ~ Tokens name l) -> newPhase show w t tid name = Raise TauModelError).
Proof.
  intros T N L show w t tid name c K Hc Hh. split.
  - intros [l Hl]. eapply newPhase_caret; eassumption.
  - intros H. apply newPhase_bad; assumption.
Qed.

Lemma caret_escapes :
  forall {T} {N : Num T} {L : Libm T} (show : T -> string) fuel order w t depth deg names coords
         name c l r,
  set_order_ok order -> In name names ->
  ~ is_kmps name -> c = "^"%char \/ c = "v"%char -> has_char c name -> Tokens name l ->
  get_travel_times show fuel order w t depth deg (Some names) coords <> Ok r.
Proof.
  intros T N L show fuel order w t depth deg names coords name c l r Ho Hin K Hc Hh Hl.
  unfold get_travel_times. eapply tt_run_fatal.
  - eapply caret_fatal; eassumption.
  - apply requested_in; [assumption|assumption|]. eapply caret_no_group; eassumption.
Qed.

Lemma kmps_escapes :
  forall {T} {N : Num T} {L : Libm T} (show : T -> string) fuel order w t depth deg names coords
         name r,
  set_order_ok order -> In name names -> is_kmps name ->
  get_travel_times show fuel order w t depth deg (Some names) coords <> Ok r.
Proof.
  intros T N L show fuel order w t depth deg names coords name r Ho Hin K.
  unfold get_travel_times. eapply tt_run_fatal.
  - eapply kmps_fatal; eassumption.
  - apply requested_in; [assumption|assumption|]. apply kmps_no_group. assumption.
Qed.

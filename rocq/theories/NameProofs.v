From Coq Require Import ZArith Bool List String Ascii Permutation Lia.
From Verif Require Import Base PyStr Legs NameSpec.
Import ListNotations.
Local Open Scope string_scope.

Lemma easy_iff : forall c, leg_easy c = true <-> In c simple_chars.
Proof. intros c. unfold leg_easy. apply chr_mem_In. Qed.

Lemma easy_false : forall c, leg_easy c = false <-> ~ In c simple_chars.
Proof.
  intros c. rewrite <- easy_iff. destruct (leg_easy c); split; intros H.
  - discriminate.
  - exfalso; apply H; reflexivity.
  - discriminate.
  - reflexivity.
Qed.

Definition digits : list ascii := ["0";"1";"2";"3";"4";"5";"6";"7";"8";"9"]%char.

Lemma is_digit_In : forall c, is_digit c = true <-> In c digits.
Proof.
  intros c. split.
  - destruct c as [[] [] [] [] [] [] [] []]; vm_compute; intros H; try discriminate H; tauto.
  - intros H. simpl in H. repeat (destruct H as [H|H]; [subst; reflexivity|]). destruct H.
Qed.

Lemma one_next_iff : forall d, leg_one_next d = true <-> In d follow_chars.
Proof.
  intros d. unfold leg_one_next. rewrite orb_true_iff, chr_mem_In, is_digit_In.
  unfold follow_chars, digits.
  change (list_ascii_of_string "PSKmc^v") with ["P";"S";"K";"m";"c";"^";"v"]%char.
  change follow_chars with (["P";"S";"K";"m";"c";"^";"v"]%char ++ digits)%list.
  rewrite <- in_app_iff. simpl. tauto.
Qed.

Lemma gbn_iff : forall d, chr_mem d (list_ascii_of_string "gbn") = true <-> In d second_chars.
Proof. intros d. apply chr_mem_In. Qed.

Lemma follow_not_second : forall d, In d follow_chars -> In d second_chars -> False.
Proof.
  intros d H1 H2. simpl in H2.
  repeat (destruct H2 as [H2|H2]; [subst; simpl in H1; repeat (destruct H1 as [H1|H1]; [discriminate|]); destruct H1|]).
  destruct H2.
Qed.

Lemma second_not_ps : forall d, In d second_chars -> chr_mem d (list_ascii_of_string "ps") = false.
Proof.
  intros d H. simpl in H. repeat (destruct H as [H|H]; [subst; reflexivity|]). destruct H.
Qed.

(** induction on strings by length *)
Lemma string_len_ind : forall P : string -> Prop,
  (forall s, (forall t, String.length t < String.length s -> P t) -> P s) -> forall s, P s.
Proof.
  intros P H s.
  assert (G : forall n t, String.length t < n -> P t).
  { induction n; intros t Ht; [lia|]. apply H. intros u Hu. apply IHn. lia. }
  apply (G (S (String.length s))). lia.
Qed.

Lemma leg_go_simple : forall c s, leg_easy c = true ->
  leg_go (String c s) = let! l := leg_go s in Ok (str1 c :: l).
Proof. intros c s H. simpl. rewrite H. reflexivity. Qed.

Lemma leg_go_one : forall c d s, leg_easy c = false -> leg_one_next d = true ->
  leg_go (String c (String d s)) = let! l := leg_go (String d s) in Ok (str1 c :: l).
Proof. intros c d s H1 H2. cbn [leg_go]. rewrite H1, H2. reflexivity. Qed.

Lemma leg_go_two : forall c d s, leg_easy c = false -> In d second_chars ->
  leg_go (String c (String d s)) = let! l := leg_go s in Ok (String c (str1 d) :: l).
Proof.
  intros c d s H1 H2. cbn [leg_go]. rewrite H1.
  assert (E : leg_one_next d = false).
  { destruct (leg_one_next d) eqn:E; [|reflexivity].
    apply one_next_iff in E. destruct (follow_not_second d E H2). }
  rewrite E, (second_not_ps d H2). apply gbn_iff in H2. rewrite H2. reflexivity.
Qed.

Lemma leg_go_diff : forall x s, x = "Sdiff" \/ x = "Pdiff" ->
  leg_go (x ++ s) = let! l := leg_go s in Ok (x :: l).
Proof. intros x s [H|H]; subst; reflexivity. Qed.

Lemma leg_go_complete : forall s l, Tokens s l -> leg_go s = Ok l.
Proof.
  induction 1.
  - reflexivity.
  - rewrite leg_go_simple by (apply easy_iff; assumption). rewrite IHTokens. reflexivity.
  - apply easy_false in H. simpl. rewrite H. reflexivity.
  - rewrite leg_go_one; [|apply easy_false; assumption|apply one_next_iff; assumption].
    rewrite IHTokens. reflexivity.
  - rewrite leg_go_two; [|apply easy_false; assumption|assumption].
    rewrite IHTokens. reflexivity.
  - rewrite leg_go_diff by assumption. rewrite IHTokens. reflexivity.
Qed.

Lemma leg_go_sound : forall s, match leg_go s with
  | Ok l => Tokens s l
  | Raise e => e = TauModelError
  | Diverge => False
  end.
Proof.
  induction s as [s IH] using string_len_ind.
  assert (IHr : forall t l f, String.length t < String.length s ->
            (forall k, Tokens t k -> Tokens s (f :: k)) ->
            l = (let! k := leg_go t in Ok (f :: k)) ->
            match l with Ok l => Tokens s l | Raise e => e = TauModelError | Diverge => False end).
  { intros t l f Hlen Hmk El. subst l. specialize (IH t Hlen).
    destruct (leg_go t); simpl; auto. }
  destruct s as [|c s1]; [constructor|].
  destruct (leg_easy c) eqn:E.
  { rewrite leg_go_simple by assumption. eapply (IHr s1 _ (str1 c)); [simpl; lia| |reflexivity].
    intros k Hk. apply Tok_simple; [apply easy_iff|]; assumption. }
  pose proof (proj1 (easy_false c) E) as Hc.
  destruct s1 as [|d s2].
  { simpl. rewrite E. apply Tok_last. assumption. }
  destruct (leg_one_next d) eqn:E1.
  { rewrite leg_go_one by assumption.
    eapply (IHr (String d s2) _ (str1 c)); [simpl; lia| |reflexivity].
    intros k Hk. apply Tok_one; [assumption|apply one_next_iff; assumption|assumption]. }
  destruct (chr_mem d (list_ascii_of_string "ps")) eqn:E2.
  { cbn [leg_go]. rewrite E, E1, E2. reflexivity. }
  destruct (chr_mem d (list_ascii_of_string "gbn")) eqn:E3.
  { rewrite leg_go_two; [|assumption|apply gbn_iff; assumption].
    eapply (IHr s2 _ (String c (str1 d))); [simpl; lia| |reflexivity].
    intros k Hk. apply Tok_two; [assumption|apply gbn_iff; assumption|assumption]. }
  destruct s2 as [|e [|f [|g s5]]]; try (cbn [leg_go]; rewrite E, E1, E2, E3; reflexivity).
  cbn [leg_go]. rewrite E, E1, E2, E3.
  set (five := String c (String d (String e (String f (String g ""))))).
  destruct ((five =? "Sdiff") || (five =? "Pdiff")) eqn:E5; [|reflexivity].
  assert (H5 : five = "Sdiff" \/ five = "Pdiff").
  { apply orb_true_iff in E5. destruct E5 as [E5|E5]; apply String.eqb_eq in E5; auto. }
  eapply (IHr s5 _ five); [simpl; lia| |reflexivity].
  intros k Hk. change (Tokens (five ++ s5) (five :: k)). apply Tok_diff; assumption.
Qed.

Lemma leg_go_iff : forall s l, leg_go s = Ok l <-> Tokens s l.
Proof.
  intros s l. split; [|apply leg_go_complete].
  intros H. pose proof (leg_go_sound s) as G. rewrite H in G. exact G.
Qed.

Lemma Tokens_join : forall s l, Tokens s l -> join l = s.
Proof.
  induction 1; simpl; try congruence.
  all: try (rewrite IHTokens; reflexivity).
Qed.

Lemma Tokens_nonempty_legs : forall s l, Tokens s l -> ~ In "" l.
Proof.
  induction 1; simpl; intros H'; try contradiction; destruct H' as [H'|H'];
    try discriminate; try contradiction; auto.
  destruct H; subst; discriminate.
Qed.

Lemma Tokens_no_END : forall s l, Tokens s l -> ~ In "END" l.
Proof.
  induction 1; simpl; intros H'; try contradiction; destruct H' as [H'|H'];
    try discriminate; try contradiction; auto.
  destruct H; subst; discriminate.
Qed.

Lemma is_kmps_iff : forall s, str_endswith "kmps" s = true <-> is_kmps s.
Proof. intros. apply str_endswith_iff. Qed.

Lemma kmps_dec : forall s, {is_kmps s} + {~ is_kmps s}.
Proof.
  intros s. destruct (str_endswith "kmps" s) eqn:E; [left|right].
  - apply is_kmps_iff; assumption.
  - rewrite <- is_kmps_iff, E. discriminate.
Qed.

Lemma legPuller_total : forall name,
  (exists l, legPuller name = Ok l) \/ legPuller name = Raise TauModelError.
Proof.
  intros name. unfold legPuller. destruct (str_endswith "kmps" name); simpl; [left; eauto|].
  pose proof (leg_go_sound name) as G. destruct (leg_go name); simpl.
  - left; eauto.
  - subst; right; reflexivity.
  - contradiction.
Qed.

Lemma legPuller_iff : forall name legs,
  legPuller name = Ok legs <->
  (is_kmps name /\ legs = [name; "END"])
  \/ (~ is_kmps name /\ exists l, Tokens name l /\ legs = (l ++ ["END"])%list).
Proof.
  intros name legs. unfold legPuller.
  destruct (str_endswith "kmps" name) eqn:E; simpl.
  - assert (K : is_kmps name) by (apply is_kmps_iff; assumption). split.
    + intros H. injection H as <-. left. split; [assumption|reflexivity].
    + intros [[_ H]|[H _]]; [subst; reflexivity|contradiction].
  - assert (K : ~ is_kmps name) by (rewrite <- is_kmps_iff, E; discriminate). split.
    + intros H. right. split; [assumption|].
      destruct (leg_go name) as [l|e|] eqn:G; simpl in H; try discriminate.
      injection H as <-. exists l. split; [apply leg_go_iff; assumption|reflexivity].
    + intros [[H _]|[_ [l [H1 H2]]]]; [contradiction|].
      apply leg_go_iff in H1. rewrite H1. simpl. subst. reflexivity.
Qed.

Lemma legPuller_shape : forall name legs, legPuller name = Ok legs ->
  exists l, legs = (l ++ ["END"])%list /\ join l = name /\ ~ In "" l /\ ~ In "END" l.
Proof.
  intros name legs H. apply legPuller_iff in H. destruct H as [[K H]|[K [l [H1 H2]]]].
  - exists [name]. destruct K as [p ->].
    repeat split; [assumption|simpl; apply str_app_nil_r| |]; intros [E|[]];
      destruct p as [|? [|? [|? [|? ?]]]]; discriminate.
  - exists l. repeat split; [assumption|apply (Tokens_join _ _ H1)| |].
    + apply (Tokens_nonempty_legs _ _ H1).
    + apply (Tokens_no_END _ _ H1).
Qed.

(** shape of a single leg *)
Lemma Tokens_leg : forall s l, Tokens s l -> forall x, In x l ->
  (exists c, x = String c "")
  \/ (exists c d, ~ In c simple_chars /\ In d second_chars /\ x = String c (String d ""))
  \/ x = "Sdiff" \/ x = "Pdiff".
Proof.
  induction 1; intros y Hy; [|destruct Hy as [Hy|Hy]..]; try (left; eauto; fail); auto.
  - contradiction.
  - contradiction.
  - right; left. exists c, d. auto.
  - subst. auto.
Qed.

Lemma leg_shapes : forall name legs, legPuller name = Ok legs -> ~ is_kmps name ->
  forall x, In x legs -> x <> "END" ->
  (exists c, x = String c "")
  \/ (exists c d, ~ In c simple_chars /\ In d second_chars /\ x = String c (String d ""))
  \/ x = "Sdiff" \/ x = "Pdiff".
Proof.
  intros name legs H K x Hx Hne. apply legPuller_iff in H.
  destruct H as [[H _]|[_ [l [Hl ->]]]]; [contradiction|].
  apply in_app_or in Hx. destruct Hx as [Hx|[Hx|[]]]; [|congruence].
  eapply Tokens_leg; eassumption.
Qed.

Lemma no_depth_leg : forall name legs c a b, legPuller name = Ok legs -> ~ is_kmps name ->
  In a number_chars -> ~ In (String c (String a b)) legs.
Proof.
  intros name legs c a b H K Ha Hin.
  destruct (string_dec (String c (String a b)) "END") as [E|E].
  - injection E as _ -> _. simpl in Ha. intuition discriminate.
  - destruct (leg_shapes _ _ H K _ Hin E) as [[x Hx]|[[x [y [_ [Hy Hx]]]]|[Hx|Hx]]].
    + discriminate.
    + injection Hx as _ -> _. simpl in Ha, Hy.
      repeat (destruct Hy as [Hy|Hy]; [subst; intuition discriminate|]). destruct Hy.
    + injection Hx as _ -> _. simpl in Ha. intuition discriminate.
    + injection Hx as _ -> _. simpl in Ha. intuition discriminate.
Qed.

(** every '^' or 'v' of a tokenised name starts a leg *)
Lemma has_char_cons : forall c d s, has_char c (String d s) -> c = d \/ has_char c s.
Proof.
  intros c d s [a [b H]]. destruct a as [|x a]; simpl in H.
  - injection H; auto.
  - injection H as -> ->. right. exists a, b. reflexivity.
Qed.

Lemma Tokens_caret : forall s l c, Tokens s l -> c = "^"%char \/ c = "v"%char -> has_char c s ->
  exists l1 x l2, l = (l1 ++ x :: l2)%list /\ (x = String c "" \/ exists d, In d second_chars /\ x = String c (String d "")).
Proof.
  intros s l c H Hc. induction H; intros Hh.
  - destruct Hh as [[|? ?] [b E]]; discriminate.
  - apply has_char_cons in Hh. destruct Hh as [E|Hh].
    + subst c0. exfalso. simpl in H.
      destruct Hc; subst; repeat (destruct H as [H|H]; [discriminate|]); destruct H.
    + destruct (IHTokens Hh) as [l1 [x [l2 [E1 E2]]]]. exists (String c0 "" :: l1)%list, x, l2.
      rewrite E1. split; [reflexivity|assumption].
  - apply has_char_cons in Hh. destruct Hh as [E|[[|? ?] [b E]]]; try discriminate.
    subst. exists [], (String c0 ""), []. split; [reflexivity|left; reflexivity].
  - apply has_char_cons in Hh. destruct Hh as [E|Hh].
    + subst. exists [], (String c0 ""), l. split; [reflexivity|left; reflexivity].
    + destruct (IHTokens Hh) as [l1 [x [l2 [E1 E2]]]]. exists (String c0 "" :: l1)%list, x, l2.
      rewrite E1. split; [reflexivity|assumption].
  - apply has_char_cons in Hh. destruct Hh as [E|Hh].
    + subst. exists [], (String c0 (String d "")), l. split; [reflexivity|right; eauto].
    + apply has_char_cons in Hh. destruct Hh as [E|Hh].
      * subst d. exfalso. simpl in H0. destruct Hc; subst; repeat (destruct H0 as [H0|H0]; [discriminate|]); destruct H0.
      * destruct (IHTokens Hh) as [l1 [x [l2 [E1 E2]]]].
        exists (String c0 (String d "") :: l1)%list, x, l2. rewrite E1. split; [reflexivity|assumption].
  - assert (Hs : has_char c s).
    { destruct H; subst x; simpl in Hh;
      do 5 (apply has_char_cons in Hh; destruct Hh as [E|Hh]; [exfalso; destruct Hc; subst; discriminate|]);
      assumption. }
    destruct (IHTokens Hs) as [l1 [y [l2 [E1 E2]]]]. exists (x :: l1)%list, y, l2.
    rewrite E1. split; [reflexivity|assumption].
Qed.

(** -- phase lists -- *)

Lemma lower_letter : forall c d, (nat_of_ascii d < 65 \/ 90 < nat_of_ascii d) ->
  (ascii_lower c = d <-> same_letter c d).
Proof.
  intros c d Hd. unfold ascii_lower, same_letter.
  destruct ((65 <=? nat_of_ascii c)%nat && (nat_of_ascii c <=? 90)%nat) eqn:E.
  - apply andb_true_iff in E. destruct E as [E1 E2]. apply Nat.leb_le in E1, E2. split.
    + intros <-. right. split; [lia|]. apply nat_ascii_embedding. lia.
    + intros [H|[_ H]]; [subst; lia|]. rewrite <- H. apply ascii_nat_embedding.
  - split; [auto|]. intros [H|[H1 H2]]; [assumption|].
    exfalso. apply andb_false_iff in E. destruct E as [E|E]; apply Nat.leb_gt in E; lia.
Qed.

Definition no_upper (a : string) : Prop :=
  Forall (fun d => nat_of_ascii d < 65 \/ 90 < nat_of_ascii d) (list_ascii_of_string a).

Lemma str_lower_same : forall n a, no_upper a -> (str_lower n = a <-> same_word n a).
Proof.
  unfold no_upper, same_word. induction n as [|c n IH]; intros [|d a] Ha; simpl in *.
  - split; [constructor|reflexivity].
  - split; [discriminate|]. intros H; inversion H.
  - split; [discriminate|]. intros H; inversion H.
  - inversion Ha; subst. split.
    + intros H. injection H as H1' H2'. constructor; [apply lower_letter; assumption|apply IH; assumption].
    + intros H. inversion H; subst. f_equal; [apply lower_letter; assumption|apply IH; assumption].
Qed.

Lemma groups_lower : forall a g, In (a, g) groups -> no_upper a.
Proof.
  intros a g H. simpl in H.
  repeat (destruct H as [H|H]; [injection H as <- <-; repeat constructor; simpl; lia|]). destruct H.
Qed.

Lemma names_incl : forall l l', forallb (fun x => str_mem x l') l = true -> incl l l'.
Proof. intros l l' H x Hx. rewrite forallb_forall in H. apply str_mem_In. auto. Qed.

Lemma names_same : forall l l', forallb (fun x => str_mem x l') l = true ->
  forallb (fun x => str_mem x l) l' = true -> forall x, In x l <-> In x l'.
Proof. intros. split; apply names_incl; assumption. Qed.

Lemma getPhaseNames_lower : forall n a g, In (a, g) groups -> str_lower n = a ->
  forall x, In x (getPhaseNames n) <-> In x g.
Proof.
  intros n a g Hin Hl x. unfold getPhaseNames. cbv zeta. rewrite Hl. simpl in Hin.
  repeat (destruct Hin as [Hin|Hin]; [injection Hin as <- <-; apply names_same; vm_compute; reflexivity|]).
  destruct Hin.
Qed.

Lemma getPhaseNames_other : forall n, (forall a g, In (a, g) groups -> str_lower n <> a) ->
  getPhaseNames n = [n].
Proof.
  intros n H. unfold getPhaseNames. cbv zeta.
  assert (F : forall a g, In (a, g) groups -> (str_lower n =? a) = false).
  { intros a g Hin. apply String.eqb_neq. eapply H; eassumption. }
  rewrite (F "ttp" group_ttp), (F "tts" group_tts), (F "ttbasic" group_ttbasic),
    (F "tts+" group_tts_plus), (F "ttp+" group_ttp_plus), (F "ttall" group_ttall);
    try reflexivity; simpl; tauto.
Qed.

Lemma assoc_fun : forall (l : list (string * list string)) a g h, NoDup (map fst l) ->
  In (a, h) l -> In (a, g) l -> h = g.
Proof.
  induction l as [|[b k] l IH]; simpl; intros a g h Hn H1 H2; [contradiction|].
  inversion Hn; subst. destruct H1 as [H1|H1], H2 as [H2|H2].
  - congruence.
  - injection H1 as -> ->. exfalso. apply H3. apply (in_map fst) in H2. exact H2.
  - injection H2 as -> ->. exfalso. apply H3. apply (in_map fst) in H1. exact H1.
  - eapply IH; eassumption.
Qed.

Lemma getPhaseNames_iff : forall n x, In x (getPhaseNames n) <-> stands_for n x.
Proof.
  intros n x.
  destruct (in_dec string_dec (str_lower n) (map fst groups)) as [Hin|Hout].
  - apply in_map_iff in Hin. destruct Hin as [[a g] [E Hin]]. simpl in E.
    rewrite (getPhaseNames_lower n a g Hin (eq_sym E)). unfold stands_for.
    assert (Hw : same_word n a).
    { apply str_lower_same; [eapply groups_lower; eassumption|auto]. }
    split.
    + intros Hx. left. eauto.
    + intros [[b [h [Hb [Hwb Hx]]]]|[_ H]]; [|exfalso; eapply H; eassumption].
      apply (str_lower_same n b (groups_lower _ _ Hb)) in Hwb.
      assert (a = b) by congruence. subst b.
      replace g with h; [assumption|]. rewrite <- E in Hb.
      refine (assoc_fun groups _ _ _ _ Hb Hin).
      cbn [map fst groups].
      repeat (apply NoDup_cons; [simpl; intuition discriminate|]). apply NoDup_nil.
  - assert (Hn : forall a g, In (a, g) groups -> str_lower n <> a).
    { intros a g Hin E. apply Hout. subst. apply (in_map fst) in Hin. exact Hin. }
    rewrite (getPhaseNames_other n Hn). unfold stands_for. split.
    + intros [<-|[]]. right. split; [reflexivity|]. intros a g Hin Hw.
      apply (str_lower_same _ _ (groups_lower _ _ Hin)) in Hw. eapply Hn; eassumption.
    + intros [[a [g [Hin [Hw _]]]]|[-> _]]; [|left; reflexivity].
      apply (str_lower_same _ _ (groups_lower _ _ Hin)) in Hw. exfalso. eapply Hn; eassumption.
Qed.

Lemma parsePhaseList_spec : forall order, set_order_ok order -> forall l,
  NoDup (parsePhaseList order l) /\
  forall x, In x (parsePhaseList order l) <-> exists n, In n l /\ stands_for n x.
Proof.
  intros order Ho l. unfold parsePhaseList. destruct (Ho (phaseNames_raw l)) as [H1 H2].
  split; [assumption|]. intros x. rewrite H2. unfold phaseNames_raw. rewrite in_flat_map.
  split; intros [n [Hn Hx]]; exists n; (split; [assumption|]); apply getPhaseNames_iff; assumption.
Qed.

Lemma parsePhaseList_set : forall o1 o2 l1 l2, set_order_ok o1 -> set_order_ok o2 ->
  (forall x, In x l1 <-> In x l2) -> Permutation (parsePhaseList o1 l1) (parsePhaseList o2 l2).
Proof.
  intros o1 o2 l1 l2 H1 H2 H.
  destruct (parsePhaseList_spec o1 H1 l1) as [N1 S1].
  destruct (parsePhaseList_spec o2 H2 l2) as [N2 S2].
  apply NoDup_Permutation; try assumption. intros x. rewrite S1, S2.
  split; intros [n [Hn Hx]]; exists n; (split; [apply H; assumption|assumption]).
Qed.

Lemma group_mono : forall order a g a' g', set_order_ok order ->
  In (a, g) groups -> In (a', g') groups -> incl g g' ->
  incl (parsePhaseList order [a]) (parsePhaseList order [a']).
Proof.
  intros order a g a' g' Ho Ha Ha' Hi x Hx.
  destruct (parsePhaseList_spec order Ho [a]) as [_ S1].
  destruct (parsePhaseList_spec order Ho [a']) as [_ S2].
  apply S2. exists a'. split; [left; reflexivity|]. apply S1 in Hx.
  destruct Hx as [n [[<-|[]] Hx]]. apply getPhaseNames_iff in Hx.
  assert (L : forall b h, In (b, h) groups -> str_lower b = b).
  { intros b h Hb. simpl in Hb.
    repeat (destruct Hb as [Hb|Hb]; [injection Hb as <- <-; reflexivity|]). destruct Hb. }
  apply (getPhaseNames_lower a a g Ha (L _ _ Ha)) in Hx.
  apply getPhaseNames_iff, (getPhaseNames_lower a' a' g' Ha' (L _ _ Ha')). auto.
Qed.

(** Properties C40 and C41: resolving model names; pierce points and ray paths from the high level
    interface. *)
From Coq Require Import ZArith Bool List String Ascii Lia.
From Verif Require Import Base PyStr TauPTime Api ApiSpec.
Import ListNotations.
Local Open Scope string_scope.

Lemma index_one : forall c s, (exists n, index 0 (String c "") s = Some n) <-> has_chr c s.
Proof.
  intros c s. induction s as [|d s IH].
  - simpl. split; [intros [n H]; discriminate|tauto].
  - cbn [index has_chr]. cbn [prefix]. destruct (ascii_dec c d) as [->|Hn].
    + assert (E : prefix "" s = true) by (destruct s; reflexivity). rewrite E.
      split; [left; reflexivity|eauto].
    + destruct (index 0 (String c "") s) as [n|] eqn:E.
      * split; [intros _; right; apply IH; eauto|eauto].
      * split; [intros [n H]; discriminate|].
        intros [H|H]; [congruence|]. apply IH in H. destruct H as [n H]. discriminate.
Qed.
Lemma str_in_one : forall c s, str_in (String c "") s = true <-> has_chr c s.
Proof.
  intros. rewrite <- index_one. unfold str_in.
  destruct (index 0 (String c "") s); split; eauto; try discriminate. intros [n H]; discriminate.
Qed.
Lemma str_in_one_not : forall c s, str_in (String c "") s = false <-> ~ has_chr c s.
Proof. intros. rewrite <- str_in_one. destruct (str_in (String c "") s); split; congruence. Qed.
Lemma has_app : forall c a b, has_chr c (a ++ b) <-> has_chr c a \/ has_chr c b.
Proof. induction a as [|d a IH]; intros b; simpl; [tauto|]. rewrite IH. tauto. Qed.
Lemma only_app : forall c a b, only_chr c (a ++ b) <-> only_chr c a /\ only_chr c b.
Proof. induction a as [|d a IH]; intros b; simpl; [tauto|]. rewrite IH. tauto. Qed.

(** splitting at the last occurrence of a character is unique *)
Lemma last_split : forall c a b a' b', ~ has_chr c b -> ~ has_chr c b' ->
  a ++ String c b = a' ++ String c b' -> a = a' /\ b = b'.
Proof.
  induction a as [|d a IH]; intros b a' b' H H' E; destruct a' as [|d' a']; simpl in E; inversion E; subst.
  - auto.
  - exfalso. apply H. apply has_app. right. simpl. tauto.
  - exfalso. apply H'. apply has_app. right. simpl. tauto.
  - destruct (IH _ _ _ H H' H2). subst. auto.
Qed.

Lemma basename_spec : forall s, final_component s (basename s).
Proof.
  unfold final_component. induction s as [|c s [H1 H2]]; cbn [basename].
  - simpl. tauto.
  - destruct (str_in "/" s) eqn:E.
    + split; [assumption|]. right. destruct H2 as [H2|[d H2]].
      * apply str_in_one in E. rewrite H2 in E. contradiction.
      * exists (String c d). simpl. f_equal. exact H2.
    + apply str_in_one_not in E. destruct (Ascii.eqb c "/") eqn:F.
      * apply Ascii.eqb_eq in F. subst. split; [assumption|]. right. exists "". reflexivity.
      * apply Ascii.eqb_neq in F. split; [simpl; tauto|]. left. reflexivity.
Qed.
Lemma final_unique : forall s b b', final_component s b -> final_component s b' -> b = b'.
Proof.
  intros s b b' [H [E|[d E]]] [H' [E'|[d' E']]].
  - congruence.
  - exfalso. subst b. apply H. rewrite E'. apply has_app. right. simpl. tauto.
  - exfalso. subst b'. apply H'. rewrite E. apply has_app. right. simpl. tauto.
  - rewrite E in E'. simpl in E'. apply last_split in E'; tauto.
Qed.

Lemma drop_ext_no : forall s, ~ has_chr "." s -> drop_ext s = s.
Proof.
  destruct s as [|c s]; intros H; [reflexivity|]. cbn [drop_ext].
  destruct (str_in "." s) eqn:E; [apply str_in_one in E; simpl in H; tauto|].
  destruct (Ascii.eqb c ".") eqn:F; [|reflexivity]. apply Ascii.eqb_eq in F. simpl in H. tauto.
Qed.
Lemma drop_ext_has : forall s, has_chr "." s -> exists ext, s = drop_ext s ++ "." ++ ext /\ ~ has_chr "." ext.
Proof.
  induction s as [|c s IH]; intros H; [destruct H|]. cbn [drop_ext].
  destruct (str_in "." s) eqn:E.
  - apply str_in_one in E. destruct (IH E) as [ext [E1 E2]]. exists ext. split; [|assumption]. simpl. f_equal. exact E1.
  - apply str_in_one_not in E. destruct (Ascii.eqb c ".") eqn:F.
    + apply Ascii.eqb_eq in F. subst c. exists s. auto.
    + apply Ascii.eqb_neq in F. simpl in H. tauto.
Qed.

Lemma splitext_spec : forall b, name_stem b (splitext_stem b).
Proof.
  unfold name_stem. induction b as [|c b IH]; cbn [splitext_stem].
  - right. split; [reflexivity|]. intros st' ext H. destruct st'; discriminate.
  - destruct (Ascii.eqb c ".") eqn:F.
    + apply Ascii.eqb_eq in F. subst c. destruct IH as [[ext [E1 [E2 E3]]]|[E1 E2]].
      * left. exists ext. split; [simpl; f_equal; exact E1|]. split; [assumption|]. simpl. tauto.
      * right. split; [congruence|]. intros st' ext H Hn. destruct st' as [|d st']; [simpl; auto|].
        simpl in H. inversion H; subst. simpl. split; [reflexivity|]. apply (E2 st' ext); [reflexivity|assumption].
    + apply Ascii.eqb_neq in F. destruct (str_in "." (String c b)) eqn:E.
      * apply str_in_one in E. left. destruct (drop_ext_has _ E) as [ext [E1 E2]]. exists ext.
        split; [assumption|]. split; [assumption|]. intros Ho.
        cbn [drop_ext] in *. destruct (str_in "." b) eqn:G; [simpl in Ho; tauto|].
        apply str_in_one_not in G. simpl in E. tauto.
      * apply str_in_one_not in E. right. split; [apply drop_ext_no; assumption|].
        intros st' ext H Hn. exfalso. apply E. rewrite H. apply has_app. right. simpl. tauto.
Qed.
Lemma stem_unique : forall b s s', name_stem b s -> name_stem b s' -> s = s'.
Proof.
  intros b s s' [[x [E [H1 H2]]]|[E H]] [[x' [E' [H1' H2']]]|[E' H']].
  - rewrite E in E'. simpl in E'. apply last_split in E'; tauto.
  - exfalso. apply H2. eauto.
  - exfalso. apply H2'. eauto.
  - congruence.
Qed.

(** ** C40 *)
(** The packaged model of that stem if there is one, else the name as a file, else an error; every
    name has exactly one final component and stem. *)
Theorem C40_load : forall {C : Type} dir ver (fs : string -> option C) name,
  (exists! b, final_component name b) /\ (forall b, exists! st, name_stem b st) /\
  forall b st, final_component name b -> name_stem b st ->
    let packaged := dir ++ "/" ++ st ++ "__py" ++ ver ++ "__tvel.pickle" in
    (forall c, load dir ver fs name = Ok c <->
       fs packaged = Some c \/ (fs packaged = None /\ fs name = Some c)) /\
    (load dir ver fs name = Raise FileNotFoundError <-> fs packaged = None /\ fs name = None) /\
    load dir ver fs name <> Diverge.
Proof.
  intros C dir ver fs name. split; [|split].
  - exists (basename name). split; [apply basename_spec|]. intros. eapply final_unique; eauto using basename_spec.
  - intros b. exists (splitext_stem b). split; [apply splitext_spec|]. intros. eapply stem_unique; eauto using splitext_spec.
  - intros b st Hb Hs packaged.
    assert (b = basename name) by (eapply final_unique; eauto using basename_spec). subst b.
    assert (st = splitext_stem (basename name)) by (eapply stem_unique; eauto using splitext_spec).
    unfold load, get_model_filename. rewrite <- H. fold packaged.
    destruct (fs packaged) as [c0|] eqn:E.
    + rewrite E. repeat split; intros; try congruence.
      * left. congruence.
      * destruct H0 as [H0|[H0 _]]; congruence.
      * destruct H0; discriminate.
    + destruct (fs name) as [c1|] eqn:F.
      * repeat split; intros; try congruence.
        -- right. split; congruence.
        -- destruct H0 as [H0|[_ H0]]; congruence.
        -- destruct H0; discriminate.
      * repeat split; intros; try congruence.
        destruct H0 as [H0|[_ H0]]; congruence.
Qed.

(** The directory and the extension play no role when a packaged model of that stem exists. *)
Theorem C40_directory_ignored : forall {C : Type} dir ver (fs : string -> option C) name name' b b' st c,
  final_component name b -> final_component name' b' -> name_stem b st -> name_stem b' st ->
  fs (dir ++ "/" ++ st ++ "__py" ++ ver ++ "__tvel.pickle") = Some c ->
  load dir ver fs name = Ok c /\ load dir ver fs name' = Ok c.
Proof.
  intros. destruct (C40_load dir ver fs name) as [_ [_ A]]. destruct (C40_load dir ver fs name') as [_ [_ B]].
  split; [eapply A|eapply B]; eauto.
Qed.

Lemma final_by : forall s b, basename s = b -> final_component s b.
Proof. intros s b <-. apply basename_spec. Qed.
Lemma stem_by : forall s b, splitext_stem s = b -> name_stem s b.
Proof. intros s b <-. apply splitext_spec. Qed.

(** a file of the user called /home/me/iasp91.tvel is not the one that is opened *)
Example C40_ex :
  let fs := fun s => if String.eqb s "/pkg/iasp91__py34__tvel.pickle" then Some 1
                     else if String.eqb s "/home/me/iasp91.tvel" then Some 2
                     else if String.eqb s "/home/me/.my.own.model" then Some 3 else None in
  final_component "/home/me/iasp91.tvel" "iasp91.tvel" /\ name_stem "iasp91.tvel" "iasp91" /\
  name_stem ".my.own.model" ".my.own" /\ name_stem "..." "..." /\ name_stem ".profile" ".profile" /\
  load "/pkg" "34" fs "/home/me/iasp91.tvel" = Ok 1 /\ load "/pkg" "34" fs "iasp91" = Ok 1 /\
  load "/pkg" "34" fs "/home/me/.my.own.model" = Ok 3 /\ load "/pkg" "34" fs "ak135" = Raise FileNotFoundError.
Proof.
  cbv zeta. split; [apply final_by; reflexivity|]. do 4 (split; [apply stem_by; reflexivity|]).
  vm_compute. repeat split.
Qed.

(** ** C41 *)
(** Neither function ever returns, whatever the rest of the code would compute: without the attribute
    the read fails, and with it the constructor of TauP_Time refuses the keyword. *)
Theorem C41_unreachable_refuted : forall {A : Type} (extra : list string) (rest : result A),
  (~ In "taup_model_path" extra ->
     get_pierce_points extra rest = Raise AttributeError /\ get_ray_paths extra rest = Raise AttributeError) /\
  (In "taup_model_path" extra ->
     get_pierce_points extra rest = Raise TypeError /\ get_ray_paths extra rest = Raise TypeError).
Proof.
  intros A extra rest. unfold get_pierce_points, get_ray_paths, get_attr.
  assert (E : str_mem "model" (taupy_model_attrs ++ extra) = true)
    by (apply str_mem_In, in_or_app; left; simpl; tauto). rewrite E. cbn [bind].
  split; intros H.
  - assert (F : str_mem "taup_model_path" (taupy_model_attrs ++ extra) = false).
    { destruct (str_mem "taup_model_path" (taupy_model_attrs ++ extra)) eqn:F; [|reflexivity].
      apply str_mem_In, in_app_or in F. destruct F as [F|F]; [|contradiction].
      simpl in F. repeat (destruct F as [F|F]; [discriminate|]). destruct F. }
    rewrite F. split; reflexivity.
  - assert (F : str_mem "taup_model_path" (taupy_model_attrs ++ extra) = true)
      by (apply str_mem_In, in_or_app; right; assumption).
    rewrite F. split; reflexivity.
Qed.

(** the constructor of TauP_Pierce fails in the same way for every call that binds *)
Theorem C41_constructor_refuted : forall {A : Type} npos kws (rest : result A),
  pierce_init npos kws rest = Raise TypeError /\ path_init npos kws rest = Raise TypeError.
Proof.
  intros. unfold path_init, pierce_init.
  assert (E : forall n k, bind_call params_pierce n k = Ok tt \/ bind_call params_pierce n k = Raise TypeError).
  { intros. unfold bind_call. repeat match goal with |- context [if ?b then _ else _] => destruct b end; auto. }
  destruct (E npos kws) as [->| ->]; split; try reflexivity.
Qed.

Example C41_ex :
  bind_call params_pierce 7 [] = Ok tt /\ bind_call params_pierce 1 ["modelName"; "depth"] = Ok tt /\
  get_ray_paths [] (Ok 5) = Raise AttributeError /\ get_pierce_points ["taup_model_path"] (Ok 5) = Raise TypeError.
Proof. repeat split. Qed.

Print Assumptions C40_load.
Print Assumptions C40_directory_ignored.
Print Assumptions C41_unreachable_refuted.
Print Assumptions C41_constructor_refuted.

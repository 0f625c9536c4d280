(** Properties of the building of model files: see CreateSpec.v for the vocabulary. *)
From Coq Require Import ZArith Bool List String Ascii Reals Lra Lia SpecFloat.
From Verif Require Import Base Num PyStr VelocityModel SlownessLayer SlownessModel TauModel TauPTime Api Create
  ApiSpec ApiProps CreateSpec VelSpec SlowSpec SlowRealProofs TauBuildProofs Toy.
Import ListNotations.
Local Open Scope string_scope.

(** ** Paths *)
Lemma app_assoc_s : forall a b c : string, (a ++ b) ++ c = a ++ b ++ c.
Proof. induction a; cbn; intros; [reflexivity|]. f_equal. apply IHa. Qed.
Lemma app_nil_s : forall a : string, a ++ "" = a.
Proof. induction a; cbn; congruence. Qed.
Lemma app_inv_head_s : forall a b c : string, a ++ b = a ++ c -> b = c.
Proof. induction a; cbn; intros b c H; [assumption|]. injection H; auto. Qed.
Lemma length_app_s : forall a b : string, String.length (a ++ b) = String.length a + String.length b.
Proof. induction a; cbn; auto. Qed.
Lemma app_inv_tail_s : forall c a b : string, a ++ c = b ++ c -> a = b.
Proof.
  intros c a. induction a as [|x a IH]; intros [|y b] H; cbn in H.
  - reflexivity.
  - apply (f_equal String.length) in H. cbn in H. rewrite length_app_s in H. lia.
  - apply (f_equal String.length) in H. cbn in H. rewrite length_app_s in H. lia.
  - injection H as -> H. f_equal. auto.
Qed.

Lemma upto_last_no : forall c s, ~ has_chr c s -> upto_last c s = "".
Proof.
  induction s as [|x s IH]; cbn; intros H; [reflexivity|].
  destruct (str_in (String c "") s) eqn:E; [apply str_in_one in E; tauto|].
  destruct (Ascii.eqb_spec x c); [subst; tauto|reflexivity].
Qed.
Lemma upto_last_app : forall c q b, ~ has_chr c b -> upto_last c (q ++ String c b) = q ++ String c "".
Proof.
  induction q as [|x q IH]; cbn; intros b H.
  - rewrite (proj2 (str_in_one_not c b) H), Ascii.eqb_refl. reflexivity.
  - assert (E : str_in (String c "") (q ++ String c b) = true).
    { apply str_in_one, has_app. right. cbn. auto. }
    rewrite E. f_equal. auto.
Qed.
Lemma strip_end_step : forall c q, strip_end c (q ++ String c "") = strip_end c q.
Proof.
  induction q as [|x q IH]; cbn.
  - rewrite Ascii.eqb_refl. reflexivity.
  - rewrite IH. reflexivity.
Qed.
Lemma strip_end_id : forall c q, (forall q', q <> q' ++ String c "") -> strip_end c q = q.
Proof.
  induction q as [|x q IH]; cbn; intros H; [reflexivity|].
  rewrite IH. 
  - destruct q; [|reflexivity]. destruct (Ascii.eqb_spec x c); [|reflexivity]. subst. exfalso. apply (H ""). reflexivity.
  - intros q' ->. apply (H (String x q')). reflexivity.
Qed.
Lemma dirname_in : forall q b p, file_in q b p -> dirname p = q.
Proof.
  intros q b p [-> [Hb [Hq Hs]]]. unfold dirname. cbn [append].
  change (q ++ String "/" b) with (q ++ String "/" b).
  rewrite upto_last_app by assumption. rewrite strip_end_step, strip_end_id by assumption.
  destruct q; [congruence|reflexivity].
Qed.
Lemma dirname_none : forall p, ~ has_chr "/" p -> dirname p = "".
Proof. intros p H. unfold dirname. rewrite upto_last_no by assumption. reflexivity. Qed.

Lemma prefix_length : forall a s, str_startswith a s = true -> String.length a <= String.length s.
Proof.
  unfold str_startswith. induction a as [|x a IH]; intros [|y s] H; cbn in *; try lia; try discriminate.
  destruct (ascii_dec x y); try discriminate. apply IH in H. lia.
Qed.
Lemma leads_to_longer : forall q p, String.length p < String.length q -> leads_to q p = false.
Proof.
  intros q p H. unfold leads_to. apply orb_false_iff. split.
  - apply String.eqb_neq. intros ->. lia.
  - destruct (str_startswith (q ++ "/") p) eqn:E; [|reflexivity]. apply prefix_length in E. rewrite length_app_s in E. cbn in E. lia.
Qed.
Lemma file_in_longer : forall q b p, file_in q b p -> String.length q < String.length p.
Proof. intros q b p [-> _]. rewrite length_app_s. cbn. lia. Qed.

(** ** One run *)
Section Run.
  Context {T : Type} {N : Num T} {L : Libm T}.

  (** the model can be stored: its directory is there or can be made, and the file can be (over)written *)
  Definition writable (d : disk T) (q p : string) : Prop :=
    (d_dir d q = true \/ (d_file d q = None /\ d_may d q = true)) /\ d_dir d p = false /\ d_may d p = true.

  Lemma run_ok : forall fuel c vm (d d' : disk T) q b,
    file_in q b (cr_out c) -> create_run fuel c (Some vm) d = Ok d' ->
    exists t, createTauModel fuel c vm = Ok t /\
      (writable d q (cr_out c) -> d_file d' (cr_out c) = Some (Pickled t) /\ d_dir d' q = true) /\
      (~ writable d q (cr_out c) -> d_file d' (cr_out c) = d_file d (cr_out c)) /\
      (forall p, p <> cr_out c -> d_file d' p = d_file d p) /\
      (forall p, String.length q < String.length p -> d_dir d' p = d_dir d p) /\
      (forall p, d_dir d p = true -> d_dir d' p = true) /\
      (forall p, d_may d' p = d_may d p).
  Proof.
    intros fuel c vm d d' q b Hin H. unfold create_run in H. destruct (createTauModel fuel c vm) as [t| |] eqn:Et; try discriminate.
    cbn [bind] in H. exists t. split; [reflexivity|]. rewrite (dirname_in _ _ _ Hin) in H.
    set (p := cr_out c) in *. pose proof (file_in_longer _ _ _ Hin) as Hl.
    assert (Hq : String.eqb q "" = false) by (apply String.eqb_neq; destruct Hin as [_ [_ [? _]]]; assumption).
    unfold path_exists, makedirs, writeModel in H. rewrite (dirname_in _ _ _ Hin), Hq in H. cbn [orb] in H.
    assert (Hlead : leads_to p q = false) by (apply leads_to_longer; assumption).
    assert (Hself : leads_to q q = true) by (unfold leads_to; rewrite String.eqb_refl; reflexivity).
    unfold writable.
    destruct (d_dir d q) eqn:Dq; cbn [orb] in H.
    - rewrite Dq in H. cbn [andb] in H. destruct (d_dir d p) eqn:Dp; cbn [negb andb] in H.
      { inversion H; subst. repeat split; try congruence; intros; tauto || (exfalso; intuition congruence). }
      destruct (d_may d p) eqn:Mp; inversion H; subst; cbn.
      + rewrite String.eqb_refl. repeat split; auto; try (intros X; exfalso; apply X; auto; fail).
        intros s Hs. apply String.eqb_neq in Hs. rewrite Hs. reflexivity.
      + repeat split; auto; intuition congruence.
    - destruct (d_file d q) as [x|] eqn:Fq.
      { rewrite Dq in H. cbn [andb] in H. inversion H; subst. repeat split; auto; intuition congruence. }
      destruct (d_may d q) eqn:Mq.
      2: { inversion H; subst. repeat split; auto; intuition congruence. }
      cbn [d_dir d_may d_file] in H. rewrite Dq, Hself, Hlead, orb_false_r in H. cbn [orb andb] in H.
      destruct (d_dir d p) eqn:Dp; cbn [negb andb] in H.
      { inversion H; subst; cbn. repeat split; auto; try intuition congruence.
        - intros s Hs. rewrite leads_to_longer by assumption. apply orb_false_r.
        - intros s Hs. rewrite Hs. reflexivity. }
      destruct (d_may d p) eqn:Mp; inversion H; subst; cbn.
      + rewrite String.eqb_refl, Dq, Hself. repeat split; auto; try (intros X; exfalso; apply X; auto; fail).
        * intros s Hs. apply String.eqb_neq in Hs. rewrite Hs. reflexivity.
        * intros s Hs. rewrite leads_to_longer by assumption. apply orb_false_r.
        * intros s Hs. rewrite Hs. reflexivity.
      + repeat split; auto; try intuition congruence.
        * intros s Hs. rewrite leads_to_longer by assumption. apply orb_false_r.
        * intros s Hs. rewrite Hs. reflexivity.
  Qed.
End Run.

(** ** C54 *)
(** [run] stores the model that [createTauModel] makes under the output name when the directory is there or can be made and the
    file can be written; otherwise the old content stays.  No other file is touched.  [run] raises what [createTauModel] raises,
    and nothing when the model cannot be stored. *)
Theorem C54_written :
  forall {T : Type} {N : Num T} {L : Libm T} fuel c vm (d : disk T) q b, file_in q b (cr_out c) ->
  (forall d', create_run fuel c (Some vm) d = Ok d' ->
     exists t, createTauModel fuel c vm = Ok t /\
       (writable d q (cr_out c) -> d_file d' (cr_out c) = Some (Pickled t)) /\
       (~ writable d q (cr_out c) -> d_file d' (cr_out c) = d_file d (cr_out c)) /\
       (forall p, p <> cr_out c -> d_file d' p = d_file d p)) /\
  ((exists d', create_run fuel c (Some vm) d = Ok d') <-> exists t, createTauModel fuel c vm = Ok t) /\
  (forall e, create_run fuel c (Some vm) d = Raise e <-> createTauModel fuel c vm = Raise e).
Proof.
  intros T N L fuel c vm d q b Hin. split; [|split].
  - intros d' H. destruct (run_ok _ _ _ _ _ _ _ Hin H) as [t [A [B [C [D _]]]]]. exists t. repeat split; auto. intros W. apply B, W.
  - split; intros [x H].
    + destruct (run_ok _ _ _ _ _ _ _ Hin H) as [t [A _]]. eauto.
    + unfold create_run. rewrite H. cbn [bind]. destruct (if path_exists _ _ then _ else _) as [d1|]; [|eauto].
      destruct (writeModel _ _ _); eauto.
  - intros e. unfold create_run. destruct (createTauModel fuel c vm) as [t|e'|]; cbn [bind].
    + split; [|discriminate]. destruct (if path_exists _ _ then _ else _) as [d1|]; [|discriminate].
      destruct (writeModel _ _ _); discriminate.
    + split; congruence.
    + split; discriminate.
Qed.

(** Without a directory in the output name nothing is stored and nothing is raised. *)
Theorem C54_no_directory_refuted :
  forall {T : Type} {N : Num T} {L : Libm T} fuel c vm t (d : disk T),
  ~ has_chr "/" (cr_out c) -> d_dir d "" = false -> d_file d "" = None ->
  createTauModel fuel c vm = Ok t -> create_run fuel c (Some vm) d = Ok d.
Proof.
  intros T N L fuel c vm t d Hs D F H. unfold create_run. rewrite H. cbn [bind].
  rewrite dirname_none by assumption. unfold path_exists. rewrite D, F. reflexivity.
Qed.

Lemma get_name : forall dir ver p st, path_stem p st -> get_model_filename dir ver p = packaged dir ver st.
Proof.
  intros dir ver p st [b [Hb Hs]]. unfold get_model_filename, packaged.
  rewrite (final_unique _ _ _ (basename_spec p) Hb), (stem_unique _ _ _ (splitext_spec b) Hs). reflexivity.
Qed.
Lemma stem_of : forall p, path_stem p (splitext_stem (basename p)).
Proof. intros p. exists (basename p). split; [apply basename_spec|apply splitext_spec]. Qed.
Lemma path_stem_unique : forall p s s', path_stem p s -> path_stem p s' -> s = s'.
Proof. intros p s s' [b [A B]] [b' [A' B']]. rewrite (final_unique _ _ _ A A') in B. eapply stem_unique; eassumption. Qed.

Lemma packaged_inj : forall dir ver s s', packaged dir ver s = packaged dir ver s' -> s = s'.
Proof.
  unfold packaged. intros dir ver s s' H. apply app_inv_head_s in H. cbn [append] in H. injection H as H.
  apply app_inv_tail_s in H. assumption.
Qed.
Lemma last_chr : forall a b x y, a ++ String x "" = b ++ String y "" -> x = y.
Proof.
  induction a as [|u a IH]; intros [|v b] x y H; cbn in H.
  - congruence.
  - injection H as _ H. destruct b; discriminate.
  - injection H as _ H. destruct a; discriminate.
  - injection H as _ H. eauto.
Qed.
Lemma packaged_not_tvel : forall dir ver st s, s ++ ".tvel" <> packaged dir ver st.
Proof.
  intros dir ver st s H.
  assert (E1 : s ++ ".tvel" = (s ++ ".tve") ++ "l") by (rewrite app_assoc_s; reflexivity).
  assert (E2 : packaged dir ver st = (dir ++ "/" ++ st ++ "__py" ++ ver ++ "__tvel.pickl") ++ "e").
  { unfold packaged. repeat (first [rewrite app_assoc_s | progress cbn [append]]). reflexivity. }
  rewrite E1, E2 in H. apply last_chr in H. discriminate.
Qed.
Lemma stem_no_slash : forall p st, path_stem p st -> ~ has_chr "/" st.
Proof.
  intros p st [b [[Hb _] [[ext [-> _]]|[-> _]]]]; [|assumption].
  intros C. apply Hb. apply has_app. auto.
Qed.
Lemma packaged_in : forall dir ver p st, path_stem p st -> ~ has_chr "/" ver -> dir <> "" -> (forall q, dir <> q ++ "/") ->
  file_in dir (st ++ "__py" ++ ver ++ "__tvel.pickle") (packaged dir ver st).
Proof.
  intros dir ver p st Hs Hv Hd He. split; [reflexivity|]. split; [|tauto].
  pose proof (stem_no_slash _ _ Hs) as Hn. intros C. repeat rewrite has_app in C.
  destruct C as [C|[C|[C|C]]]; try tauto; cbn in C; repeat (destruct C as [C|C]; [discriminate|]); assumption.
Qed.

Section Build.
  Context {T : Type} {N : Num T} {L : Libm T}.
  Variable py_float : string -> option T.

  (** the model that belongs to the velocity file [p] *)
  Definition model_of (fuel : nat) (dir ver : string) (d : disk T) (p st : string) (t : tmodel T) : Prop :=
    exists lines vm, d_file d p = Some (Text lines) /\
      readVelocityFile py_float p (basename p) lines = Ok vm /\
      createTauModel fuel (newCreate p (packaged dir ver st)) vm = Ok t.

  Definition unit_build (fuel : nat) (dir ver : string) (d : disk T) (model : string) : result (disk T) :=
    let c := newCreate model (get_model_filename dir ver model) in
    let! vm := loadVMod py_float d c in create_run fuel c (Some vm) d.

  Lemma load_inv : forall (d : disk T) p out vm, (exists s, p = s ++ ".tvel") ->
    loadVMod py_float d (newCreate p out) = Ok vm ->
    exists lines, d_file d p = Some (Text lines) /\ readVelocityFile py_float p (basename p) lines = Ok vm.
  Proof.
    intros d p out vm Hp H. unfold loadVMod in H. cbn [cr_in newCreate] in H.
    apply str_endswith_iff in Hp. rewrite Hp in H. destruct (d_file d p) as [[lines|t]|] eqn:E; try discriminate. eauto.
  Qed.

  Lemma build_inv : forall fuel dir ver listing (d d' : disk T),
    ~ has_chr "/" ver -> dir <> "" -> (forall q, dir <> q ++ "/") ->
    (forall p, In p listing -> exists s, p = s ++ ".tvel") ->
    (forall p p' st, In p listing -> In p' listing -> path_stem p st -> path_stem p' st -> p = p') ->
    build_models py_float fuel dir ver listing d = Ok d' ->
    (forall p, (forall q st, In q listing -> path_stem q st -> p <> packaged dir ver st) -> d_file d' p = d_file d p) /\
    (forall p st, In p listing -> path_stem p st ->
       exists t, model_of fuel dir ver d p st t /\
         (writable d dir (packaged dir ver st) -> d_file d dir = None -> d_file d' (packaged dir ver st) = Some (Pickled t))).
  Proof.
    intros fuel dir ver listing d d' Hv Hd He. unfold build_models. change (fun (d : disk T) (model : string) => _) with (unit_build fuel dir ver).
    revert d. induction listing as [|p0 rest IH]; intros d Ht Hu H; cbn [foldM] in H.
    { inversion H; subst. split; [auto|]. intros p st []. }
    inv_as H as d1 H1.
    pose proof (stem_of p0) as S0. set (st0 := splitext_stem (basename p0)) in S0.
    assert (N0 := get_name dir ver p0 st0 S0).
    unfold unit_build in H1. rewrite N0 in H1. inv_as H1 as vm Hvm.
    destruct (load_inv _ _ _ _ (Ht p0 (or_introl eq_refl)) Hvm) as [lines [F0 R0]].
    pose proof (packaged_in dir ver p0 st0 S0 Hv Hd He) as In0.
    destruct (run_ok fuel (newCreate p0 (packaged dir ver st0)) vm d d1 dir _ In0 H1)
      as [t0 [A [B [C [D [E [E' G]]]]]]]. cbn [cr_out newCreate] in B, C, D.
    destruct (IH d1 (fun p Hp => Ht p (or_intror Hp))
                (fun p p' st Hp Hp' => Hu p p' st (or_intror Hp) (or_intror Hp')) H) as [K1 K2].
    assert (Inputs : forall p, In p (p0 :: rest) -> d_file d1 p = d_file d p).
    { intros p Hp. apply D. destruct (Ht p Hp) as [s ->]. apply packaged_not_tvel. }
    assert (M0 : model_of fuel dir ver d p0 st0 t0) by (exists lines, vm; auto).
    split.
    - intros p Hp. rewrite K1.
      + apply D. apply (Hp p0); [left; reflexivity|assumption].
      + intros q st Hq. apply Hp. right. assumption.
    - intros p st Hp Hs.
      destruct (in_dec string_dec p rest) as [Hr|Hr].
      + destruct (K2 p st Hr Hs) as [t [[ls [v [X1 [X2 X3]]]] Y]]. exists t. split.
        * exists ls, v. rewrite (Inputs p Hp) in X1. auto.
        * intros [W1 [W2 W3]] Wf. apply Y.
          -- unfold writable. rewrite !G. rewrite (E (packaged dir ver st)) by (eapply file_in_longer; eapply packaged_in; eassumption).
             split; [|auto]. destruct W1 as [W1|[W1 W1']]; [left; auto|]. right. split; [|assumption].
             rewrite D; [assumption|]. intros C0. pose proof (file_in_longer _ _ _ In0) as Hl. rewrite <- C0 in Hl. lia.
          -- rewrite D; [assumption|]. intros C0. pose proof (file_in_longer _ _ _ In0) as Hl. rewrite <- C0 in Hl. lia.
      + destruct Hp as [<-|Hp]; [|contradiction].
        assert (st = st0) by (eapply path_stem_unique; eassumption). subst st. exists t0. split; [exact M0|].
        intros W Wf. rewrite K1; [apply B; assumption|].
        intros q st Hq Hqs C0. apply packaged_inj in C0. subst st.
        apply Hr. rewrite (Hu p0 q st0); auto; [left; reflexivity|right; assumption].
  Qed.

  (** The models that setup.py builds can be loaded by name: each gives what was computed from the velocity file of that stem, whatever the
      directory or extension in the name. *)
  Theorem C54_build_load : forall fuel dir ver listing (d d' : disk T),
    ~ has_chr "/" ver -> dir <> "" -> (forall q, dir <> q ++ "/") ->
    (forall p, In p listing -> exists s, p = s ++ ".tvel") ->
    (forall p p' st, In p listing -> In p' listing -> path_stem p st -> path_stem p' st -> p = p') ->
    d_file d dir = None -> (d_dir d dir = true \/ d_may d dir = true) ->
    build_models py_float fuel dir ver listing d = Ok d' ->
    (forall p, (forall q st, In q listing -> path_stem q st -> p <> packaged dir ver st) -> d_file d' p = d_file d p) /\
    forall p b st, In p listing -> final_component p b -> name_stem b st ->
    exists lines vm t, d_file d p = Some (Text lines) /\ readVelocityFile py_float p b lines = Ok vm /\
      createTauModel fuel (newCreate p (packaged dir ver st)) vm = Ok t /\
      (d_dir d (packaged dir ver st) = false -> d_may d (packaged dir ver st) = true ->
       forall name, path_stem name st -> load dir ver (d_file d') name = Ok (Pickled t)).
  Proof.
    intros fuel dir ver listing d d' Hv Hd He Ht Hu Hf Hm H.
    destruct (build_inv _ _ _ _ _ _ Hv Hd He Ht Hu H) as [K1 K2]. split; [exact K1|].
    intros p b st Hp Hb Hs. destruct (K2 p st Hp (ex_intro _ b (conj Hb Hs))) as [t [[lines [vm [X1 [X2 X3]]]] Y]].
    rewrite (final_unique _ _ _ (basename_spec p) Hb) in X2. exists lines, vm, t. repeat split; auto.
    intros P1 P2 name [b' [Hb' Hs']].
    destruct (C40_load dir ver (d_file d') name) as [_ [_ A]]. apply (A b' st Hb' Hs'). left. apply Y; [|assumption].
    unfold writable. tauto.
  Qed.

  (** Building stops with an error of one of the files: reading it failed or making its model did. *)
  Theorem C54_build_errors : forall fuel dir ver listing (d : disk T) e,
    ~ has_chr "/" ver -> dir <> "" -> (forall q, dir <> q ++ "/") ->
    (forall p, In p listing -> exists s, p = s ++ ".tvel") ->
    build_models py_float fuel dir ver listing d = Raise e ->
    exists p b st, In p listing /\ final_component p b /\ name_stem b st /\
      match d_file d p with
      | None => e = FileNotFoundError
      | Some (Pickled _) => e = ValueError
      | Some (Text lines) =>
          readVelocityFile py_float p b lines = Raise e \/
          exists vm, readVelocityFile py_float p b lines = Ok vm /\
            createTauModel fuel (newCreate p (packaged dir ver st)) vm = Raise e
      end.
  Proof.
    intros fuel dir ver listing d e Hv Hd He Ht. unfold build_models. change (fun (d : disk T) (model : string) => _) with (unit_build fuel dir ver).
    revert d. induction listing as [|p0 rest IH]; intros d H; cbn [foldM] in H; [discriminate|].
    pose proof (stem_of p0) as S0. set (st0 := splitext_stem (basename p0)) in S0.
    assert (N0 := get_name dir ver p0 st0 S0).
    pose proof (packaged_in dir ver p0 st0 S0 Hv Hd He) as In0.
    destruct (unit_build fuel dir ver d p0) as [d1|e1|] eqn:H1; [| |discriminate].
    - cbn [bind] in H. unfold unit_build in H1. rewrite N0 in H1. inv_as H1 as vm Hvm.
      destruct (run_ok fuel (newCreate p0 (packaged dir ver st0)) vm d d1 dir _ In0 H1) as [t0 [A [B [C [D _]]]]].
      cbn [cr_out newCreate] in D.
      destruct (IH (fun p Hp => Ht p (or_intror Hp)) d1 H) as [p [b [st [Hp [Hb [Hs K]]]]]].
      exists p, b, st. split; [right; assumption|]. split; [assumption|]. split; [assumption|].
      rewrite <- D; [exact K|]. destruct (Ht p (or_intror Hp)) as [s ->]. apply packaged_not_tvel.
    - cbn [bind] in H. inversion H; subst e1. exists p0, (basename p0), st0.
      split; [left; reflexivity|]. split; [apply basename_spec|]. split; [apply splitext_spec|].
      unfold unit_build in H1. rewrite N0 in H1. unfold loadVMod in H1. cbn [cr_in newCreate] in H1.
      assert (Et : str_endswith ".tvel" p0 = true) by (apply str_endswith_iff, Ht; left; reflexivity). rewrite Et in H1.
      destruct (d_file d p0) as [[lines|t]|] eqn:F0.
      + destruct (readVelocityFile py_float p0 (basename p0) lines) as [vm|e1|] eqn:R0; cbn [bind] in H1; [|left; congruence|discriminate].
        right. exists vm. split; [reflexivity|].
        apply (C54_written fuel (newCreate p0 (packaged dir ver st0)) vm d dir _ In0). assumption.
      + cbn [bind] in H1. congruence.
      + cbn [bind] in H1. congruence.
  Qed.
End Build.

(** A model file "a.b.tvel" cannot be loaded as "a.b", the name under which it was stored. *)
Theorem C54_dotted_name_refuted : forall {C : Type} dir ver (fs : string -> option C) s e,
  ~ has_chr "/" (s ++ "." ++ e) -> ~ has_chr "." e -> ~ only_chr "." s ->
  fs (packaged dir ver s) = None -> fs (s ++ "." ++ e) = None ->
  get_model_filename dir ver (s ++ "." ++ e ++ ".tvel") = packaged dir ver (s ++ "." ++ e) /\
  load dir ver fs (s ++ "." ++ e) = Raise FileNotFoundError.
Proof.
  intros C dir ver fs s e Hs He Ho F1 F2. split.
  - apply get_name. exists (s ++ "." ++ e ++ ".tvel"). split.
    + split; [|left; reflexivity]. intros X. apply Hs. repeat rewrite has_app in *. cbn in X. cbn.
      destruct X as [X|[X|[X|X]]]; try tauto. repeat (destruct X as [X|X]; [discriminate|]). contradiction.
    + left. exists "tvel". split; [repeat rewrite app_assoc_s; reflexivity|]. split.
      * cbn. intros X. repeat (destruct X as [X|X]; [discriminate|]). assumption.
      * intros X. apply only_app in X. tauto.
  - destruct (C40_load dir ver fs (s ++ "." ++ e)) as [_ [_ A]].
    apply (A (s ++ "." ++ e) s); auto.
    + split; [assumption|left; reflexivity].
    + left. exists e. auto.
Qed.

(** [create_taup_model] does not work at all: it calls a method that TauP_Create does not have. *)
Theorem C54_interface_refuted : forall {T : Type} (main : string -> string -> string -> result (disk T)) name out input,
  create_taup_model main name out input = Raise AttributeError.
Proof. intros. unfold create_taup_model. destruct (str_in "." name); reflexivity. Qed.

(** With the default arguments: slowness steps from 0.1 to 11 s/rad, depth steps of at most 115 km, distance steps of 2.5 degrees,
    interpolation errors of 0.05 s, S waves in the inner core; only spherical models. *)
Theorem C54_parameters : forall fuel input output (vm : vmodel R) t,
  createTauModel fuel (newCreate input output) vm = Ok t <->
  vm_spherical vm = true /\
  exists m, newSlownessModel fuel vm (1 / 10)%R 11%R 115%R (2.5 * PI / 180)%R (5 / 100)%R true (/ 10 ^ 16)%R = Ok m /\
            newTauModel fuel m = Ok t.
Proof.
  intros fuel input output vm t. unfold createTauModel, newCreate.
  cbn [cr_minDeltaP cr_maxDeltaP cr_maxDepthInterval cr_maxRangeInterval cr_maxInterpError cr_innerS].
  assert (P1 : @n_lit R Num_R 1 (-1) = (1 / 10)%R) by (change (@n_lit R Num_R) with Rlit; unfold Rlit, powerRZ; simpl; lra).
  assert (P2 : @n_lit R Num_R 110 (-1) = 11%R) by (change (@n_lit R Num_R) with Rlit; unfold Rlit, powerRZ; simpl; lra).
  assert (P3 : @n_lit R Num_R 1150 (-1) = 115%R) by (change (@n_lit R Num_R) with Rlit; unfold Rlit, powerRZ; simpl; lra).
  assert (P4 : @n_lit R Num_R 25 (-1) = 2.5%R) by (change (@n_lit R Num_R) with Rlit; unfold Rlit, powerRZ; simpl; lra).
  assert (P5 : @n_lit R Num_R 5 (-2) = (5 / 100)%R) by (change (@n_lit R Num_R) with Rlit; unfold Rlit, powerRZ; simpl; lra).
  assert (P6 : @n_lit R Num_R 1800 (-1) = 180%R) by (change (@n_lit R Num_R) with Rlit; unfold Rlit, powerRZ; simpl; lra).
  assert (P7 : @n_lit R Num_R 1 (-16) = (/ 10 ^ 16)%R) by (change (@n_lit R Num_R) with Rlit; unfold Rlit, powerRZ; simpl; lra).
  rewrite P1, P2, P3, P4, P5, P6, P7. rewrite py_div_R by lra. cbn [bind].
  change (@m_pi R Libm_R) with PI. change (@n_mul R Num_R) with Rmult.
  destruct (vm_spherical vm); cbn [negb].
  - split.
    + intros H. split; [reflexivity|]. inv_as H as m Hm. exists m. auto.
    + intros [_ [m [A B]]]. rewrite A. cbn [bind]. exact B.
  - split; [discriminate|]. intros [C _]. discriminate.
Qed.

(** ** Concrete cases *)
(** Numbers with fourteen binary places, rounded down, and a rough library in which rays take no time on their way through a
    layer: enough to see the default sampling make 62 layers for each wave type. *)
Section Rough.
  Local Open Scope Z_scope.
  Definition fx : Type := Z.
  Definition fx_1 : Z := 16384.
  #[local] Instance Num_fx : Num fx := {|
    n_add := Z.add; n_sub := Z.sub; n_mul := fun a b => Z.shiftr (a * b) 14; n_div := fun a b => Z.shiftl a 14 / b;
    n_opp := Z.opp; n_abs := Z.abs; n_ltb := Z.ltb; n_leb := Z.leb; n_eqb := Z.eqb;
    n_lit := fun m e => match e with
                        | Z0 => Z.shiftl m 14
                        | Zpos _ => Z.shiftl m 70
                        | Zneg k => Z.shiftl m 14 / 10 ^ Zpos k
                        end;
    n_isnan := fun _ => false; n_isinf := fun _ => false;
    n_ceil := fun a => - Z.shiftr (- a) 14; np_div := fun a b => Ok (Z.shiftl a 14 / b) |}.
  Definition Libm_rough : Libm fx := {|
    m_pi := 51471;
    m_sqrt := fun _ => Ok 0;
    m_log := fun x => Ok (x - fx_1);
    m_exp := fun x => Ok (x + fx_1);
    m_pow := fun x y => Ok (fx_1 + Z.shiftr (y * (x - fx_1)) 14);
    m_nppow := fun x y => Ok (fx_1 + Z.shiftr (y * (x - fx_1)) 14);
    m_sin := fun _ => Ok 0;
    m_cos := fun _ => Ok fx_1;
    m_asin := fun _ => Ok 0;
    m_acos := fun _ => Ok 0;
    m_mod := fun x y => Ok (x mod y);
    m_atan2 := fun _ _ => Ok 0 |}.
End Rough.
#[local] Existing Instance Num_fx.

(** whole numbers *)
Definition digits (s : string) : option fx :=
  match s with
  | EmptyString => None
  | _ => option_map (fun z => n_lit z 0)
           (fold_left (fun acc c => match acc with
                                    | None => None
                                    | Some z => let k := (Z.of_nat (nat_of_ascii c) - 48)%Z in
                                                if ((0 <=? k) && (k <=? 9))%Z then Some (10 * z + k)%Z else None
                                    end) (list_ascii_of_string s) (Some 0%Z))
  end.

(** a uniform Earth, in /pkg/data *)
Definition mini_lines : list string :=
  ["uniform"; "depth vp vs rho"; "0 1024 1024 2"; "6371 1024 1024 3"].
Definition mini_disk : disk fx :=
  mkDisk (fun p => if String.eqb p "/pkg/data/mini.tvel" then Some (Text mini_lines) else None)
         (fun p => str_mem p ["/pkg"; "/pkg/data"]) (fun p => str_startswith "/pkg/" p).

(** The directory /pkg/data/models does not exist before; all hypotheses of the theorems hold. *)
Example C54_ex_hyps :
  let dir := "/pkg/data/models" in let listing := ["/pkg/data/mini.tvel"] in
  ~ has_chr "/" "34" /\ dir <> "" /\ (forall q, dir <> q ++ "/") /\
  (forall p, In p listing -> exists s, p = s ++ ".tvel") /\
  (forall p p' st, In p listing -> In p' listing -> path_stem p st -> path_stem p' st -> p = p') /\
  d_file mini_disk dir = None /\ d_dir mini_disk dir = false /\ d_may mini_disk dir = true /\
  path_stem "/pkg/data/mini.tvel" "mini" /\ path_stem "mini" "mini" /\
  file_in dir "mini__py34__tvel.pickle" (packaged dir "34" "mini") /\
  writable mini_disk dir (packaged dir "34" "mini") /\
  d_dir mini_disk "" = false /\ d_file mini_disk "" = None.
Proof.
  cbv zeta.
  assert (E : forall q, "/pkg/data/models" <> q ++ "/").
  { intros q H. change "/pkg/data/models" with ("/pkg/data/model" ++ "s") in H. apply last_chr in H. discriminate. }
  assert (D : ~ has_chr "/" "34") by (cbn; intuition discriminate).
  assert (S1 : path_stem "/pkg/data/mini.tvel" "mini") by (exists "mini.tvel"; split; [apply final_by|apply stem_by]; reflexivity).
  split; [exact D|]. split; [discriminate|]. split; [exact E|].
  split; [intros p [<-|[]]; exists "/pkg/data/mini"; reflexivity|].
  split; [intros p p' st [<-|[]] [<-|[]]; reflexivity|].
  split; [reflexivity|]. split; [reflexivity|]. split; [reflexivity|]. split; [exact S1|].
  split; [exists "mini"; split; [apply final_by|apply stem_by]; reflexivity|].
  split; [exact (packaged_in "/pkg/data/models" "34" _ _ S1 D ltac:(discriminate) E)|].
  split; [|split; reflexivity].
  split; [right; split; reflexivity|]. split; reflexivity.
Qed.

(** the model that is built can be loaded under three names; the files of the input stay *)
Definition mini_check : bool :=
  let dir := "/pkg/data/models" in
  match build_models (L := Libm_rough) digits 400 dir "34" ["/pkg/data/mini.tvel"] mini_disk with
  | Ok d' =>
      forallb (fun name => match load dir "34" (d_file d') name with
                           | Ok (Pickled t) => (List.length (tm_rayParams t) =? 63)%nat
                           | _ => false
                           end) ["mini"; "mini.taup"; "/pkg/data/mini.tvel"]
      && match d_file d' "/pkg/data/mini.tvel" with Some (Text l) => (List.length l =? 4)%nat | _ => false end
      && d_dir d' dir
  | _ => false
  end.
Example C54_ex : mini_check = true.
Proof. vm_cast_no_check (eq_refl true). Qed.

(** a file that is no velocity model: the error of [C54_build_errors] *)
Example C54_errors_ex :
  build_models (L := Libm_rough) digits 400 "/pkg/data/models" "34" ["/pkg/data/mini.tvel"]
    (mkDisk (fun p => Some (Text ["a"; "b"; "0 fast 1 2"])) (fun _ => true) (fun _ => true)) = Raise ValueError /\
  build_models (L := Libm_rough) digits 400 "/pkg/data/models" "34" ["/pkg/data/other.tvel"] mini_disk = Raise FileNotFoundError.
Proof. vm_compute. split; reflexivity. Qed.

Example C54_dotted_ex :
  ~ has_chr "/" ("my" ++ "." ++ "model") /\ ~ has_chr "." "model" /\ ~ only_chr "." "my".
Proof. cbn. repeat split; intuition discriminate. Qed.

Print Assumptions C54_written.
Print Assumptions C54_no_directory_refuted.
Print Assumptions C54_build_load.
Print Assumptions C54_build_errors.
Print Assumptions C54_dotted_name_refuted.
Print Assumptions C54_interface_refuted.
Print Assumptions C54_parameters.
Print Assumptions C54_ex.

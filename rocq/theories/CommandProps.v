(** C63: the command line. *)
From Coq Require Import ZArith Bool List String Ascii Reals Lra.
From Verif Require Import Base Num PyStr VelocityModel SlownessLayer SlownessModel TauModel Legs SeismicPhase
  TauPTime Printing CommandLine CommandSpec TimeSpec NameSpec PrintProofs ViewProofs Toy.
Import ListNotations.
Local Open Scope string_scope.

Lemma given_some : forall o s, given o = Some s <-> texted o s.
Proof.
  intros [[|c s0]|] s; unfold texted; cbn; split; try discriminate; try (intros [H _]; discriminate H || congruence).
  - intros [H1 H2]. congruence.
  - intros H. injection H as <-. split; [reflexivity|discriminate].
Qed.
Lemma given_none : forall o, given o = None <-> untexted o.
Proof.
  intros o. unfold untexted. split.
  - intros H s Hs. apply given_some in Hs. congruence.
  - intros H. destruct (given o) as [s|] eqn:E; [|reflexivity]. apply given_some in E. destruct (H s E).
Qed.
Lemma takes_given : forall {A} (means : string -> A -> Prop) o before after,
  takes means o before after <-> match given o with Some s => means s after | None => after = before end.
Proof.
  intros A means o before after. unfold takes. destruct (given o) as [s|] eqn:E.
  - apply given_some in E. split; [intros [H _]; exact (H s E)|]. intros H. split.
    + intros s' Hs. destruct E as [E _], Hs as [E' _]. replace s' with s by congruence. exact H.
    + intros H'. destruct (H' s E).
  - apply given_none in E. split; [intros [_ H]; exact (H E)|]. intros H. split; [|auto]. intros s Hs. destruct (E s Hs).
Qed.

(** ** C63: reading the options *)

Lemma split_fields : forall c s l, str_split c s = l <-> fields c s l.
Proof.
  intros c s l. split.
  - intros <-. induction s as [|x s IH]; cbn [str_split]; [constructor; intros []|].
    destruct (Ascii.eqb_spec x c) as [->|Hx].
    + exact (fields_more c "" s _ (fun H => H) IH).
    + destruct IH as [s H|f s l H Hl].
      * constructor. cbn. intros [E|E]; [congruence|exact (H E)].
      * apply (fields_more c (String x f) s l); [|exact Hl]. cbn. intros [E|E]; [congruence|exact (H E)].
  - intros H.
    assert (P : forall f, ~ In c (list_ascii_of_string f) -> str_split c f = [f] /\
              forall s, str_split c (f ++ String c s) = f :: str_split c s).
    { induction f as [|x f IH]; intros Hf; cbn [str_split append].
      - split; [reflexivity|]. intros s0. rewrite Ascii.eqb_refl. reflexivity.
      - cbn in Hf. destruct (Ascii.eqb_spec x c) as [->|Hx]; [destruct Hf; left; reflexivity|].
        destruct IH as [I1 I2]; [intros F; apply Hf; right; exact F|]. rewrite I1. split; [reflexivity|]. intros s0. rewrite I2. reflexivity. }
    induction H as [s H|f s l H Hl IH]; [exact (proj1 (P s H))|]. rewrite (proj2 (P f H)), IH. reflexivity.
Qed.

Section Read.
  Context {T : Type} {N : Num T} {L : Libm T} {D : Dec T}.
  Variable read : string -> result T.

  Lemma number_or_ok : forall o before after,
    number_or read o before = Ok after <-> takes (fun s v => exists x, read s = Ok x /\ v = Some x) o before after.
  Proof.
    intros o before after. rewrite takes_given. unfold number_or. destruct (given o) as [s|].
    - destruct (read s) as [x| |]; cbn [bind]; split.
      + intros H. exists x. split; congruence.
      + intros [y [H1 H2]]. congruence.
      + discriminate.
      + intros [y [H1 _]]. discriminate.
      + discriminate.
      + intros [y [H1 _]]. discriminate.
    - split; congruence.
  Qed.
  Lemma depth_ok : forall o (before after : T),
    match given o with Some s => read s | None => Ok before end = Ok after <-> takes (fun s v => read s = Ok v) o before after.
  Proof. intros o before after. rewrite takes_given. destruct (given o); [reflexivity|]. split; congruence. Qed.
End Read.

(** Reading succeeds with exactly these values: the loaded model and everything computed before are
    kept; the phase list, the model name, the depth and the distance change only if their options are
    given; the distance in kilometres and the coordinates are those of the options even if these are
    not given. *)
Theorem C63_read : forall {T} (read : string -> result T) a (t t' : tool T),
  readcmdLineArgs read a t = Ok t' <->
  tl_state t' = tl_state t /\
  (tl_debug t' = true <-> ag_verbose a = true \/ tl_debug t = true) /\
  takes (fields ",") (ag_phase_list a) (tl_phaseList t) (tl_phaseList t') /\
  takes eq (ag_modelname a) (tl_modelName t) (tl_modelName t') /\
  takes (fun s v => read s = Ok v) (ag_depth a) (tl_depth t) (tl_depth t') /\
  takes (fun s v => exists x, read s = Ok x /\ v = Some x) (ag_degrees a) (tl_degrees t) (tl_degrees t') /\
  takes (fun s v => exists x, read s = Ok x /\ v = Some x) (ag_kilometres a) None (tl_kilometres t') /\
  takes (fun s v => exists x, read s = Ok x /\ v = Some x) (ag_staLat a) None (tl_stationLat t') /\
  takes (fun s v => exists x, read s = Ok x /\ v = Some x) (ag_staLon a) None (tl_stationLon t') /\
  takes (fun s v => exists x, read s = Ok x /\ v = Some x) (ag_evtLat a) None (tl_eventLat t') /\
  takes (fun s v => exists x, read s = Ok x /\ v = Some x) (ag_evtLon a) None (tl_eventLon t') /\
  tl_outFile t' = ag_outfile a.
Proof.
  intros T read a t t'.
  rewrite <- (depth_ok read), <- !number_or_ok, !takes_given. unfold readcmdLineArgs. split.
  - intros H.
    destruct (match given (ag_depth a) with Some s => read s | None => Ok (tl_depth t) end) as [dp| |]; cbn [bind] in H; try discriminate H.
    do 6 match type of H with bind ?c _ = _ => destruct c as [?| |]; cbn [bind] in H; try discriminate H end.
    injection H as <-. cbn.
    split; [reflexivity|]. split; [destruct (ag_verbose a); intuition congruence|].
    split; [destruct (given (ag_phase_list a)); [apply split_fields|]; reflexivity|].
    split; [destruct (given (ag_modelname a)); reflexivity|]. auto 10.
  - intros [E1 [E2 [E3 [E4 [-> [-> [-> [-> [-> [-> [-> E5]]]]]]]]]]]. cbn [bind]. f_equal.
    destruct t' as [s2 dbg2 pl2 mn2 dp2 dg2 km2 a2 b2 c2 d2 o2]. cbn in *. subst s2 o2. f_equal.
    + destruct (ag_verbose a), (tl_debug t), dbg2; intuition congruence.
    + destruct (given (ag_phase_list a)); [apply split_fields; exact E3|congruence].
    + destruct (given (ag_modelname a)); congruence.
Qed.

(** Reading fails exactly if the text of a numeric option is no number, even for options whose value is
    never used. *)
Theorem C63_read_fails : forall {T} (read : string -> result T) a (t : tool T),
  (forall s, (exists x, read s = Ok x) \/ read s = Raise ValueError) ->
  ((forall t', readcmdLineArgs read a t <> Ok t') <->
   exists o s, In o [ag_depth a; ag_degrees a; ag_kilometres a; ag_staLat a; ag_staLon a; ag_evtLat a; ag_evtLon a] /\
     texted o s /\ read s = Raise ValueError) /\
  ((forall t', readcmdLineArgs read a t <> Ok t') -> readcmdLineArgs read a t = Raise ValueError).
Proof.
  intros T read a t Hr.
  assert (B : forall o, (exists s, texted o s /\ read s = Raise ValueError) \/ (forall before, exists v, number_or read o before = Ok v)).
  { intros o. unfold number_or. destruct (given o) as [s|] eqn:E; [|right; eauto]. apply given_some in E.
    destruct (Hr s) as [[x Hx]|Hx]; [right; intros b; rewrite Hx; cbn; eauto|left; eauto]. }
  assert (Bad : forall o s before, texted o s -> read s = Raise ValueError -> number_or read o before = Raise ValueError).
  { intros o s b H1 H2. apply given_some in H1. unfold number_or. rewrite H1, H2. reflexivity. }
  assert (BD : forall o, (exists s, texted o s /\ read s = Raise ValueError) \/ (forall before, exists v, match given o with Some s => read s | None => Ok before end = Ok v)).
  { intros o. destruct (given o) as [s|] eqn:E; [|right; eauto]. apply given_some in E.
    destruct (Hr s) as [[x Hx]|Hx]; [right; intros b; rewrite Hx; cbn; eauto|left; eauto]. }
  assert (BadD : forall o s (before : T), texted o s -> read s = Raise ValueError -> match given o with Some s => read s | None => Ok before end = Raise ValueError).
  { intros o s b H1 H2. apply given_some in H1. rewrite H1, H2. reflexivity. }
  assert (X : (exists t', readcmdLineArgs read a t = Ok t') \/
     (readcmdLineArgs read a t = Raise ValueError /\ exists o s, In o [ag_depth a; ag_degrees a; ag_kilometres a; ag_staLat a; ag_staLon a; ag_evtLat a; ag_evtLon a] /\
     texted o s /\ read s = Raise ValueError)).
  { unfold readcmdLineArgs.
    destruct (BD (ag_depth a)) as [[s [H1 H2]]|G]; [right; rewrite (BadD _ _ _ H1 H2); split; [reflexivity|]; exists (ag_depth a), s; cbn; tauto|].
    destruct (G (tl_depth t)) as [v ->]. cbn [bind]. clear G.
    destruct (B (ag_degrees a)) as [[s [H1 H2]]|G]; [right; rewrite (Bad _ _ _ H1 H2); split; [reflexivity|]; exists (ag_degrees a), s; cbn; tauto|].
    destruct (G (tl_degrees t)) as [v1 ->]. cbn [bind]. clear G.
    destruct (B (ag_kilometres a)) as [[s [H1 H2]]|G]; [right; rewrite (Bad _ _ _ H1 H2); split; [reflexivity|]; exists (ag_kilometres a), s; cbn; tauto|].
    destruct (G None) as [v2 ->]. cbn [bind]. clear G.
    destruct (B (ag_staLat a)) as [[s [H1 H2]]|G]; [right; rewrite (Bad _ _ _ H1 H2); split; [reflexivity|]; exists (ag_staLat a), s; cbn; tauto|].
    destruct (G None) as [v3 ->]. cbn [bind]. clear G.
    destruct (B (ag_staLon a)) as [[s [H1 H2]]|G]; [right; rewrite (Bad _ _ _ H1 H2); split; [reflexivity|]; exists (ag_staLon a), s; cbn; tauto|].
    destruct (G None) as [v4 ->]. cbn [bind]. clear G.
    destruct (B (ag_evtLat a)) as [[s [H1 H2]]|G]; [right; rewrite (Bad _ _ _ H1 H2); split; [reflexivity|]; exists (ag_evtLat a), s; cbn; tauto|].
    destruct (G None) as [v5 ->]. cbn [bind]. clear G.
    destruct (B (ag_evtLon a)) as [[s [H1 H2]]|G]; [right; rewrite (Bad _ _ _ H1 H2); split; [reflexivity|]; exists (ag_evtLon a), s; cbn; tauto|].
    destruct (G None) as [v6 ->]. cbn [bind]. left. eauto. }
  destruct X as [[t' Ht]|[E F]].
  - split; [|intros H; destruct (H t' Ht)]. split; [intros H; destruct (H t' Ht)|].
    intros [o [s [Ho [H1 H2]]]]. exfalso. apply C63_read in Ht.
    destruct Ht as [_ [_ [_ [_ [[K1 _] [[K2 _] [[K3 _] [[K4 _] [[K5 _] [[K6 _] [[K7 _] _]]]]]]]]]]].
    cbn in Ho. destruct Ho as [<-|[<-|[<-|[<-|[<-|[<-|[<-|[]]]]]]]];
      [specialize (K1 s H1)|destruct (K2 s H1) as [x [K _]]|destruct (K3 s H1) as [x [K _]]|destruct (K4 s H1) as [x [K _]]|
       destruct (K5 s H1) as [x [K _]]|destruct (K6 s H1) as [x [K _]]|destruct (K7 s H1) as [x [K _]]]; congruence.
  - split; [|intros _; exact E]. split; [intros _; exact F|]. intros _ t' Ht. congruence.
Qed.

(** The comment in the code "Avoid overwriting already set variables with None" is not true of
    coordinates: coordinates given to the constructor are forgotten. *)
Theorem C63_coordinates_refuted : forall {T} (read : string -> result T) (t : tool T) a x,
  tl_stationLat t = Some x -> a = mkArgs false None None None None None None None None None None ->
  ~ (exists t', readcmdLineArgs read a t = Ok t' /\ tl_stationLat t' = tl_stationLat t).
Proof. intros T read t a x H -> [t' [H1 H2]]. cbn in H1. injection H1 as <-. cbn in H2. congruence. Qed.

(** ** C63: what the command prints *)

Section Command.
  Context {T : Type} {N : Num T} {L : Libm T} {D : Dec T}.
  Variable show : T -> string.

  Lemma retitled_refl : forall m m' l, retitled m m' l l.
  Proof. intros m m' l. unfold retitled. induction l; constructor; auto. Qed.
  Lemma retitled_app : forall m m' l1 l1' l2 l2', retitled m m' l1 l1' -> retitled m m' l2 l2' -> retitled m m' (l1 ++ l2)%list (l1' ++ l2')%list.
  Proof. intros. apply Forall2_app; assumption. Qed.
  Lemma print_retitled : forall m m' (s : ttime T),
    retitled m m' (fst (printResult m s)) (fst (printResult m' s)) /\ snd (printResult m s) = snd (printResult m' s).
  Proof.
    intros m m' s. unfold printResult. cbv zeta. rewrite !ob_say. cbn [fst snd]. split; [|reflexivity].
    constructor; [right; split; reflexivity|]. apply retitled_refl.
  Qed.
  Lemma run_retitled : forall fuel order w (s : ttime T) m m' pl depth degrees coords b,
    let x := run_out show fuel order w s m pl depth degrees coords b in
    let y := run_out show fuel order w s m' pl depth degrees coords b in
    retitled m m' (fst x) (fst y) /\ snd x = snd y.
  Proof.
    intros. subst x y. unfold run_out. cbv zeta.
    destruct (query_degrees degrees coords) as [deg| |]; [|cbn; split; [constructor|reflexivity]..].
    rewrite !ob_ok. destruct (tt_depthCorrect_out _ _ _ _ _) as [l1 [[w1 s1]| |]];
      [|cbn; split; [apply retitled_refl|reflexivity]..].
    rewrite !ob_said. destruct (calculate_out _ _ _ _ _) as [l2 [[w2 s2]| |]];
      [|cbn; split; [apply retitled_refl|reflexivity]..].
    rewrite !ob_said. destruct b.
    - destruct (print_retitled m m' s2) as [P1 P2]. destruct (printResult m s2) as [l3 r3], (printResult m' s2) as [l4 r4].
      cbn [fst snd] in P1, P2. subst r4. destruct r3; cbn; split; try reflexivity; repeat apply retitled_app; try apply retitled_refl; exact P1.
    - cbn. split; [apply retitled_refl|reflexivity].
  Qed.
  Lemma correct_source : forall fuel w (s : ttime T) x depth,
    tt_depthCorrect_out show fuel w (mkTT (tt_tMod s) (tt_tModDepth s) (tt_depthId s) (tt_nextId s) (tt_names s) (tt_phases s)
      (tt_depth s) x (tt_arrivals s)) depth = tt_depthCorrect_out show fuel w s depth.
  Proof.
    intros. unfold tt_depthCorrect_out. cbn [tt_tMod tt_tModDepth tt_depthId tt_nextId tt_names tt_phases tt_depth tt_sourceDepth tt_arrivals].
    destruct (negb _); [|reflexivity].
    destruct (tm_depthCorrect fuel w (tt_tMod s) depth) as [[[w1 self] d1]|e|]; [|reflexivity..].
    rewrite !ob_ok. unfold recalcPhases_out.
    cbn [tt_tMod tt_tModDepth tt_depthId tt_nextId tt_names tt_phases tt_depth tt_sourceDepth tt_arrivals].
    destruct (recalc_out _ _ _ _ _ _ _ _) as [l [p| |]]; reflexivity.
  Qed.
  Lemma run_new : forall fuel order w (t : tmodel T) x m pl depth degrees coords b,
    run_out show fuel order w (tt_new t x) m pl depth degrees coords b =
    run_out show fuel order w (tt_new t depth) m pl depth degrees coords b.
  Proof.
    intros. unfold run_out. cbv zeta. destruct (query_degrees degrees coords); [|reflexivity..]. rewrite !ob_ok. cbn.
    rewrite <- (correct_source fuel w (mkTT t t 0 1 (parsePhaseList order pl) [] depth x []) depth depth). reflexivity.
  Qed.
End Command.

(** The command answers the question given by its options (depth 0 if there is none) exactly like the
    interface does: it prints the same lines, up to the model name in the headline, and fails in
    the same way. *)
Theorem C63_command : forall {T} {N : Num T} {L : Libm T} {D : Dec T} (show : T -> string) read fuel order w (t : tmodel T) a
  depth degrees sLat sLon eLat eLon km names name,
  takes (fun s v => read s = Ok v) (ag_depth a) n_0 depth ->
  takes (fun s v => exists x, read s = Ok x /\ v = Some x) (ag_degrees a) None degrees ->
  takes (fun s v => exists x, read s = Ok x /\ v = Some x) (ag_kilometres a) None km ->
  takes (fun s v => exists x, read s = Ok x /\ v = Some x) (ag_staLat a) None sLat ->
  takes (fun s v => exists x, read s = Ok x /\ v = Some x) (ag_staLon a) None sLon ->
  takes (fun s v => exists x, read s = Ok x /\ v = Some x) (ag_evtLat a) None eLat ->
  takes (fun s v => exists x, read s = Ok x /\ v = Some x) (ag_evtLon a) None eLon ->
  takes (fields ",") (ag_phase_list a) [] names ->
  takes eq (ag_modelname a) (vm_name (sm_vMod (tm_sMod t))) name ->
  let c := command show read fuel order w t a in
  let g := get_travel_times_out show fuel order w t depth degrees (Some names) (Some [eLat; eLon; sLat; sLon]) true in
  retitled (vm_name (sm_vMod (tm_sMod t))) name (fst g) (fst c) /\
  (forall w' t', snd g = Ok (w', t', None) <-> exists x, snd c = Ok (w', x) /\ tt_tMod (tl_state x) = t') /\
  (forall e, snd g = Raise e <-> snd c = Raise e).
Proof.
  intros T N L D show read fuel order w t a depth degrees sLat sLon eLat eLon km names name H1 H2 H3 H4 H5 H6 H7 H8 H9 c g.
  assert (E : readcmdLineArgs read a (mkTool (tt_new t n_0) false [] (vm_name (sm_vMod (tm_sMod t))) n_0 None None None None None None None) =
    Ok (mkTool (tt_new t n_0) (ag_verbose a) names name depth degrees km sLat sLon eLat eLon (ag_outfile a))).
  { apply C63_read. cbn. repeat (split; [assumption || reflexivity || (destruct (ag_verbose a); intuition congruence)|]). reflexivity. }
  assert (Ec : c = obind (quiet (readcmdLineArgs read a (mkTool (tt_new t n_0) false [] (vm_name (sm_vMod (tm_sMod t))) n_0 None None None None None None None)))
     (fun x => tool_run show fuel order w x true)).
  { subst c. unfold command. rewrite <- (ob_ok (mkTool (tt_new t n_0) false [] (vm_name (sm_vMod (tm_sMod t))) n_0 None None None None None None None)
      (fun x => obind (quiet (readcmdLineArgs read a x)) (fun x => tool_run show fuel order w x true))). reflexivity. }
  rewrite E, ob_ok in Ec. unfold tool_run in Ec. cbv zeta in Ec.
  cbn [tl_state tl_debug tl_phaseList tl_modelName tl_depth tl_degrees tl_kilometres tl_stationLat tl_stationLon tl_eventLat tl_eventLon tl_outFile] in Ec.
  set (cs := Some [eLat; eLon; sLat; sLon]) in *.
  destruct (run_retitled show fuel order w (tt_new t depth) (vm_name (sm_vMod (tm_sMod t))) name names depth degrees cs true) as [R1 R2].
  subst g. unfold get_travel_times_out. cbv zeta. rewrite Ec, (run_new show fuel order w t n_0). clear c Ec.
  destruct (query_degrees degrees cs) as [deg|e|] eqn:Eq.
  - rewrite ob_ok. destruct (run_out show fuel order w (tt_new t depth) (vm_name (sm_vMod (tm_sMod t))) names depth degrees cs true) as [l1 r1].
    destruct (run_out show fuel order w (tt_new t depth) name names depth degrees cs true) as [l2 r2]. cbn [fst snd] in R1, R2. subst r2.
    destruct r1 as [[w1 s1]|e|]; cbn [obind fst snd quiet].
    + rewrite !app_nil_r. split; [exact R1|]. split; [|split; discriminate]. intros w' t'. split.
      * intros H. injection H as <- <-. eexists. split; reflexivity.
      * intros [x [H <-]]. injection H as <- <-. reflexivity.
    + split; [exact R1|]. split; [|intros; split; congruence]. intros w' t'. split; [discriminate|]. intros [x [H _]]. discriminate.
    + split; [exact R1|]. split; [|intros; split; congruence]. intros w' t'. split; [discriminate|]. intros [x [H _]]. discriminate.
  - unfold run_out. rewrite Eq. cbn. split; [constructor|]. split; [|intros; split; congruence]. intros w' t'. split; [discriminate|]. intros [x [H _]]. discriminate.
  - unfold run_out. rewrite Eq. cbn. split; [constructor|]. split; [|intros; split; congruence]. intros w' t'. split; [discriminate|]. intros [x [H _]]. discriminate.
Qed.


(** Without the name of another model the lines are the same. *)
Lemma retitled_same : forall m l l', retitled m m l l' -> l = l'.
Proof. intros m l l' H. induction H as [|x y l l' [->|[-> ->]] H IH]; [reflexivity|rewrite IH; reflexivity..]. Qed.

(** The help text of the option -mod, "Use this velocity model for calculations", is not true: the
    option changes nothing but the name in the headline. *)
Definition with_model (a : args) (m : option string) : args :=
  mkArgs (ag_verbose a) (ag_phase_list a) m (ag_depth a) (ag_degrees a) (ag_kilometres a) (ag_staLat a) (ag_staLon a)
    (ag_evtLat a) (ag_evtLon a) (ag_outfile a).
Theorem C63_model_refuted : forall {T} {N : Num T} {L : Libm T} {D : Dec T} (show : T -> string) read fuel order w (t : tmodel T) a m, m <> "" ->
  let c := command show read fuel order w t (with_model a (Some m)) in
  let c0 := command show read fuel order w t (with_model a None) in
  retitled (vm_name (sm_vMod (tm_sMod t))) m (fst c0) (fst c) /\
  match snd c0, snd c with
  | Ok (w1, x1), Ok (w2, x2) => w1 = w2 /\ tl_state x1 = tl_state x2
  | Raise e1, Raise e2 => e1 = e2
  | Diverge, Diverge => True
  | _, _ => False
  end.
Proof.
  intros T N L D show read fuel order w t a m Hm c c0. subst c c0. unfold command.
  replace (newTool t None n_0 None None) with (Ok (mkTool (tt_new t n_0) false [] (vm_name (sm_vMod (tm_sMod t))) n_0 None None None None None None None)) by reflexivity.
  rewrite !ob_ok. unfold readcmdLineArgs, with_model. cbv zeta.
  cbn [ag_verbose ag_phase_list ag_modelname ag_depth ag_degrees ag_kilometres ag_staLat ag_staLon ag_evtLat ag_evtLon ag_outfile
       tl_state tl_debug tl_phaseList tl_modelName tl_depth tl_degrees tl_kilometres tl_stationLat tl_stationLon tl_eventLat tl_eventLon tl_outFile].
  replace (given (Some m)) with (Some m) by (destruct m; [congruence|reflexivity]). change (given None) with (@None string). cbn iota.
  set (names := match given (ag_phase_list a) with Some s => str_split "," s | None => [] end).
  destruct (match given (ag_depth a) with Some s => read s | None => Ok n_0 end) as [depth| |]; cbn [bind]; [|cbn; split; [constructor|auto]..].
  destruct (number_or read (ag_degrees a) None) as [deg| |]; cbn [bind]; [|cbn; split; [constructor|auto]..].
  destruct (number_or read (ag_kilometres a) None) as [km| |]; cbn [bind]; [|cbn; split; [constructor|auto]..].
  destruct (number_or read (ag_staLat a) None) as [c1| |]; cbn [bind]; [|cbn; split; [constructor|auto]..].
  destruct (number_or read (ag_staLon a) None) as [c2| |]; cbn [bind]; [|cbn; split; [constructor|auto]..].
  destruct (number_or read (ag_evtLat a) None) as [c3| |]; cbn [bind]; [|cbn; split; [constructor|auto]..].
  destruct (number_or read (ag_evtLon a) None) as [c4| |]; cbn [bind]; [|cbn; split; [constructor|auto]..].
  rewrite !ob_ok. unfold tool_run. cbv zeta.
  cbn [tl_state tl_debug tl_phaseList tl_modelName tl_depth tl_degrees tl_kilometres tl_stationLat tl_stationLon tl_eventLat tl_eventLon tl_outFile].
  destruct (query_degrees _ _) as [dg| |]; [|cbn; split; [constructor|auto]..]. rewrite !ob_ok.
  destruct (run_retitled show fuel order w (tt_new t n_0) (vm_name (sm_vMod (tm_sMod t))) m names depth deg (Some [c3; c4; c1; c2]) true) as [R1 R2].
  destruct (run_out show fuel order w (tt_new t n_0) (vm_name (sm_vMod (tm_sMod t))) names depth deg (Some [c3; c4; c1; c2]) true) as [l1 r1].
  destruct (run_out show fuel order w (tt_new t n_0) m names depth deg (Some [c3; c4; c1; c2]) true) as [l2 r2]. cbn [fst snd] in R1, R2. subst r2.
  destruct r1 as [[w1 s1]| |]; cbn; rewrite ?app_nil_r; split; auto.
Qed.

(** "distance in kilometres": the option -km is read and never used.  With it alone there is no
    answer. *)
Theorem C63_kilometres_refuted : forall {T} {N : Num T} {L : Libm T} {D : Dec T} (show : T -> string) read fuel order w (t : tmodel T) km x,
  km <> "" -> read km = Ok x ->
  command show read fuel order w t (mkArgs false (Some "ttall") None None None (Some km) None None None None None) = ([], Raise ValueError).
Proof.
  intros T N L D show read fuel order w t km x Hk Hx. unfold command, readcmdLineArgs, number_or. cbn.
  destruct km; [congruence|]. cbn. rewrite Hx. reflexivity.
Qed.

(** "output is redirected to outfile": neither -o nor -v changes what is printed or computed. *)
Theorem C63_outfile_refuted : forall {T} {N : Num T} {L : Libm T} {D : Dec T} (show : T -> string) read fuel order w (t : tmodel T) v pl m dp dg km a b c d o,
  let x := command show read fuel order w t (mkArgs v pl m dp dg km a b c d o) in
  let y := command show read fuel order w t (mkArgs false pl m dp dg km a b c d None) in
  fst x = fst y /\
  match snd x, snd y with
  | Ok (w1, x1), Ok (w2, x2) => w1 = w2 /\ tl_state x1 = tl_state x2
  | Raise e1, Raise e2 => e1 = e2
  | Diverge, Diverge => True
  | _, _ => False
  end.
Proof.
  intros T N L D show read fuel order w t v pl m dp dg km a b c d0 o x y. subst x y. unfold command.
  replace (newTool t None n_0 None None) with (Ok (mkTool (tt_new t n_0) false [] (vm_name (sm_vMod (tm_sMod t))) n_0 None None None None None None None)) by reflexivity.
  rewrite !ob_ok. unfold readcmdLineArgs. cbv zeta.
  cbn [ag_verbose ag_phase_list ag_modelname ag_depth ag_degrees ag_kilometres ag_staLat ag_staLon ag_evtLat ag_evtLon ag_outfile
       tl_state tl_debug tl_phaseList tl_modelName tl_depth tl_degrees tl_kilometres tl_stationLat tl_stationLon tl_eventLat tl_eventLon tl_outFile].
  destruct (match given dp with Some s => read s | None => Ok n_0 end) as [depth| |]; cbn [bind]; [|cbn; auto..].
  do 6 (match goal with |- context [bind ?q] => destruct q as [?| |] end; cbn [bind]; [|cbn; auto..]).
  rewrite !ob_ok. unfold tool_run. cbv zeta.
  cbn [tl_state tl_debug tl_phaseList tl_modelName tl_depth tl_degrees tl_kilometres tl_stationLat tl_stationLon tl_eventLat tl_eventLon tl_outFile].
  destruct (query_degrees _ _) as [q| |]; [|cbn; auto..]. rewrite !ob_ok.
  destruct (run_out _ _ _ _ _ _ _ _ _ _ _) as [l1 [[w1 s1]| |]]; cbn; auto.
Qed.

(** Without -ph there are no phases (unlike the interface, which then uses all of them): nothing but
    the empty table is printed. *)
Theorem C63_no_phases : forall {T} {N : Num T} {L : Libm T} {D : Dec T} (show : T -> string) read fuel order w (t : tmodel T) a lines w' x,
  set_order_ok order -> untexted (ag_phase_list a) -> command show read fuel order w t a = (lines, Ok (w', x)) ->
  tt_arrivals (tl_state x) = [] /\ exists name, takes eq (ag_modelname a) (vm_name (sm_vMod (tm_sMod t))) name /\
    lines = [String (ascii_of_nat 10) ("Model: " ++ name);
   "Distance   Depth   Phase     Travel    Ray Param   Takeoff  Incident  Purist     Purist";
   "   (deg)    (km)   Name      Time (s)  p (s/deg)     (deg)     (deg)  Distance   Name ";
   "-------------------------------------------------------------------------------------"].
Proof.
  intros T N L D show read fuel order w t a lines w' x Ho Hp H.
  assert (On : parsePhaseList order [] = []).
  { unfold parsePhaseList. cbn. destruct (order []) as [|y l] eqn:E; [reflexivity|]. destruct (Ho []) as [_ Hi].
    destruct (proj1 (Hi y)). rewrite E. left. reflexivity. }
  assert (Hr : command show read fuel order w t a =
    obind (quiet (readcmdLineArgs read a (mkTool (tt_new t n_0) false [] (vm_name (sm_vMod (tm_sMod t))) n_0 None None None None None None None)))
      (fun x => tool_run show fuel order w x true)).
  { unfold command. rewrite <- (ob_ok (mkTool (tt_new t n_0) false [] (vm_name (sm_vMod (tm_sMod t))) n_0 None None None None None None None)
      (fun x => obind (quiet (readcmdLineArgs read a x)) (fun x => tool_run show fuel order w x true))). reflexivity. }
  rewrite Hr in H. destruct (readcmdLineArgs _ _ _) as [t1| |] eqn:E; [|discriminate H..]. rewrite ob_ok in H.
  apply C63_read in E. cbn [tl_state tl_phaseList] in E. destruct E as [Es [_ [[_ Ep] [Em _]]]]. specialize (Ep Hp).
  unfold tool_run in H. cbv zeta in H. rewrite Es, Ep in H.
  destruct (query_degrees _ _) as [q| |] eqn:Eq; [|discriminate H..]. rewrite ob_ok in H.
  unfold run_out in H. rewrite Eq, ob_ok in H. cbv zeta in H. rewrite On in H.
  assert (P : forall w1 (s1 : ttime T), tt_names s1 = [] -> tt_phases s1 = [] -> recalcPhases_out show w1 s1 = ([], Ok s1)).
  { intros w1 [] H1 H2. cbn in H1, H2. subst. reflexivity. }
  assert (Q : forall w1 (s1 : ttime T) dp, tt_names s1 = [] -> tt_phases s1 = [] ->
     forall l r, tt_depthCorrect_out show fuel w1 s1 dp = (l, r) -> l = [] /\ forall w2 s2, r = Ok (w2, s2) -> tt_names s2 = [] /\ tt_phases s2 = []).
  { intros w1 s1 dp H1 H2 l r Hd. unfold tt_depthCorrect_out in Hd. destruct (negb _).
    - destruct (tm_depthCorrect _ _ _ _) as [[[w3 self] d3]| |]; [|injection Hd as <- <-; split; [reflexivity|discriminate]..].
      rewrite ob_ok, P, ob_said in Hd by assumption. cbn in Hd. injection Hd as <- <-. split; [reflexivity|]. intros w2 s2 E2. injection E2 as <- <-. split; assumption.
    - cbn in Hd. injection Hd as <- <-. split; [reflexivity|]. intros w2 s2 E2. injection E2 as <- <-. split; assumption. }
  match type of H with context [tt_depthCorrect_out show fuel w ?s1 ?dp] =>
    destruct (tt_depthCorrect_out show fuel w s1 dp) as [l1 [[w1 s2]| |]] eqn:E1; [|discriminate H..];
    destruct (Q w s1 dp eq_refl eq_refl _ _ E1) as [-> Q1] end.
  destruct (Q1 w1 s2 eq_refl) as [Q2 Q3]. clear Q1 E1. rewrite ob_said in H. unfold calculate_out in H.
  destruct (tt_depthCorrect_out show fuel w1 s2 _) as [l2 [[w3 s3]| |]] eqn:E2; [|discriminate H..].
  destruct (Q _ _ _ Q2 Q3 _ _ E2) as [-> Q4]. destruct (Q4 w3 s3 eq_refl) as [Q5 Q6].
  rewrite ob_said, P, ob_said in H by assumption. unfold tt_calcTime in H. rewrite Q6 in H. cbn in H. injection H as <- <- <-. cbn. split; [reflexivity|].
  exists (tl_modelName t1). split; [exact Em|reflexivity].
Qed.

(** The distance found from coordinates is kept: an object that has answered one question ignores the
    coordinates of later ones that do not give a distance themselves. *)
Theorem C63_later_coordinates_refuted : forall {T} {N : Num T} {L : Libm T} {D : Dec T} (show : T -> string) read fuel order w (t : tool T) b lines w' t1 a t2,
  tool_run show fuel order w t b = (lines, Ok (w', t1)) -> untexted (ag_degrees a) -> readcmdLineArgs read a t1 = Ok t2 ->
  exists deg, query_degrees (tl_degrees t) (Some [tl_eventLat t; tl_eventLon t; tl_stationLat t; tl_stationLon t]) = Ok deg /\
    query_degrees (tl_degrees t2) (Some [tl_eventLat t2; tl_eventLon t2; tl_stationLat t2; tl_stationLon t2]) = Ok deg.
Proof.
  intros T N L D show read fuel order w t b lines w' t1 a t2 H Hd Hr. unfold tool_run in H. cbv zeta in H.
  destruct (query_degrees _ _) as [deg| |]; [|discriminate H..]. exists deg. split; [reflexivity|]. rewrite ob_ok in H.
  destruct (run_out _ _ _ _ _ _ _ _ _ _ _) as [l [[w1 s1]| |]]; [|discriminate H..]. cbn in H. injection H as _ <- <-.
  apply C63_read in Hr. destruct Hr as [_ [_ [_ [_ [_ [[_ Hk] _]]]]]]. rewrite (Hk Hd). reflexivity.
Qed.

(** ** examples *)

(** whole numbers, possibly negative *)
Definition read_int (s : string) : result b64 :=
  let go := fix go (acc : Z) (s : string) : result b64 :=
    match s with
    | "" => Ok (d acc 0)
    | String c s => let k := (Z.of_nat (nat_of_ascii c) - 48)%Z in
        if ((0 <=? k) && (k <=? 9))%Z then go (10 * acc + k)%Z s else Raise ValueError
    end in
  match s with "" => Raise ValueError | _ => go 0%Z s end.

(** the lines of a command that ends well *)
Definition told (x : out (list b64 * tool b64)) : option (list string) :=
  match snd x with Ok _ => Some (fst x) | _ => None end.
Definition ex_args : args :=
  mkArgs true (Some "P,Pp,S") (Some "other") (Some "100") (Some "40") None None None None None (Some "file").
Example C63_ex :
  told (command no_show read_int 50 (nodup string_dec) [] toy_tMod ex_args) =
  Some ["Error with this phase, skipping it: Pp";
        "Error with this phase, skipping it: Pp";
        String (ascii_of_nat 10) "Model: other";
        "Distance   Depth   PhaseTravel    Ray Param   Takeoff  Incident  Purist     Purist";
        "   (deg)    (km)   Name Time (s)  p (s/deg)     (deg)     (deg)  Distance   Name ";
        "--------------------------------------------------------------------------------";
        "   40.00   100.0   P     483.27      9.577    45.23     31.12     40.00  = P       ";
        "   40.00   100.0   S     898.28     18.422    50.08     35.44     40.00  = S       "]%string /\
  takes (fun s v => read_int s = Ok v) (ag_depth ex_args) n_0 (d 100 0) /\
  takes (fields ",") (ag_phase_list ex_args) [] ["P"; "Pp"; "S"] /\
  (exists t, readcmdLineArgs read_int ex_args (mkTool (tt_new toy_tMod n_0) false [] "toy" n_0 None None None None None None None) = Ok t /\
     tl_phaseList t = ["P"; "Pp"; "S"]) /\
  readcmdLineArgs read_int (mkArgs false None None None None (Some "12x") None None None None None)
    (mkTool (tt_new toy_tMod n_0) false [] "toy" n_0 None None None None None None None) = Raise ValueError.
Proof.
  split; [vm_compute; reflexivity|]. split; [apply takes_given; reflexivity|].
  split; [apply takes_given; cbn; apply split_fields; reflexivity|]. split; [|reflexivity]. eexists. split; [cbn; reflexivity|reflexivity].
Qed.

Example C63_kilometres_ex :
  command no_show read_int 50 (nodup string_dec) [] toy_tMod (mkArgs false (Some "ttall") None None None (Some "4000") None None None None None)
  = ([], Raise ValueError).
Proof. apply (C63_kilometres_refuted _ _ _ _ _ _ _ (d 4000 0)); [discriminate|reflexivity]. Qed.
(** no phases *)
Example C63_no_phases_ex :
  told (command no_show read_int 50 (nodup string_dec) [] toy_tMod (mkArgs false None None None (Some "40") None None None None None None)) =
  Some [String (ascii_of_nat 10) "Model: toy";
   "Distance   Depth   Phase     Travel    Ray Param   Takeoff  Incident  Purist     Purist";
   "   (deg)    (km)   Name      Time (s)  p (s/deg)     (deg)     (deg)  Distance   Name ";
   "-------------------------------------------------------------------------------------"]%string.
Proof. vm_compute. reflexivity. Qed.

Print Assumptions C63_read.
Print Assumptions C63_read_fails.
Print Assumptions C63_coordinates_refuted.
Print Assumptions C63_command.
Print Assumptions C63_model_refuted.
Print Assumptions C63_kilometres_refuted.
Print Assumptions C63_outfile_refuted.
Print Assumptions C63_no_phases.
Print Assumptions C63_later_coordinates_refuted.

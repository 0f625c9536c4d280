(** Lemmas about the influence of earlier queries (properties C30, C31, C39). *)
From Coq Require Import ZArith Bool List String Ascii Sorted Lia.
From Verif Require Import Base Num PyStr VelocityModel SlownessLayer SlownessModel VelSpec SlowSpec SlowProofs
  SplitSpec SplitProofs TauModel TauSpec TauProofs TauSplitProofs Legs SeismicPhase Pierce TauPTime
  NameSpec NameProofs NamePhaseProofs TimeSpec TimeProofs QuerySpec.
Import ListNotations.
Local Open Scope num_scope.
Local Open Scope list_scope.

(** ** nearest discontinuity (taupy/SeismicPhase.py:1064-1084) *)
Section Discon.
  Context {T : Type} {N : Num T} {O : NumOrd T}.

  Definition listedb (w : list T) (b : tbranch T) : bool := existsb (fun x => x =? tb_top b) w.
  Lemma listedb_iff : forall w b, listedb w b = true <-> listed w b.
  Proof. intros w b. unfold listedb. rewrite existsb_exists. reflexivity. Qed.

  Lemma discon_argmin : forall w x l i best bestd,
    closest_discon w x (Z.of_nat i) l best bestd =
    match argmin true i (map (fun b => (negb (listedb w b), n_abs (x - tb_top b))) l) bestd None with
    | Some n => Z.of_nat n
    | None => best
    end.
  Proof.
    intros w x l i best bestd.
    assert (K : forall l i bd found, closest_discon w x (Z.of_nat i) l (match found with Some n => Z.of_nat n | None => best end) bd =
      match argmin true i (map (fun b => (negb (listedb w b), n_abs (x - tb_top b))) l) bd found with
      | Some n => Z.of_nat n | None => best end).
    { clear. induction l as [|b l IH]; intros i bd found; cbn [closest_discon argmin map]; [destruct found; reflexivity|].
      replace (Z.of_nat i + 1)%Z with (Z.of_nat (S i)) by lia. unfold beats at 1. fold (listedb w b).
      destruct ((n_abs (x - tb_top b) <? bd) && negb (listedb w b)); [apply (IH (S i) _ (Some i))|apply IH]. }
    apply (K l i bestd None).
  Qed.

  Lemma nth_map_flag : forall {A} (f : A -> bool) (g : A -> T) l j e,
    nth_error (map (fun b => (f b, g b)) l) j = Some (true, e) <-> exists b, nth_error l j = Some b /\ f b = true /\ e = g b.
  Proof.
    intros A f g l j e. rewrite nth_error_map. destruct (nth_error l j) as [b|]; cbn; split; intros H.
    - inversion H. eauto.
    - destruct H as [c [E [E' ->]]]. inversion E; subst. rewrite E'. reflexivity.
    - discriminate.
    - destruct H as [c [E _]]. discriminate.
  Qed.

  Lemma discon_spec : forall w x l, (forall b, In b l -> n_ok (n_abs (x - tb_top b))) ->
    (exists n b, closest_discon w x 0 l (-1) (n_lit 1 300) = Z.of_nat n /\ nearest_discon w l x n /\
       nth_error l n = Some b /\ n_abs (x - tb_top b) <? n_lit 1 300 = true) \/
    (closest_discon w x 0 l (-1) (n_lit 1 300) = (-1)%Z /\
     forall b, In b l -> listed w b \/ n_abs (x - tb_top b) <? n_lit 1 300 = false).
  Proof.
    intros w x l Hok. change 0%Z with (Z.of_nat 0). rewrite discon_argmin.
    destruct (argmin_spec true (map (fun b => (negb (listedb w b), n_abs (x - tb_top b))) l) 0 (n_lit 1 300) None)
      as [[E H]|[n [e [E [Hn [Hb H]]]]]].
    - intros k e Hi. apply in_map_iff in Hi. destruct Hi as [b [Eb Hb]]. inversion Eb; subst. apply Hok. assumption.
    - apply lit300_ok.
    - right. rewrite E. split; [reflexivity|]. intros b Hb. destruct (listedb w b) eqn:El; [left; apply listedb_iff; assumption|right].
      apply (H (n_abs (x - tb_top b))). apply in_map_iff. exists b. rewrite El. auto.
    - left. rewrite E. apply nth_map_flag in Hn. destruct Hn as [b [Hn [Hf ->]]]. exists n, b.
      split; [reflexivity|]. split; [|split; assumption].
      apply negb_true_iff in Hf.
      assert (K : forall c, listedb w c = false <-> ~ listed w c).
      { intros c. rewrite <- listedb_iff. destruct (listedb w c); split; congruence. }
      exists b. split; [assumption|]. split; [apply K; assumption|]. intros j c Hj Hc. apply K in Hc.
      apply (H j). apply nth_map_flag. exists c. rewrite Hc. auto.
  Qed.
End Discon.

(** ** the shared list matters only through the branch tops it contains *)
Section World.
  Context {T : Type} {N : Num T} {L : Libm T}.
  Variable show : T -> string.

  Definition w_same (w1 w2 : list T) (t : tmodel T) : Prop :=
    forall b, In b (tm_P t) -> listedb w1 b = listedb w2 b.

  Section Same.
    Variables (w1 w2 : list T) (t : tmodel T).
    Hypothesis W : w_same w1 w2 t.

    Lemma discon_same : forall x i best bd l, (forall b, In b l -> In b (tm_P t)) ->
      closest_discon w1 x i l best bd = closest_discon w2 x i l best bd.
    Proof.
      intros x i best bd l. revert i best bd. induction l as [|b l IH]; intros i best bd Hl; [reflexivity|].
      cbn [closest_discon]. fold (listedb w1 b) (listedb w2 b). rewrite (W b) by (apply Hl; left; reflexivity).
      destruct (_ && _); apply IH; intros; apply Hl; right; assumption.
    Qed.
    Lemma closest_same : forall s, closestBranchToDepth w1 t s = closestBranchToDepth w2 t s.
    Proof.
      intros s. unfold closestBranchToDepth. destruct (seq_ s "m"); [reflexivity|]. destruct (seq_ s "c"); [reflexivity|].
      destruct (seq_ s "i"); [reflexivity|]. destruct (leg_float s); [|reflexivity]. rewrite discon_same; auto.
    Qed.
    Lemma bind_same : forall {A B} (r : result A) (f g : A -> result B), (forall a, f a = g a) -> bind r f = bind r g.
    Proof. intros A B [a| |] f g H; cbn; auto. Qed.
    Lemma bind_same2 : forall {A B} (r r' : result A) (f g : A -> result B), r = r' -> (forall a, f a = g a) -> bind r f = bind r' g.
    Proof. intros A B r r' f g -> H. apply bind_same. assumption. Qed.
    Ltac same := repeat first
      [ reflexivity
      | rewrite closest_same
      | match goal with
        | |- bind _ _ = bind _ _ => apply bind_same2; intros
        | |- (if ?b then _ else _) = (if ?b then _ else _) => destruct b
        | |- (match ?b with _ => _ end) = (match ?b with _ => _ end) => destruct b
        end ].
    Lemma purist_same : forall leg, purist_leg show w1 t leg = purist_leg show w2 t leg.
    Proof. intros leg. unfold purist_leg. same. Qed.
    Lemma mapM_same : forall {A B} (f g : A -> result B) l, (forall a, f a = g a) -> mapM f l = mapM g l.
    Proof. intros A B f g l H. induction l as [|a l IH]; [reflexivity|]. cbn [mapM]. rewrite H, IH. reflexivity. Qed.
    Lemma puristName_same : forall name legs, createPuristName show w1 t name legs = createPuristName show w2 t name legs.
    Proof.
      intros name legs. unfold createPuristName. apply bind_same. intros first. destruct (_ && _); [reflexivity|].
      rewrite (mapM_same _ _ _ purist_same). reflexivity.
    Qed.
    Lemma leg_up_same : forall s isP curr nxt nd, leg_up w1 t s isP curr nxt nd = leg_up w2 t s isP curr nxt nd.
    Proof. intros. unfold leg_up. same. Qed.
    Lemma leg_PS_same : forall s isP prev nxt nd rest, leg_PS w1 t s isP prev nxt nd rest = leg_PS w2 t s isP prev nxt nd rest.
    Proof. intros. unfold leg_PS. same. Qed.
    Lemma parse_leg_same : forall s ip isP ld prev curr nxt rest,
      parse_leg w1 t s ip isP ld prev curr nxt rest = parse_leg w2 t s ip isP ld prev curr nxt rest.
    Proof.
      intros. unfold parse_leg. apply bind_same. intros a. rewrite leg_up_same, leg_PS_same. reflexivity.
    Qed.
    Lemma parse_go_same : forall rest prev curr isP ld s,
      parse_go w1 t rest prev curr isP ld s = parse_go w2 t rest prev curr isP ld s.
    Proof.
      induction rest as [|nxt rest IH]; intros; [reflexivity|]. cbn [parse_go]. rewrite parse_leg_same.
      apply bind_same. intros [a|a]; [apply IH|reflexivity].
    Qed.
    Lemma parseName_same : forall name legs, parseName w1 t name legs = parseName w2 t name legs.
    Proof.
      intros. unfold parseName. apply bind_same. intros first. destruct (_ && _); [reflexivity|].
      destruct (_ && _); [reflexivity|]. cbv zeta. destruct (_ && _); [reflexivity|].
      destruct (_ || _); [apply bind_same; intros; rewrite parse_go_same; reflexivity|].
      destruct (_ || _); [|reflexivity]. destruct (_ =? _)%Z; [reflexivity|].
      apply bind_same; intros; rewrite parse_go_same; reflexivity.
    Qed.
    Lemma newPhase_same : forall id name, newPhase show w1 t id name = newPhase show w2 t id name.
    Proof.
      intros id name. unfold newPhase. apply bind_same. intros legs. rewrite puristName_same, parseName_same. reflexivity.
    Qed.
  End Same.

  Lemma build_all_same : forall {A} (f g : string -> result A) names, (forall n, f n = g n) -> build_all f names = build_all g names.
  Proof. intros A f g names H. induction names as [|n ns IH]; [reflexivity|]. cbn [build_all]. rewrite H, IH. reflexivity. Qed.

  (** ** the depth correction only appends to the shared list *)
  Lemma depthCorrect_world : forall fuel w (t : tmodel T) x,
    tm_depthCorrect fuel w t x =
    match tm_depthCorrect fuel [] t x with
    | Ok (w1, t', r) => Ok (w ++ w1, t', r) | Raise e => Raise e | Diverge => Diverge end.
  Proof.
    intros fuel w t x. unfold tm_depthCorrect. destruct (_ <>? _); [reflexivity|]. destruct (x >? _); [reflexivity|].
    unfold splitBranch. destruct (existsb _ (tm_P t)).
    - cbn [bind]. destruct (findBranch t x) as [sb| |]; cbn [bind]; [rewrite app_nil_r|..]; reflexivity.
    - destruct (splitLayer fuel (tm_sMod t) x false) as [[s1 i1]| |]; cbn [bind]; [|reflexivity..].
      destruct (insert_rp i1 _ _) as [rp1 iS]. destruct (splitLayer fuel (si_sMod i1) x true) as [[s2 i2]| |]; cbn [bind]; [|reflexivity..].
      destruct (insert_rp i2 _ _) as [rp2 iP]. destruct (findBranch t x) as [nb| |]; cbn [bind]; [|reflexivity..].
      destruct (split_branches _ _ true _ _ _ _ _ _ _ _) as [P| |]; cbn [bind]; [|reflexivity..].
      destruct (split_branches _ _ false _ _ _ _ _ _ _ _) as [Sb| |]; cbn [bind]; [|reflexivity..].
      match goal with |- context [findBranch ?d x] => destruct (findBranch d x) end; reflexivity.
  Qed.
End World.

(** ** one query *)
Section Query.
  Context {T : Type} {N : Num T} {O : NumOrd T} {L : Libm T}.
  Variable show : T -> string.

  Lemma tm_eta : forall t : tmodel T, t = mkTM (tm_sMod t) (tm_rayParams t) (tm_P t) (tm_S t) (tm_mohoBranch t) (tm_cmbBranch t)
    (tm_iocbBranch t) (tm_mohoDepth t) (tm_cmbDepth t) (tm_iocbDepth t) (tm_sourceDepth t) (tm_sourceBranch t) (tm_radius t).
  Proof. intros []. reflexivity. Qed.

  Lemma firstn_In : forall {A} n (l : list A) a, In a (firstn n l) -> In a l.
  Proof. intros A n l a H. rewrite <- (firstn_skipn n l). apply in_or_app. left. assumption. Qed.
  Lemma skipn_In : forall {A} n (l : list A) a, In a (skipn n l) -> In a l.
  Proof. intros A n l a H. rewrite <- (firstn_skipn n l). apply in_or_app. right. assumption. Qed.

  (** a split away from the layer boundaries leaves the receiver alone *)
  Lemma split_apart : forall fuel (m : smodel T) x v m' info, s_meet (sm_layers m v) -> s_upright (sm_layers m v) -> n_ok x ->
    apart m x -> splitLayer fuel m x v = Ok (m', info) -> m' = m /\ (si_needed info = false -> si_sMod info = m).
  Proof.
    intros fuel m x v m' info Hm Hu Hx Ha H.
    destruct (splitLayer_cases _ _ _ _ _ _ Hm Hu Hx H) as [k [y [Hs [Hy [C|[C|C]]]]]].
    - destruct C as [_ [-> ->]]. split; reflexivity.
    - exfalso. destruct C as [Nb [Cl _]]. apply nth_error_In in Hy. unfold close in Cl.
      destruct Cl as [Cl|Cl].
      + destruct (Ha v y _ Hy (or_introl eq_refl)) as [F|[F _]]; [tauto|congruence].
      + destruct (Ha v y _ Hy (or_intror eq_refl)) as [F|[_ F]]; [tauto|congruence].
    - destruct C as [_ [_ [_ [-> [E _]]]]]. split; [reflexivity|congruence].
  Qed.

  Lemma correct_keeps : forall fuel w (t : tmodel T) x w' t' r, decreasing (tm_rayParams t) -> gap_free t ->
    n_ok x -> apart (tm_sMod t) x -> tm_depthCorrect fuel w t x = Ok (w', t', r) -> t' = t.
  Proof.
    intros fuel w t x w' t' r Hd Hg Hx Ha H. apply depthCorrect_spec in H; [|assumption].
    destruct H as [_ [_ [_ [_ [_ [_ [_ [_ [_ H]]]]]]]]]. destruct H as [[_ [_ [-> _]]]|[_ [_ [H _]]]]; [reflexivity|].
    destruct H as [mS [iS [m2 [iP [H1 [H2 [_ [E E']]]]]]]].
    destruct (Hg false) as [G1 G2]. destruct (Hg true) as [G3 G4].
    destruct (split_apart _ _ _ _ _ _ G1 G2 Hx Ha H1) as [-> K].
    rewrite E'. rewrite (tm_eta t) at 13. f_equal. rewrite E. destruct (si_needed iS); [reflexivity|].
    rewrite (K eq_refl) in H2. apply (split_apart _ _ _ _ _ _ G3 G4 Hx Ha H2).
  Qed.

  (** when no new boundary is near another, the new branches start where they should *)
  Lemma apart_in_place : forall fuel w (t : tmodel T) x w' t' r, decreasing (tm_rayParams t) ->
    tm_depthCorrect fuel w t x = Ok (w', t', r) ->
    apart (tm_sMod r) x -> (forall b, In b (tm_P t) -> apart (tm_sMod r) (tb_top b)) -> in_place t r x.
  Proof.
    intros fuel w t x w' t' r Hd H Ax Ab b Hb. apply depthCorrect_spec in H; [|assumption].
    destruct H as [_ [_ [_ [_ [_ [_ [_ [_ [_ H]]]]]]]]]. destruct H as [H|H].
    - destruct H as [_ [_ [_ [_ [E _]]]]]. rewrite E in Hb. right. eauto.
    - destruct H as [_ [_ [_ [_ [_ [_ H]]]]]]. destruct H as [n [bP [topP [botP [bS [topS [botS [Hn [_ [_ [EP [HP _]]]]]]]]]]]].
      rewrite EP in Hb. apply nth_error_In in Hn.
      destruct (parts_exact _ _ _ _ _ _ _ Ax (Ab _ Hn) HP) as [E1 E2].
      apply in_app_or in Hb. destruct Hb as [Hb|[<-|[<-|Hb]]].
      + right. exists b. split; [eapply firstn_In; exact Hb|reflexivity].
      + right. exists bP. auto.
      + left. destruct HP as [_ [_ [_ [E3 _]]]]. congruence.
      + right. exists b. split; [eapply skipn_In; exact Hb|reflexivity].
  Qed.

  (** *** where the phases of a query are built *)
  (** [D] is the model for source depth [x], obtained while adding [w1] to the shared list *)
  Definition model_at (fuel : nat) (t : tmodel T) (x : T) (w1 : list T) (D : tmodel T) : Prop :=
    (x = tm_sourceDepth t /\ w1 = [] /\ D = t) \/ tm_depthCorrect fuel [] t x = Ok (w1, t, D).

  Lemma model_tops : forall fuel t x w1 D, decreasing (tm_rayParams t) -> n_ok x -> calm fuel t x \/ D = t /\ w1 = [] ->
    model_at fuel t x w1 D ->
    (w1 = [] /\ (forall b, In b (tm_P D) -> In b (tm_P t))) \/
    (w1 = [x] /\ no_tops [x] t /\ in_place t D x).
  Proof.
    intros fuel t x w1 D Hd Hx Hc [[_ [-> ->]]|H]; [left; auto|].
    destruct Hc as [[_ [_ Hc]]|[-> ->]]; [|left; auto].
    pose proof (Hc _ _ _ H) as Hp. apply depthCorrect_spec in H; [|assumption].
    destruct H as [_ [_ [_ [_ [_ [_ [_ [_ [_ H]]]]]]]]]. destruct H as [[_ [-> [_ [_ [E _]]]]]|[Hn [-> _]]].
    - left. split; [reflexivity|]. intros b Hb. congruence.
    - right. split; [reflexivity|]. split; [|assumption]. intros y b [<-|[]] Hb.
      destruct (x =? tb_top b) eqn:E; [|reflexivity]. exfalso. apply Hn. exists b. split; [assumption|]. left.
      rewrite eqb_sym. assumption.
  Qed.

  (** depths that are no boundaries make no difference *)
  Lemma model_same : forall fuel t x w1 D w, decreasing (tm_rayParams t) -> n_ok x -> calm fuel t x \/ D = t /\ w1 = [] ->
    model_at fuel t x w1 D -> no_tops w t -> incl w1 w -> w_same w w1 D.
  Proof.
    intros fuel t x w1 D w Hd Hx Hc HD Hw Hi b Hb.
    assert (K : forall w b, no_tops w t -> In b (tm_P t) -> listedb w b = false).
    { intros u c Hu Hc'. destruct (listedb u c) eqn:E; [|reflexivity]. apply listedb_iff in E. destruct E as [y [Hy E]].
      rewrite (Hu y c Hy Hc') in E. discriminate. }
    destruct (model_tops _ _ _ _ _ Hd Hx Hc HD) as [[-> Ht]|[-> [Hn Hp]]].
    - rewrite (K w b) by auto. reflexivity.
    - destruct (Hp b Hb) as [E|[b0 [Hb0 E]]].
      + assert (F : forall u, incl [x] u -> listedb u b = true).
        { intros u Hu. apply listedb_iff. exists x. split; [apply Hu; left; reflexivity|]. rewrite E. exact Hx. }
        rewrite (F w Hi), (F [x] (incl_refl _)). reflexivity.
      + assert (F : forall u, listedb u b = listedb u b0) by (intros; unfold listedb; rewrite E; reflexivity).
        rewrite !F, (K w b0), (K [x] b0) by assumption. reflexivity.
  Qed.

  Lemma no_tops_app : forall w1 w2 (t : tmodel T), no_tops w1 t -> no_tops w2 t -> no_tops (w1 ++ w2) t.
  Proof. intros w1 w2 t H1 H2 x b Hx Hb. apply in_app_or in Hx. destruct Hx; [apply H1|apply H2]; assumption. Qed.

  Definition fst3 {A B C} (x : A * B * C) : A := fst (fst x).

  (** the answer to a query, with the shared list out of sight *)
  Lemma query_flat : forall fuel order w t depth degrees names coords,
    set_order_ok order -> calm fuel t depth -> decreasing (tm_rayParams t) -> gap_free t -> no_tops w t ->
    exists r : result (list T * list (arrival T)),
    (forall w, no_tops w t -> get_travel_times show fuel order w t depth degrees names coords =
       match r with Ok (w1, arrs) => Ok (w ++ w1, t, arrs) | Raise e => Raise e | Diverge => Diverge end) /\
    forall w1 arrs, r = Ok (w1, arrs) -> no_tops w1 t.
  Proof.
    intros fuel order w t depth degrees names coords Ho Hc Hd Hg Hw.
    set (nl := match names with Some l => l | None => ["ttall"%string] end).
    assert (Hx : n_ok depth) by apply Hc.
    exists (let! deg := query_degrees degrees coords in
       let! '(w1, D) := (if tm_sourceDepth t <>? depth then
          match tm_depthCorrect fuel [] t depth with Ok (w1, _, D) => Ok (w1, D) | Raise e => Raise e | Diverge => Diverge end
          else Ok ([], t)) in
       let id := if tm_sourceDepth t <>? depth then 1%Z else 0%Z in
       let! phs := build_all (newPhase show w1 D id) (parsePhaseList order nl) in
       let! ls := mapM (fun ph => ph_calcTime fuel ph deg) phs in
       Ok (w1, sortArrivals (List.concat ls))).
    assert (M : forall w1 t' D, tm_depthCorrect fuel [] t depth = Ok (w1, t', D) -> t' = t).
    { intros. eapply correct_keeps; eauto; apply Hc. }
    split.
    - intros u Hu. unfold get_travel_times, tt_run. fold nl.
      rewrite rerun_flat; [|assumption|assumption|reflexivity|intros p []|intros p []].
      destruct (query_degrees degrees coords) as [deg| |]; cbn [bind]; [|reflexivity..].
      unfold source_of, tt_new. cbn [tt_tModDepth tt_tMod tt_depthId tt_nextId].
      destruct (tm_sourceDepth t =? depth) eqn:E; cbn [negb].
      + cbn [bind]. rewrite (build_all_same _ (newPhase show [] t 0)).
        2:{ intros n. apply newPhase_same. eapply (model_same fuel t (tm_sourceDepth t) [] t); try eassumption.
            - apply (eqb_ok _ _ E). - right. auto. - left. auto. - intros a []. }
        destruct (build_all _ _) as [phs| |]; cbn [bind]; [|reflexivity..].
        destruct (mapM _ phs) as [ls| |]; cbn [bind]; [|reflexivity..]. cbn [tt_tMod tt_arrivals]. rewrite app_nil_r. reflexivity.
      + rewrite depthCorrect_world.
        destruct (tm_depthCorrect fuel [] t depth) as [[[w1 t'] D]| |] eqn:ED; cbn [bind]; [|reflexivity..].
        pose proof (M _ _ _ eq_refl) as ->. change (0 + 1)%Z with 1%Z.
        rewrite (build_all_same _ (newPhase show w1 D 1)).
        2:{ intros n. apply newPhase_same. eapply (model_same fuel t depth w1 D); try eassumption; auto.
            - right. assumption.
            - apply no_tops_app; [assumption|].
              destruct (model_tops fuel t depth w1 D Hd Hx (or_introl Hc) (or_intror ED)) as [[-> _]|[-> [F _]]]; [intros ? ? []|assumption].
            - apply incl_appr, incl_refl. }
        destruct (build_all _ _) as [phs| |]; cbn [bind]; [|reflexivity..].
        destruct (mapM _ phs) as [ls| |]; cbn [bind]; [|reflexivity..]. reflexivity.
    - intros w1 arrs H. inv_as H as deg Hdeg. inv_as H as [w2 D] H1. inv_as H as phs H2. inv_as H as ls H3. inversion H; subst w2 arrs.
      destruct (tm_sourceDepth t =? depth); cbn [negb] in H1; [inversion H1; intros ? ? []|].
      destruct (tm_depthCorrect fuel [] t depth) as [[[w3 t'] D']| |] eqn:ED; inversion H1; subst.
      pose proof (M _ _ _ eq_refl) as ->.
      destruct (model_tops fuel t depth w1 D Hd Hx (or_introl Hc) (or_intror ED)) as [[-> _]|[-> [F _]]]; [intros ? ? []|assumption].
  Qed.

  Lemma history_spec : forall t w s, decreasing (tm_rayParams t) -> gap_free t -> history show t w s -> s = t /\ no_tops w t.
  Proof.
    intros t w s Hd Hg H. induction H as [|w s fuel order depth degrees names coords w' s' arrs H [-> IH] Hc Ho Hq|w s x H [-> IH] Hx].
    - split; [reflexivity|]. intros ? ? [].
    - destruct (query_flat fuel order w t depth degrees names coords Ho Hc Hd Hg IH) as [r [E Hr]].
      rewrite (E w IH) in Hq. destruct r as [[w1 a]| |]; inversion Hq; subst. split; [reflexivity|].
      apply no_tops_app; [assumption|]. eapply Hr. reflexivity.
    - split; [reflexivity|]. apply no_tops_app; assumption.
  Qed.
  Lemma history_answer : forall t w s fuel order depth degrees names coords,
    decreasing (tm_rayParams t) -> gap_free t -> history show t w s -> calm fuel t depth -> set_order_ok order ->
    answer (get_travel_times show fuel order w s depth degrees names coords) =
    answer (get_travel_times show fuel order [] t depth degrees names coords).
  Proof.
    intros t w s fuel order depth degrees names coords Hd Hg H Hc Ho.
    destruct (history_spec _ _ _ Hd Hg H) as [-> Hw].
    destruct (query_flat fuel order w t depth degrees names coords Ho Hc Hd Hg Hw) as [r [E Hr]].
    rewrite (E w Hw), (E []) by (intros ? ? []). destruct r as [[w1 a]| |]; reflexivity.
  Qed.
End Query.

(** ** a reused TauP_Time object *)
Section Reuse.
  Context {T : Type} {N : Num T} {O : NumOrd T} {L : Libm T}.
  Variable show : T -> string.

  Definition stamp (id : Z) (p : phase T) : phase T :=
    mkPhase (ph_name p) (ph_purist p) (ph_legs p) (ph_min p) (ph_max p) (ph_minIdx p) (ph_maxIdx p)
      (ph_sourceDepth p) (ph_tMod p) id (ph_dist p) (ph_time p) (ph_rayParams p) (ph_minDist p) (ph_maxDist p) (ph_seq p).
  Definition rmap {A B} (f : A -> B) (r : result A) : result B :=
    match r with Ok a => Ok (f a) | Raise e => Raise e | Diverge => Diverge end.
  Lemma rmap_bind : forall {A B C} (f : B -> C) (r : result A) (k : A -> result B), rmap f (bind r k) = bind r (fun a => rmap f (k a)).
  Proof. intros A B C f [a| |] k; reflexivity. Qed.

  Lemma newPhase_stamp : forall w t id id' name, newPhase show w t id' name = rmap (stamp id') (newPhase show w t id name).
  Proof.
    intros w t id id' name. unfold newPhase. rewrite rmap_bind. apply bind_same. intros legs. rewrite rmap_bind. apply bind_same. intros pu.
    rewrite rmap_bind. apply bind_same. intros [s|]; [|reflexivity]. cbv zeta.
    destruct (_ || _); [reflexivity|]. rewrite rmap_bind. apply bind_same. intros nP. rewrite rmap_bind. apply bind_same. intros nS.
    rewrite rmap_bind. apply bind_same. intros dist. rewrite rmap_bind. apply bind_same. intros time.
    rewrite rmap_bind. apply bind_same. intros [[di ti]|]; [|reflexivity]. rewrite rmap_bind. apply bind_same. intros mind.
    rewrite rmap_bind. apply bind_same. intros maxd. rewrite rmap_bind. apply bind_same. intros st1.
    rewrite rmap_bind. apply bind_same. intros st2. reflexivity.
  Qed.
  Lemma build_stamp : forall w t id id' names,
    build_all (newPhase show w t id') names = rmap (map (stamp id')) (build_all (newPhase show w t id) names).
  Proof.
    intros w t id id' names. induction names as [|n ns IH]; [reflexivity|]. cbn [build_all].
    rewrite (newPhase_stamp w t id id' n). destruct (newPhase show w t id n) as [p|e|]; cbn [rmap].
    - rewrite IH. destruct (build_all (newPhase show w t id) ns); reflexivity.
    - destruct e; try reflexivity. exact IH.
    - reflexivity.
  Qed.
  Lemma calcTime_stamp : forall fuel id (p : phase T) deg, ph_calcTime fuel (stamp id p) deg = ph_calcTime fuel p deg.
  Proof. intros. reflexivity. Qed.
  Lemma mapM_stamp : forall fuel id deg (l : list (phase T)),
    mapM (fun p => ph_calcTime fuel p deg) (map (stamp id) l) = mapM (fun p => ph_calcTime fuel p deg) l.
  Proof. intros fuel id deg l. induction l as [|p l IH]; [reflexivity|]. cbn [map mapM]. rewrite calcTime_stamp, IH. reflexivity. Qed.
  Lemma unstamped_stamp : forall id (l : list (phase T)), map unstamped (map (stamp id) l) = map unstamped l.
  Proof. intros id l. rewrite map_map. apply map_ext. intros p. reflexivity. Qed.

  Section One.
    Variables (t : tmodel T) (fuel : nat) (Q : T -> Prop).
    Hypothesis Hd : decreasing (tm_rayParams t).
    Hypothesis Hg : gap_free t.
    Hypothesis Hs : at_surface t.
    Hypothesis HQ : forall x y, Q x -> Q y -> x =? y = true -> x = y.
    Hypothesis HQ0 : Q n_0.

    (** correcting for a source at the surface gives the loaded model itself *)
    Lemma surface_itself : tm_depthCorrect fuel [] t n_0 = Ok ([], t, t).
    Proof.
      destruct Hs as [E1 [E2 [E3 [b [Hb [E4 E5]]]]]].
      assert (K : n_0 =? n_0 = true) by apply n_0_ok.
      assert (F : findBranch t n_0 = Ok 0%Z).
      { unfold findBranch. destruct (tm_P t) as [|b' l]; [discriminate|]. cbn in Hb. inversion Hb; subst b'.
        cbn [findBranch_go]. rewrite E4 in *.
        rewrite (leb_refl _ K), E5. reflexivity. }
      unfold tm_depthCorrect. rewrite E1, K. cbn [negb]. rewrite E3. unfold splitBranch.
      assert (Ex : existsb (fun b => (tb_top b =? n_0) || (tb_bot b =? n_0)) (tm_P t) = true).
      { apply existsb_exists. exists b. split; [eapply nth_error_In; exact Hb|]. rewrite E4, K. reflexivity. }
      rewrite Ex. cbn [bind]. rewrite F. cbn [bind]. rewrite <- E1, <- E2, <- tm_eta. reflexivity.
    Qed.

    Lemma correct_self : forall x w1 t' D, calm fuel t x -> tm_depthCorrect fuel [] t x = Ok (w1, t', D) -> t' = t.
    Proof. intros x w1 t' D Hc H. eapply correct_keeps; eauto; apply Hc. Qed.

    (** the source model of a state of the object *)
    Definition invariant (w : list T) (s : ttime T) : Prop :=
      no_tops w t /\ tt_tMod s = t /\ (tt_depthId s < tt_nextId s)%Z /\
      (exists w1, incl w1 w /\ Q (tm_sourceDepth (tt_tModDepth s)) /\ n_ok (tm_sourceDepth (tt_tModDepth s)) /\
         (calm fuel t (tm_sourceDepth (tt_tModDepth s)) \/ tt_tModDepth s = t /\ w1 = []) /\
         model_at fuel t (tm_sourceDepth (tt_tModDepth s)) w1 (tt_tModDepth s)) /\
      (forall p, In p (tt_phases s) -> newPhase show w (tt_tModDepth s) (tt_depthId s) (ph_name p) = Ok p).

    Lemma model_at_fun : forall x w1 D w2 D', calm fuel t x \/ D = t /\ w1 = [] -> model_at fuel t x w1 D -> model_at fuel t x w2 D' -> w1 = w2 /\ D = D'.
    Proof.
      intros x w1 D w2 D' _ H H'. pose proof surface_itself as Z0. destruct Hs as [E _].
      destruct H as [[-> [-> ->]]|H], H' as [[E1 [-> ->]]|H']; rewrite ?E in *.
      - auto.
      - rewrite Z0 in H'. inversion H'. auto.
      - subst x. rewrite Z0 in H. inversion H. auto.
      - rewrite H in H'. inversion H'. auto.
    Qed.

    Lemma newPhase_id : forall w D id name p, newPhase show w D id name = Ok p -> ph_tModId p = id.
    Proof.
      intros w D id name p H. pose proof (newPhase_stamp w D id id name) as E. rewrite H in E. cbn [rmap] in E.
      injection E as E. rewrite E. reflexivity.
    Qed.

    (** the model used by a run, reused or made anew *)
    Lemma source_reuse : forall w s depth, invariant w s -> Q depth -> calm fuel t depth ->
      (exists w1 w2 D id nid, source_of fuel w s depth = Ok (w ++ w2, t, D, id, nid) /\ model_at fuel t depth w1 D /\
         source_of fuel [] (tt_new t depth) depth = Ok (w1, t, D, if n_0 =? depth then 0%Z else 1%Z, if n_0 =? depth then 1%Z else 2%Z) /\
         (id < nid)%Z /\ incl w1 (w ++ w2) /\ no_tops (w ++ w2) t /\ w_same (w ++ w2) w1 D /\ tm_sourceDepth D = depth) \/
      (exists r, (forall a, r <> Ok a) /\ source_of fuel w s depth = r /\ source_of fuel [] (tt_new t depth) depth = r).
    Proof.
      intros w s depth Inv Qd Hc. destruct Inv as [Hw [Ht [Hid [[w1 [Hi [Qx [Ox [Cx Mx]]]]] _]]]].
      assert (Hx : n_ok depth) by apply Hc. pose proof surface_itself as Z0. destruct Hs as [E0 _].
      assert (FR : (n_0 =? depth = true -> depth = n_0 /\ source_of fuel [] (tt_new t depth) depth = Ok ([], t, t, 0%Z, 1%Z)) /\
                   (n_0 =? depth = false -> source_of fuel [] (tt_new t depth) depth =
                      let! '(w, self, d) := tm_depthCorrect fuel [] t depth in Ok (w, self, d, 1%Z, 2%Z))).
      { unfold source_of, tt_new. cbn [tt_tModDepth tt_tMod tt_depthId tt_nextId]. rewrite E0.
        split; intros E; rewrite E; cbn [negb]; [|reflexivity]. split; [symmetry; apply HQ; assumption|reflexivity]. }
      destruct FR as [FR0 FR1].
      unfold source_of at 1 3. destruct (tm_sourceDepth (tt_tModDepth s) =? depth) eqn:E; cbn [negb].
      - left. apply (HQ _ _ Qx Qd) in E. rewrite E in *. exists w1, [], (tt_tModDepth s), (tt_depthId s), (tt_nextId s).
        rewrite app_nil_r, Ht. split; [reflexivity|]. split; [assumption|].
        split.
        { destruct (n_0 =? depth) eqn:En.
          - destruct (FR0 eq_refl) as [-> ->].
            destruct (model_at_fun n_0 w1 (tt_tModDepth s) [] t Cx Mx) as [-> ->]; [|reflexivity].
            left. rewrite E0. auto.
          - rewrite FR1 by reflexivity. destruct Mx as [[F _]|Mx]; [|rewrite Mx; reflexivity].
            rewrite F, E0, n_0_ok in En. discriminate. }
        do 3 (split; [assumption|]). split; [|exact E]. eapply (model_same fuel t depth); eassumption.
      - rewrite Ht, depthCorrect_world.
        assert (R : forall w2 D, tm_depthCorrect fuel [] t depth = Ok (w2, t, D) ->
          source_of fuel [] (tt_new t depth) depth = Ok (w2, t, D, if n_0 =? depth then 0%Z else 1%Z, if n_0 =? depth then 1%Z else 2%Z)).
        { intros w2 D H. destruct (n_0 =? depth) eqn:En.
          - destruct (FR0 eq_refl) as [Ed ->]. rewrite Ed, Z0 in H. inversion H. reflexivity.
          - rewrite FR1 by reflexivity. rewrite H. reflexivity. }
        destruct (tm_depthCorrect fuel [] t depth) as [[[w2 t'] D]| |] eqn:ED; cbn [bind].
        + left. pose proof (correct_self _ _ _ _ Hc ED) as ->. exists w2, w2, D, (tt_nextId s), (tt_nextId s + 1)%Z.
          assert (Hn : no_tops (w ++ w2) t).
          { apply no_tops_app; [assumption|].
            destruct (model_tops fuel t depth w2 D Hd Hx (or_introl Hc) (or_intror ED)) as [[-> _]|[-> [F _]]]; [intros ? ? []|assumption]. }
          assert (Hin : incl w2 (w ++ w2)) by (apply incl_appr, incl_refl).
          split; [reflexivity|]. split; [right; assumption|]. split; [apply R; reflexivity|]. split; [lia|].
          split; [assumption|]. split; [assumption|].
          split; [eapply (model_same fuel t depth); eauto; right; assumption|].
          eapply depthCorrect_depth; exact ED.
        + right. exists (Raise e). split; [discriminate|]. split; [reflexivity|]. destruct (n_0 =? depth) eqn:En.
          * destruct (FR0 eq_refl) as [Ed _]. rewrite Ed, Z0 in ED. discriminate.
          * rewrite FR1; reflexivity.
        + right. exists Diverge. split; [discriminate|]. split; [reflexivity|]. destruct (n_0 =? depth) eqn:En.
          * destruct (FR0 eq_refl) as [Ed _]. rewrite Ed, Z0 in ED. discriminate.
          * rewrite FR1; reflexivity.
    Qed.

    Lemma inv_cache : forall w s depth, invariant w s ->
      cache_ok show w (tt_tModDepth s) (tt_depthId s) depth (tt_phases s) /\
      forall p, In p (tt_phases s) -> (ph_tModId p < tt_nextId s)%Z.
    Proof.
      intros w s depth [_ [_ [Hid [_ Hp]]]]. split.
      - intros p Hi _ _. apply Hp. assumption.
      - intros p Hi. apply Hp in Hi. apply newPhase_id in Hi. lia.
    Qed.

    (** what a run on a state satisfying the invariant gives *)
    Lemma rerun_reuse : forall order w s names depth degrees coords, invariant w s -> Q depth -> calm fuel t depth ->
      set_order_ok order -> (names = [] -> tt_phases s = []) ->
      outcome (tt_rerun show fuel order w s names depth degrees coords) =
      outcome (tt_rerun show fuel order [] (tt_new t depth) names depth degrees coords) /\
      forall w' s', tt_rerun show fuel order w s names depth degrees coords = Ok (w', s') -> invariant w' s'.
    Proof.
      intros order w s names depth degrees coords Inv Qd Hc Ho Hne.
      assert (Hx : n_ok depth) by apply Hc.
      destruct (inv_cache _ _ depth Inv) as [C1 C2].
      rewrite (rerun_flat show fuel order w s); [|assumption..].
      rewrite (rerun_flat show fuel order [] (tt_new t depth)); [|assumption|assumption|reflexivity|intros p []|intros p []].
      destruct (query_degrees degrees coords) as [deg| |]; cbn [bind]; [|split; [reflexivity|discriminate]..].
      destruct (source_reuse w s depth Inv Qd Hc) as [[w1 [w2 [D [id [nid [E1 [M [E2 [Hid [Hi [Hw [W ED]]]]]]]]]]]]|[r [Hr [E1 E2]]]].
      - rewrite E1, E2. cbn [bind].
        rewrite (build_all_same _ (newPhase show w1 D id)) by (intros n; apply newPhase_same; assumption).
        rewrite (build_stamp w1 D id (if n_0 =? depth then 0%Z else 1%Z)).
        destruct (build_all (newPhase show w1 D id) (parsePhaseList order names)) as [phs| |] eqn:EB; cbn [bind rmap];
          [|split; [reflexivity|discriminate]..].
        rewrite mapM_stamp. destruct (mapM _ phs) as [ls| |] eqn:El; cbn [bind]; [|split; [reflexivity|discriminate]..].
        split.
        + unfold outcome. cbn [tt_tMod tt_tModDepth tt_names tt_phases tt_depth tt_arrivals]. rewrite unstamped_stamp. reflexivity.
        + intros w' s' E. inversion E; subst w' s'. unfold invariant. cbn [tt_tMod tt_tModDepth tt_names tt_phases tt_depth tt_arrivals tt_depthId tt_nextId].
          split; [assumption|]. split; [reflexivity|]. split; [assumption|]. split.
          * exists w1. rewrite ED. auto 8.
          * intros p Hp. destruct (build_all_In _ _ _ _ EB Hp) as [n [_ En]].
            rewrite (newPhase_name _ _ _ _ _ _ En), <- En. apply newPhase_same. assumption.
      - rewrite E1, E2. destruct r as [a| |]; [destruct (Hr a eq_refl)|..]; (split; [reflexivity|discriminate]).
    Qed.

    Lemma runs_invariant : forall w s, runs show t fuel Q w s -> invariant w s.
    Proof.
      intros w s H. induction H as [w depth Hw|w s order names depth degrees coords w' s' H IH Qd Hc Ho Hn Hr|w s x H IH Hx].
      - unfold invariant, tt_new. cbn [tt_tMod tt_tModDepth tt_names tt_phases tt_depth tt_arrivals tt_depthId tt_nextId].
        split; [assumption|]. split; [reflexivity|]. split; [lia|]. split; [|intros p []].
        destruct Hs as [E _]. rewrite E. exists []. split; [intros ? []|]. split; [assumption|]. split; [apply n_0_ok|].
        split; [right; auto|]. left. rewrite E. auto.
      - eapply rerun_reuse; try eassumption. intros F. contradiction.
      - destruct IH as [Hw [Ht [Hid [[w1 [Hi [Qx [Ox [Cx Mx]]]]] Hp]]]].
        assert (Hw' : no_tops (w ++ [x]) t) by (apply no_tops_app; assumption).
        split; [assumption|]. split; [assumption|]. split; [assumption|].
        assert (Hi' : incl w1 (w ++ [x])) by (apply incl_appl; assumption). split.
        + exists w1. auto.
        + intros p Hp'. rewrite <- (Hp p Hp').
          pose proof (model_same fuel t _ w1 _ w Hd Ox Cx Mx Hw Hi) as W1.
          pose proof (model_same fuel t _ w1 _ _ Hd Ox Cx Mx Hw' Hi') as W2.
          apply newPhase_same. intros b Hb. rewrite (W1 b Hb), (W2 b Hb). reflexivity.
    Qed.

    Lemma reuse_same : forall order w s names depth degrees coords, runs show t fuel Q w s -> Q depth -> calm fuel t depth ->
      set_order_ok order -> names <> [] ->
      outcome (tt_rerun show fuel order w s names depth degrees coords) =
      outcome (tt_rerun show fuel order [] (tt_new t depth) names depth degrees coords).
    Proof.
      intros order w s names depth degrees coords H Qd Hc Ho Hn.
      apply (rerun_reuse order w s names depth degrees coords); try assumption; [apply runs_invariant; assumption|].
      intros F. contradiction.
    Qed.
  End One.
End Reuse.

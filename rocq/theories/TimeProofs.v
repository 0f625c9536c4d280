(** Lemmas about TauP_Time (properties C05 and C39): sorting, building the phases. *)
From Coq Require Import ZArith Bool List String Ascii Lia Permutation.
From Verif Require Import Base Num PyStr VelocityModel SlownessLayer SlownessModel TauModel Legs
  SeismicPhase TauPTime NameSpec NameProofs NamePhaseProofs TimeSpec.
Import ListNotations.
Local Open Scope num_scope.

Section Sorting.
  Context {T : Type} {N : Num T} {O : NumOrd T}.

  Lemma insert_perm : forall (a : arrival T) l, Permutation (insert_arrival a l) (a :: l).
  Proof.
    induction l as [|b l IH]; simpl; [reflexivity|]. destruct (ar_time b <? ar_time a); [|reflexivity].
    rewrite IH. apply perm_swap.
  Qed.

  Lemma sort_perm : forall l : list (arrival T), Permutation (sortArrivals l) l.
  Proof.
    induction l as [|a l IH]; simpl; [reflexivity|]. unfold sortArrivals in IH |- *. simpl.
    rewrite insert_perm. apply perm_skip. exact IH.
  Qed.

  Lemma insert_ties : forall v (a : arrival T) l,
    filter (fun x => ar_time x =? v) (insert_arrival a l) =
    filter (fun x => ar_time x =? v) (a :: l).
  Proof.
    intros v a. induction l as [|b l IH]; [reflexivity|]. cbn [insert_arrival].
    destruct (ar_time b <? ar_time a) eqn:E; [|reflexivity].
    cbn [filter] in *. rewrite IH.
    destruct (ar_time a =? v) eqn:Ea, (ar_time b =? v) eqn:Eb; try reflexivity.
    exfalso. rewrite eqb_sym in Ea. pose proof (eqb_trans _ _ _ Eb Ea) as F.
    rewrite (ltb_neqb _ _ E) in F. discriminate.
  Qed.

  Lemma sort_ties : forall l : list (arrival T), same_ties ar_time (sortArrivals l) l.
  Proof.
    intros l v. induction l as [|a l IH]; [reflexivity|]. unfold sortArrivals in *.
    cbn [fold_right]. rewrite insert_ties. cbn [filter]. rewrite IH. reflexivity.
  Qed.

  Lemma sorted_on_cons : forall (a : arrival T) l, sorted_on ar_time l ->
    (forall b, In b l -> ar_time b <? ar_time a = false) -> sorted_on ar_time (a :: l).
  Proof.
    intros a l H Ha [|i] [|j] x y Hij Hx Hy; simpl in *; try lia.
    - inversion Hx; subst. apply Ha. eapply nth_error_In; eassumption.
    - apply (H i j); auto. lia.
  Qed.
  Lemma sorted_on_inv : forall (a : arrival T) l, sorted_on ar_time (a :: l) ->
    sorted_on ar_time l /\ forall b, In b l -> ar_time b <? ar_time a = false.
  Proof.
    intros a l H. split.
    - intros i j x y Hij Hx Hy. apply (H (S i) (S j)); auto. lia.
    - intros b Hb. apply In_nth_error in Hb. destruct Hb as [n Hn].
      apply (H 0%nat (S n)); auto. lia.
  Qed.

  Lemma insert_sorted : forall (a : arrival T) l, n_ok (ar_time a) ->
    (forall b, In b l -> n_ok (ar_time b)) -> sorted_on ar_time l ->
    sorted_on ar_time (insert_arrival a l).
  Proof.
    intros a l Ha. induction l as [|b l IH]; intros Hl Hs.
    - simpl. apply sorted_on_cons; [assumption|intros b []].
    - apply sorted_on_inv in Hs. destruct Hs as [Hs Hb]. cbn [insert_arrival].
      destruct (ar_time b <? ar_time a) eqn:E.
      + apply sorted_on_cons; [apply IH; auto; intros; apply Hl; right; assumption|].
        intros c Hc. apply (Permutation_in _ (insert_perm a l)) in Hc.
        destruct Hc as [->|Hc]; [apply ltb_asym; assumption|auto].
      + apply sorted_on_cons; [apply sorted_on_cons; assumption|].
        intros c [<-|Hc]; [assumption|].
        assert (Ob : n_ok (ar_time b)) by (apply Hl; left; reflexivity).
        assert (Oc : n_ok (ar_time c)) by (apply Hl; right; assumption).
        destruct (ar_time c <? ar_time a) eqn:F; [|reflexivity].
        pose proof (ltb_false_leb _ _ Ob Ha E) as L1.
        pose proof (ltb_leb_trans _ _ _ F L1) as L2.
        rewrite (Hb c Hc) in L2. discriminate.
  Qed.

  Lemma sort_sorted : forall l : list (arrival T), (forall b, In b l -> n_ok (ar_time b)) ->
    sorted_on ar_time (sortArrivals l).
  Proof.
    induction l as [|a l IH]; intros H.
    - intros i j x y _ Hx. destruct i; discriminate.
    - unfold sortArrivals in *. cbn [fold_right]. apply insert_sorted.
      + apply H. left. reflexivity.
      + intros b Hb. apply (Permutation_in _ (sort_perm l)) in Hb. apply H. right. assumption.
      + apply IH. intros. apply H. right. assumption.
  Qed.
End Sorting.

(** [built] as a function *)
Fixpoint build_all {A} (mk : string -> result A) (names : list string) : result (list A) :=
  match names with
  | [] => Ok []
  | n :: ns =>
      match mk n with
      | Ok a => let! l := build_all mk ns in Ok (a :: l)
      | Raise TauModelError => build_all mk ns
      | Raise e => Raise e
      | Diverge => Diverge
      end
  end.

Lemma build_all_built : forall {A} (mk : string -> result A) names l,
  build_all mk names = Ok l <-> built mk names l.
Proof.
  intros A mk. induction names as [|n ns IH]; intros l; simpl.
  - split; intros H; inversion H; subst; constructor.
  - split; intros H.
    + destruct (mk n) as [a|e|] eqn:E; [|destruct e; try discriminate|discriminate].
      * inv_bind H. inversion H; subst. apply built_ok; [assumption|]. apply IH. assumption.
      * apply built_skip; [assumption|]. apply IH. assumption.
    + inversion H; subst; rewrite H2; [|apply IH; assumption].
      apply IH in H4. rewrite H4. reflexivity.
Qed.

Lemma build_all_In : forall {A} (mk : string -> result A) names l a,
  build_all mk names = Ok l -> In a l -> exists n, In n names /\ mk n = Ok a.
Proof.
  intros A mk names l a H Hin. apply build_all_built in H. induction H; simpl in *.
  - tauto.
  - destruct Hin as [->|Hin]; [eauto|]. destruct (IHbuilt Hin) as [m [? ?]]; eauto.
  - destruct (IHbuilt Hin) as [m [? ?]]; eauto.
Qed.

Lemma stands_for_some : forall n, exists x, stands_for n x.
Proof.
  intros n. destruct (in_dec string_dec (str_lower n) (map fst groups)) as [Hin|Hout].
  - apply in_map_iff in Hin. destruct Hin as [[a g] [E Hin]]. simpl in E.
    assert (Hw : same_word n a).
    { apply str_lower_same; [eapply groups_lower; eassumption|auto]. }
    destruct g as [|x g].
    + exfalso. clear - Hin. simpl in Hin.
      repeat (destruct Hin as [Hin|Hin]; [discriminate|]). destruct Hin.
    + exists x. left. exists a, (x :: g). split; [assumption|]. split; [assumption|left; reflexivity].
  - exists n. right. split; [reflexivity|]. intros a g Hin Hw.
    apply (str_lower_same _ _ (groups_lower _ _ Hin)) in Hw.
    apply Hout. rewrite Hw. apply (in_map fst) in Hin. exact Hin.
Qed.

Section Recalc.
  Context {T : Type} {N : Num T} {L : Libm T}.
  Variable show : T -> string.

  Lemma list_del_length : forall {A} (l : list A) i, (i < List.length l)%nat ->
    List.length (list_del l i) = (List.length l - 1)%nat.
  Proof.
    induction l as [|a l IH]; intros [|i] H; simpl in *; try lia. rewrite IH by lia. lia.
  Qed.

  (** scanning: either nothing usable, or a phase with this name, model and depth *)
  Lemma cache_scan_spec : forall name depth id fuel i (l : list (phase T)),
    (1 <= fuel)%nat -> (List.length l < fuel + i)%nat ->
    exists kept found, cache_scan fuel name depth id i l = Ok (kept, found) /\
      ((forall p, In p l -> ph_name p <> name) -> kept = l /\ found = None) /\
      (forall p, found = Some p -> In p l /\ ph_name p = name /\
         ph_sourceDepth p =? depth = true /\ ph_tModId p = id).
  Proof.
    intros name depth id. induction fuel as [|fuel IH]; intros i l H1 Hf; [lia|].
    cbn [cache_scan]. destruct (nth_error l i) as [p|] eqn:En.
    - assert (Hi : (i < List.length l)%nat) by (apply nth_error_Some; congruence).
      pose proof (nth_error_In _ _ En) as Hp.
      destruct (seq_ (ph_name p) name) eqn:Es.
      + apply String.eqb_eq in Es.
        destruct ((ph_sourceDepth p =? depth) && (ph_tModId p =? id)%Z) eqn:E.
        * exists (list_del l i), (Some p). split; [reflexivity|]. split.
          -- intros F. exfalso. apply (F p); assumption.
          -- intros q Eq. injection Eq as <-. apply andb_prop in E. destruct E as [E1 E2].
             apply Z.eqb_eq in E2. tauto.
        * destruct (IH (S i) (list_del l i)) as [kept [found [E1 [E2 E3]]]];
            [lia|rewrite list_del_length by assumption; lia|].
          exists kept, found. split; [exact E1|]. split.
          -- intros F. exfalso. apply (F p); assumption.
          -- intros q Eq. destruct (E3 q Eq) as [A [B C]]. split; [|tauto].
             eapply list_del_In; eassumption.
      + destruct (IH (S i) l) as [kept [found [E1 [E2 E3]]]]; [lia|lia|].
        exists kept, found. split; [exact E1|]. split; [|assumption].
        intros F. apply E2. assumption.
    - exists l, None. split; [reflexivity|]. split; [auto|discriminate].
  Qed.

  (** building the remaining names behind phases of other names *)
  Lemma recalc_rest : forall w t id depth names (acc : list (phase T)), NoDup names ->
    (forall p, In p acc -> ~ In (ph_name p) names) ->
    recalc_go show w t id depth false names acc =
      let! l := build_all (newPhase show w t id) names in Ok (acc ++ l)%list.
  Proof.
    intros w t id depth. induction names as [|n ns IH]; intros acc Hn Ha.
    - simpl. rewrite app_nil_r. reflexivity.
    - inversion Hn; subst. cbn [recalc_go].
      destruct (cache_scan_spec n depth id (S (List.length acc)) 0 acc ltac:(lia) ltac:(lia))
        as [kept [found [E1 [E2 _]]]].
      rewrite E1. cbn [bind].
      destruct E2 as [-> ->]. { intros p Hp F. apply (Ha p Hp). left. symmetry. assumption. }
      cbn [build_all]. destruct (newPhase show w t id n) as [ph|e|] eqn:En; cbn [bind].
      + rewrite IH; [|assumption|].
        * rewrite bind_assoc. cbn [bind].
          destruct (build_all (newPhase show w t id) ns); cbn [bind]; [|reflexivity|reflexivity].
          rewrite <- app_assoc. reflexivity.
        * intros p Hp. apply in_app_iff in Hp. destruct Hp as [Hp|[<-|[]]].
          -- intros F. apply (Ha p Hp). right. assumption.
          -- rewrite (newPhase_name _ _ _ _ _ _ En). assumption.
      + destruct e; cbn [bind]; try reflexivity. apply IH; [assumption|].
        intros p Hp F. apply (Ha p Hp). right. assumption.
      + reflexivity.
  Qed.

  (** every cached phase that may be reused is what would be built anew *)
  Definition cache_ok (w : list T) (t : tmodel T) (id : Z) (depth : T) (l : list (phase T)) : Prop :=
    forall p, In p l -> ph_sourceDepth p =? depth = true -> ph_tModId p = id ->
              newPhase show w t id (ph_name p) = Ok p.

  Lemma recalc_first : forall w t id depth names (l : list (phase T)), NoDup names ->
    (names = [] -> l = []) -> cache_ok w t id depth l ->
    recalc_go show w t id depth true names l = build_all (newPhase show w t id) names.
  Proof.
    intros w t id depth [|n ns] l Hn He Hc.
    - simpl. rewrite He; reflexivity.
    - inversion Hn; subst. cbn [recalc_go].
      destruct (cache_scan_spec n depth id (S (List.length l)) 0 l ltac:(lia) ltac:(lia))
        as [kept [found [E1 [_ E3]]]].
      rewrite E1. cbn [bind build_all].
      assert (R : forall ph, newPhase show w t id n = Ok ph ->
                 recalc_go show w t id depth false ns [ph] =
                 let! l := build_all (newPhase show w t id) ns in Ok (ph :: l)).
      { intros ph En. rewrite recalc_rest; [reflexivity|assumption|].
        intros p [<-|[]]. rewrite (newPhase_name _ _ _ _ _ _ En). assumption. }
      destruct found as [ph|].
      + destruct (E3 ph eq_refl) as [Hin [Hnm [Hd Hi]]].
        assert (En : newPhase show w t id n = Ok ph) by (rewrite <- Hnm; apply Hc; assumption).
        rewrite En. cbn [bind app]. apply R. assumption.
      + destruct (newPhase show w t id n) as [ph|e|] eqn:En; cbn [bind app].
        * apply R. reflexivity.
        * destruct e; cbn [bind]; try reflexivity. rewrite recalc_rest; [|assumption|intros p []].
          simpl. destruct (build_all _ ns); reflexivity.
        * reflexivity.
  Qed.

  Lemma built_cache_ok : forall w t id depth names l,
    build_all (newPhase show w t id) names = Ok l -> cache_ok w t id depth l.
  Proof.
    intros w t id depth names l H p Hp _ _. destruct (build_all_In _ _ _ _ H Hp) as [n [_ E]].
    rewrite (newPhase_name _ _ _ _ _ _ E). assumption.
  Qed.

  Lemma built_empty : forall w t id l, build_all (newPhase show w t id) [] = Ok l -> l = [].
  Proof. intros. simpl in H. congruence. Qed.

  (** the model that a run uses: (shared list, loaded model, source model, its identity,
      next identity) *)
  Definition source_of (fuel : nat) (w : list T) (s : ttime T) (depth : T)
    : result (list T * tmodel T * tmodel T * Z * Z) :=
    if tm_sourceDepth (tt_tModDepth s) <>? depth then
      let! '(w, self, d) := tm_depthCorrect fuel w (tt_tMod s) depth in
      Ok (w, self, d, tt_nextId s, (tt_nextId s + 1)%Z)
    else Ok (w, tt_tMod s, tt_tModDepth s, tt_depthId s, tt_nextId s).

  Lemma depthCorrect_depth : forall fuel w (t : tmodel T) depth w' t' td,
    tm_depthCorrect fuel w t depth = Ok (w', t', td) -> tm_sourceDepth td = depth.
  Proof.
    intros fuel w t depth w' t' td H. unfold tm_depthCorrect in H.
    destruct (tm_sourceDepth t <>? n_0); [discriminate|].
    destruct (depth >? tm_radius t); [discriminate|].
    inv_as H as [[w1 self] d1] H1. inv_bind H. injection H as <- <- <-. reflexivity.
  Qed.

  (** a whole run, with the cache out of sight *)
  Lemma rerun_flat : forall fuel order w (s : ttime T) pl depth degrees coords,
    set_order_ok order -> n_ok depth -> (pl = [] -> tt_phases s = []) ->
    cache_ok w (tt_tModDepth s) (tt_depthId s) depth (tt_phases s) ->
    (forall p, In p (tt_phases s) -> (ph_tModId p < tt_nextId s)%Z) ->
    tt_rerun show fuel order w s pl depth degrees coords =
      let! deg := query_degrees degrees coords in
      let! '(w, tM, tD, id, nid) := source_of fuel w s depth in
      let! phs := build_all (newPhase show w tD id) (parsePhaseList order pl) in
      let! ls := mapM (fun ph => ph_calcTime fuel ph deg) phs in
      Ok (w, mkTT tM tD id nid (parsePhaseList order pl) phs depth depth
                  (sortArrivals (List.concat ls))).
  Proof.
    intros fuel order w s pl depth degrees coords Ho Hd He Hc Hid.
    unfold tt_rerun. destruct (query_degrees degrees coords) as [deg| |]; cbn [bind]; [|reflexivity|reflexivity].
    destruct (parsePhaseList_spec order Ho pl) as [Hn Hin].
    set (names := parsePhaseList order pl) in *.
    assert (He' : names = [] -> tt_phases s = []).
    { intros E. apply He. destruct pl as [|n pl]; [reflexivity|]. exfalso.
      destruct (stands_for_some n) as [x Hx].
      assert (F : In x names) by (apply Hin; exists n; split; [left; reflexivity|assumption]).
      rewrite E in F. destruct F. }
    set (s0 := mkTT (tt_tMod s) (tt_tModDepth s) (tt_depthId s) (tt_nextId s) names
                    (tt_phases s) depth (tt_sourceDepth s) (tt_arrivals s)).
    assert (Q : forall w tM tD id nid phs arr, tm_sourceDepth tD = depth \/
                  tm_sourceDepth tD =? depth = true ->
              (names = [] -> phs = []) -> cache_ok w tD id depth phs ->
              calculate show fuel w (mkTT tM tD id nid names phs depth depth arr) deg =
              let! phs := build_all (newPhase show w tD id) names in
              let! ls := mapM (fun ph => ph_calcTime fuel ph deg) phs in
              Ok (w, mkTT tM tD id nid names phs depth depth (sortArrivals (List.concat ls)))).
    { clear - Hn Hd. intros w tM tD id nid phs arr HD He Hc. unfold calculate, tt_depthCorrect.
      cbn [tt_tModDepth tt_sourceDepth tt_tMod tt_depthId tt_nextId tt_names tt_phases tt_depth tt_arrivals].
      assert (E : tm_sourceDepth tD =? depth = true)
        by (destruct HD as [->|HD]; [exact Hd|exact HD]).
      rewrite E. cbn [negb bind].
      unfold recalcPhases.
      cbn [tt_tModDepth tt_sourceDepth tt_tMod tt_depthId tt_nextId tt_names tt_phases tt_depth tt_arrivals].
      rewrite recalc_first by assumption.
      destruct (build_all (newPhase show w tD id) names); cbn [bind]; [|reflexivity|reflexivity].
      unfold tt_calcTime.
      cbn [tt_tModDepth tt_sourceDepth tt_tMod tt_depthId tt_nextId tt_names tt_phases tt_depth tt_arrivals].
      destruct (mapM _ a); reflexivity. }
    unfold tt_depthCorrect at 1, source_of. subst s0.
    cbn [tt_tModDepth tt_sourceDepth tt_tMod tt_depthId tt_nextId tt_names tt_phases tt_depth tt_arrivals].
    destruct (tm_sourceDepth (tt_tModDepth s) =? depth) eqn:E; cbn [negb bind].
    - cbn [tt_tModDepth tt_sourceDepth tt_tMod tt_depthId tt_nextId tt_names tt_phases tt_depth tt_arrivals].
      apply Q; [right; assumption|assumption|assumption].
    - destruct (tm_depthCorrect fuel w (tt_tMod s) depth) as [[[w1 self] d1]| |] eqn:ED;
        cbn [bind]; [|reflexivity|reflexivity].
      unfold recalcPhases.
      cbn [tt_tModDepth tt_sourceDepth tt_tMod tt_depthId tt_nextId tt_names tt_phases tt_depth tt_arrivals].
      rewrite recalc_first; [|assumption|assumption|].
      2:{ intros p Hp _ F. specialize (Hid p Hp). lia. }
      destruct (build_all (newPhase show w1 d1 (tt_nextId s)) names) as [phs| |] eqn:EB;
        cbn [bind]; [|reflexivity|reflexivity].
      cbn [tt_tModDepth tt_sourceDepth tt_tMod tt_depthId tt_nextId tt_names tt_phases tt_depth tt_arrivals].
      rewrite Q.
      + rewrite EB. reflexivity.
      + left. eapply depthCorrect_depth; eassumption.
      + intros En. rewrite En in EB. simpl in EB. congruence.
      + eapply built_cache_ok; eassumption.
  Qed.
End Recalc.

Section C05.
  Context {T : Type} {N : Num T} {L : Libm T} {O : NumOrd T}.
  Variable show : T -> string.

  Lemma travel_times_spec : forall fuel order w t depth degrees names coords w' t' arrs,
    set_order_ok order -> n_ok depth ->
    get_travel_times show fuel order w t depth degrees names coords = Ok (w', t', arrs) ->
    exists deg td id phases ls,
      query_degrees degrees coords = Ok deg /\
      ((tm_sourceDepth t =? depth = true /\ w' = w /\ t' = t /\ td = t) \/
       (tm_sourceDepth t =? depth = false /\ tm_depthCorrect fuel w t depth = Ok (w', t', td))) /\
      built (newPhase show w' td id)
            (parsePhaseList order (match names with Some l => l | None => ["ttall"%string] end)) phases /\
      Forall2 (fun ph l => ph_calcTime fuel ph deg = Ok l) phases ls /\
      Permutation arrs (List.concat ls) /\
      same_ties ar_time arrs (List.concat ls) /\
      ((forall a, In a arrs -> n_ok (ar_time a)) -> sorted_on ar_time arrs).
  Proof.
    intros fuel order w t depth degrees names coords w' t' arrs Ho Hd H.
    unfold get_travel_times, tt_run in H. inv_as H as [w1 s1] H1. injection H as <- <- <-.
    rewrite rerun_flat in H1; [|assumption|assumption|reflexivity|intros p []|intros p []].
    inv_as H1 as deg Hdeg. inv_as H1 as [[[[w2 tM] tD] id] nid] Hs. inv_as H1 as phs Hb.
    inv_as H1 as ls Hl. injection H1 as <- <-.
    exists deg, tD, id, phs, ls. split; [assumption|]. split.
    { unfold source_of, tt_new in Hs. cbn [tt_tModDepth tt_tMod tt_depthId tt_nextId] in Hs.
      destruct (tm_sourceDepth t =? depth); cbn [negb] in Hs.
      - injection Hs as <- <- <- <- <-. left. tauto.
      - inv_as Hs as [[w3 self] d3] Hx. injection Hs as <- <- <- <- <-. right. tauto. }
    split; [apply build_all_built; assumption|].
    split; [apply mapM_Ok_Forall2; assumption|]. cbn [tt_arrivals].
    split; [apply sort_perm|]. split; [apply sort_ties|].
    intros Hok. apply sort_sorted. intros b Hb'. apply Hok.
    eapply Permutation_in; [symmetry; apply sort_perm|assumption].
  Qed.
End C05.

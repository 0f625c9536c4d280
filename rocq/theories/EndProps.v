(** C68: the number of steps allowed does not matter, and queries come to an end. *)
From Coq Require Import ZArith Bool List String Arith Reals Lia Lra.
From Verif Require Import Base Num PyStr VelocityModel VelSpec VelProofs SlownessLayer SlownessModel SlowSpec SlowProofs SlowAddProofs SlowBuildProofs
  SlowProps CritSpec CritProofs CritProps SlowRealProofs SampleProofs StackSpec StackProofs SplitSpec SplitProofs SplitMoreProofs TauModel Legs
  SeismicPhase Pierce TauPTime Views Create TauSpec TauProofs TauBuildProofs TauSplitProofs TauProps PathSpec MonoSpec LimitSpec LimitProofs BullenSpec
  ErrSpec SourceSpec SourceProofs SourceProps InsideSpec InsideProofs InsideRayProofs InsideWalkProofs InsideSplitProofs InsideGoodProofs InsideProps
  AcceptSpec AcceptProofs RealRun SlowRun BuildRun TwoRun InsideRun AcceptProps Toy EndSpec EndProofs FinProofs EndQueryProofs.
Import ListNotations.
Local Open Scope list_scope.

(** C68: for any numbers, an outcome does not depend on the number of steps allowed. *)
Theorem C68_building_settled :
  forall {T} {N : Num T} {L : Libm T},
  (forall vm dp Dp dz dx err innerS (tol : T), settled (fun n => newSlownessModel n vm dp Dp dz dx err innerS tol)) /\
  (forall m : smodel T, settled (fun n => newTauModel n m)) /\
  (forall c (vm : vmodel T), settled (fun n => createTauModel n c vm)) /\
  (forall py_float dir ver listing (d : disk T), settled (fun n => build_models py_float n dir ver listing d)).
Proof.
  intros T N L. repeat split; intros; apply below_settled; intros;
    [apply e_newS|apply e_newT|apply e_createT|apply e_build]; assumption.
Qed.
Theorem C68_query_settled :
  forall {T} {N : Num T} {L : Libm T},
  (forall wd (t : tmodel T) x, settled (fun n => tm_depthCorrect n wd t x)) /\
  (forall (ph : phase T) deg, settled (fun n => ph_calcTime n ph deg) /\ settled (fun n => calcPierce n ph deg) /\ settled (fun n => calcPath n ph deg)) /\
  (forall show order wd (s : ttime T) ps x deg c, settled (fun n => tt_rerun show n order wd s ps x deg c)) /\
  (forall show order wd (t : tmodel T) x deg ps c, settled (fun n => get_travel_times show n order wd t x deg ps c)) /\
  (forall show order wd (s : ttime T) adds ps x deg c,
     settled (fun n => view_run show (calcPierce n) n order wd s adds ps x deg c) /\
     settled (fun n => view_run show (calcPath n) n order wd s adds ps x deg c)).
Proof.
  intros T N L.
  split; [intros; apply below_settled; intros; apply e_correct; assumption|].
  split; [intros; split; [|split]; apply below_settled; intros; [apply e_calc|apply e_pierce|apply e_calcpath]; assumption|].
  split; [intros; apply below_settled; intros; apply e_rerun; assumption|].
  split; [intros; apply below_settled; intros; apply e_times; assumption|].
  intros; split; apply below_settled; intros; apply e_vrun; try assumption; intros; [apply e_pierce|apply e_calcpath]; assumption.
Qed.

(** Not hypothetical: with two steps the depths of a model in doubles cannot be searched, with fifty they can. *)
Example C68_settled_ex :
  tm_depthCorrect 2 [] toy_tMod (d 4 0) = Diverge /\ tm_depthCorrect 50 [] toy_tMod (d 4 0) <> Diverge /\
  forall n, (50 <= n)%nat -> tm_depthCorrect n [] toy_tMod (d 4 0) = tm_depthCorrect 50 [] toy_tMod (d 4 0).
Proof.
  assert (A : tm_depthCorrect 50 [] toy_tMod (d 4 0) <> Diverge).
  { assert (B : match tm_depthCorrect 50 [] toy_tMod (d 4 0) with Ok _ => True | _ => False end) by (vm_compute; exact I). intros E. rewrite E in B. exact B. }
  split; [vm_compute; reflexivity|]. split; [exact A|]. intros n Hn. exact (proj1 C68_query_settled [] toy_tMod (d 4 0) 50%nat n Hn A).
Qed.

Local Open Scope R_scope.
(** C68: pierce points are found, or an exception is raised, for every phase and distance. *)
Theorem C68_pierce_ends : forall (ph : phase R) deg, ends (fun n => calcPierce n ph deg).
Proof. exact ends_pierce. Qed.
(** C68: so are ray paths, when the layers of the model follow each other. *)
Theorem C68_path_ends : forall (ph : phase R) deg,
  (forall w, s_meet (sm_layers (tm_sMod (ph_tMod ph)) w) /\ s_upright (sm_layers (tm_sMod (ph_tMod ph)) w)) -> ends (fun n => calcPath n ph deg).
Proof. exact ends_path. Qed.
(** C68: a query ends if correcting the model for its depth does. *)
Theorem C68_query_ends :
  forall show order wd (s : ttime R) ps x deg c,
  (tm_sourceDepth (tt_tModDepth s) <> x -> ends (fun n => tm_depthCorrect n wd (tt_tMod s) x)) ->
  ends (fun n => tt_rerun show n order wd s ps x deg c).
Proof. exact ends_rerun. Qed.

Lemma built_sound : forall fuel vm dp Dp dz dx err innerS tol (m : smodel R), newSlownessModel fuel vm dp Dp dz dx err innerS tol = Ok m ->
  forall w, s_meet (sm_layers m w) /\ s_upright (sm_layers m w).
Proof.
  intros fuel vm dp Dp dz dx err innerS tol m H w.
  destruct (C23_constructed_valid _ _ _ _ _ _ _ _ _ _ H (R_ok _)) as [_ [_ G]]. destruct (G w) as [[_ [A [_ B]]] _].
  split; [exact A|]. intros y Hy. apply (B y Hy).
Qed.
(** C68: once a slowness model is constructed, computing a tau model from it ends. *)
Theorem C68_tau_ends :
  forall fuel vm dp Dp dz dx err innerS tol (m : smodel R),
  newSlownessModel fuel vm dp Dp dz dx err innerS tol = Ok m -> ends (fun n => newTauModel n m).
Proof.
  intros fuel vm dp Dp dz dx err innerS tol m H. apply settled_ends; [apply C68_building_settled|].
  exists (List.length (sm_P m) + List.length (sm_S m))%nat. apply f_newT.
  intros w. destruct (built_sound _ _ _ _ _ _ _ _ _ _ H w) as [A B]. split; [exact A|]. split; [exact B|]. destruct w; cbn [sm_layers]; lia.
Qed.
(** C68: correcting a constructed model for a source depth ends. *)
Theorem C68_source_ends :
  forall fuel fuel' vm dp Dp dz dx err innerS tol (m : smodel R) t wd x,
  newSlownessModel fuel vm dp Dp dz dx err innerS tol = Ok m -> newTauModel fuel' m = Ok t ->
  VelSpec.thick (vm_layers vm) -> vm_radius vm = 6371 ->
  (x < 0 \/ 6371 < x \/ at_edge (tm_P t) x \/ regular m /\ (forall w, source_place m w x) /\ (forall w, single_cut m w x)) ->
  ends (fun n => tm_depthCorrect n wd t x).
Proof.
  intros fuel fuel' vm dp Dp dz dx err innerS tol m t wd x H HT Ht Hr C.
  apply settled_ends; [apply C68_query_settled|]. destruct C as [C|[C|[C|[Rg [Sp Sc]]]]].
  - exists O. rewrite (proj2 (C64_refused _ _ _ _ _ _ _ _ _ _ _ _ O wd x H HT Ht Hr) C). discriminate.
  - exists O. rewrite (proj1 (C64_refused _ _ _ _ _ _ _ _ _ _ _ _ O wd x H HT Ht Hr) C). discriminate.
  - exists O. destruct (C64_edge_accepted _ _ _ _ _ _ _ _ _ _ _ _ O wd x H HT Ht Hr C) as [r [E _]]. rewrite E. discriminate.
  - set (f := (2 * (List.length (sm_P m) + List.length (sm_S m)) + 4)%nat). exists f.
    assert (Hmod : tm_sMod t = m) by apply (newTauModel_inv _ _ _ HT).
    pose proof (built_sound _ _ _ _ _ _ _ _ _ _ H) as G.
    assert (Ok0 : forall v y, In y (sm_layers m v) -> lay_ok (sm_radius m) y /\ 0 <= sl_topDepth y).
    { intros v y Hy. split; [exact (rg_ok m v (Rg v) y Hy)|].
      destruct (g_good _ _ _ _ _ _ _ _ _ _ H Ht Hr v) as [Gm [Gu [Gj [Gq [G0 _]]]]].
      apply (top_pos _ Gm Gu Gj Gq); [|exact Hy]. intros z Hz. exact (G0 z Hz). }
    pose proof (createSample_built _ _ _ H (R_ok _)) as [Id _].
    apply f_correct; rewrite Hmod.
    + destruct (G false) as [A B]. split; [exact A|]. split; [exact B|]. unfold f. cbn [sm_layers]. lia.
    + intros mS iS H1. destruct (second_ready f m x mS iS G Ok0 Id Sp Sc H1) as [R1 [G1 [Go1 [Sh1 [Sp1 Sc1]]]]].
      assert (L1 : (List.length (sm_layers (si_sMod iS) true) <= 2 * List.length (sm_P m) + 2)%nat /\ (List.length (sm_layers (si_sMod iS) false) <= S (List.length (sm_S m)))%nat).
      { destruct (step f m x false mS iS G (in_solid m x G Ok0 Sp false) (shared_same m x Id false) Sp (cut_of m x Ok0 Sc false) H1) as [[E1 _]|[N1 _]].
        - rewrite E1. cbn [sm_layers]. lia.
        - pose proof (split_length _ _ _ _ _ _ H1 N1) as Q. cbn [negb sm_layers] in *. lia. }
      split; [destruct (G1 true) as [A B]; split; [exact A|]; split; [exact B|]; unfold f; cbn [sm_layers] in *; lia|].
      intros mP iP H2 w.
      assert (L2 : (List.length (sm_layers (si_sMod iP) w) <= f)%nat).
      { destruct (step f (si_sMod iS) x true mP iP G1 Go1 Sh1 Sp1 Sc1 H2) as [[E1 _]|[N1 _]].
        - rewrite E1. unfold f. destruct w; lia.
        - pose proof (split_length _ _ _ _ _ _ H2 N1) as Q. cbn [negb] in Q. unfold f. destruct w; lia. }
      destruct (two_splits f m x mS iS G Ok0 Id Sp Sc H1 mP iP H2) as [[_ [_ [_ [_ Rf]]]] _].
      split; [eapply rf_meet; [apply Rf|apply G]|]. split; [eapply rf_upright; [apply Rf|apply G]|exact L2].
Qed.
(** C68: so every query of a constructed model ends: at the surface, and at the depths above. *)
Theorem C68_times_end :
  forall fuel fuel' vm dp Dp dz dx err innerS tol (m : smodel R) t show order wd x deg ps c,
  newSlownessModel fuel vm dp Dp dz dx err innerS tol = Ok m -> newTauModel fuel' m = Ok t ->
  (x = 0 \/ VelSpec.thick (vm_layers vm) /\ vm_radius vm = 6371 /\
     (x < 0 \/ 6371 < x \/ at_edge (tm_P t) x \/ regular m /\ (forall w, source_place m w x) /\ (forall w, single_cut m w x))) ->
  ends (fun n => get_travel_times show n order wd t x deg ps c).
Proof.
  intros fuel fuel' vm dp Dp dz dx err innerS tol m t show order wd x deg ps c H HT C. apply ends_times. intros Nx.
  destruct C as [->|[Ht [Hr C]]].
  - exfalso. apply Nx. destruct (newTauModel_inv _ _ _ HT) as [_ [_ [_ [_ [_ [_ [_ [E _]]]]]]]]. rewrite E. apply n_0_R.
  - exact (C68_source_ends _ _ _ _ _ _ _ _ _ _ _ _ wd x H HT Ht Hr C).
Qed.

(** Not hypothetical: the two-layer planet of C57, for a source at the surface, inside the upper layer and outside the planet. *)
Example C68_ex : exists e tA xA tB xB, let m := two_sm e two_c' in let t := two_t e tA xA tB xB in
  newSlownessModel 20 two_vm 1 7000 7000 10 e true 1 = Ok m /\ newTauModel 20 m = Ok t /\
  ends (fun n => newTauModel n m) /\
  (forall show order wd deg ps c x, x = 0 \/ x = 1500 \/ x = 7000 -> ends (fun n => get_travel_times show n order wd t x deg ps c)) /\
  (forall ph deg, ph_tMod ph = t -> ends (fun n => calcPierce n ph deg) /\ ends (fun n => calcPath n ph deg)).
Proof.
  destruct C64_ex as [e [tA [xA [tB [xB [H1 [H2 [H3 [H4 [H5 [H6 [H7 _]]]]]]]]]]]]. cbv zeta in H1, H2, H3, H4, H5, H6, H7.
  exists e, tA, xA, tB, xB. cbv zeta. set (m := two_sm e two_c') in *. set (t := two_t e tA xA tB xB) in *.
  split; [exact H1|]. split; [exact H2|].
  split; [exact (C68_tau_ends _ _ _ _ _ _ _ _ _ _ H1)|]. split.
  - intros show order wd deg ps c x Hx. apply (C68_times_end _ _ _ _ _ _ _ _ _ _ _ _ show order wd x deg ps c H1 H2).
    destruct Hx as [->|[->| ->]]; [left; reflexivity|right..]; (split; [exact H3|]; split; [exact H4|]).
    + right. right. right. auto.
    + right. left. lra.
  - intros ph deg E. split; [apply C68_pierce_ends|]. apply C68_path_ends. rewrite E. exact (built_sound _ _ _ _ _ _ _ _ _ _ H1).
Qed.


Print Assumptions C68_building_settled.
Print Assumptions C68_query_settled.
Print Assumptions C68_pierce_ends.
Print Assumptions C68_path_ends.
Print Assumptions C68_query_ends.
Print Assumptions C68_tau_ends.
Print Assumptions C68_source_ends.
Print Assumptions C68_times_end.

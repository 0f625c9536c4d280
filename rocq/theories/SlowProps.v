(** Properties C20, C21 and C23: slowness models. *)
From Coq Require Import ZArith Bool List String Reals Lia Lra.
From Verif Require Import Base Num PyStr VelocityModel VelSpec SlownessLayer SlownessModel
  SlowSpec SlowProofs SlowAddProofs SlowBuildProofs Toy.
Import ListNotations.
Local Open Scope list_scope.
Local Open Scope num_scope.

(** ** C20: layer search *)
Theorem C20_search_exact :
  forall {T} {N : Num T} {O : NumOrd T} fuel (m : smodel T) w x,
  s_meet (sm_layers m w) -> s_upright (sm_layers m w) -> n_ok x ->
  (List.length (sm_layers m w) <= fuel)%nat ->
  (forall i, layerNumForDepth fuel m x w = Ok i ->
     exists y, nth_error (sm_layers m w) (Z.to_nat i) = Some y /\ holds y x) /\
  (forall i, layerNumberAbove fuel m x w = Ok (Z.of_nat i) <-> shallowest (sm_layers m w) x i) /\
  (forall i, layerNumberBelow fuel m x w = Ok (Z.of_nat i) <-> deepest (sm_layers m w) x i).
Proof.
  intros T N O fuel m w x Hm Hu Hx Hf. split; [|split].
  - intros i H. apply lnfd_holds in H; [|assumption..]. tauto.
  - intros i. apply above_iff_s; assumption.
  - intros i. apply below_iff_s; assumption.
Qed.
Theorem C20_search_terminates :
  forall {T} {N : Num T} {O : NumOrd T} fuel (m : smodel T) w f ls x,
  sm_layers m w = f :: ls -> s_meet (sm_layers m w) -> s_upright (sm_layers m w) ->
  (List.length (sm_layers m w) <= fuel)%nat ->
  sl_topDepth f <=? x = true -> x <=? sl_botDepth (last ls f) = true ->
  exists i j k, layerNumForDepth fuel m x w = Ok i /\
                layerNumberAbove fuel m x w = Ok j /\ layerNumberBelow fuel m x w = Ok k.
Proof. exact @search_inside. Qed.
Theorem C20_search_outside :
  forall {T} {N : Num T} fuel (m : smodel T) w f ls x, sm_layers m w = f :: ls ->
  x <? sl_topDepth f = true \/ sl_botDepth (last ls f) <? x = true ->
  layerNumForDepth fuel m x w = Raise SlownessModelError /\
  layerNumberAbove fuel m x w = Raise SlownessModelError /\
  layerNumberBelow fuel m x w = Raise SlownessModelError.
Proof. exact @search_outside. Qed.

(** the hypotheses hold for a constructed model; there is a zero-thickness layer at the
    Moho, so the three searches differ there *)
Example toy_built :
  createSample 200 (sm_init toy_vm (d 1 (-1)) (d 1000 0) (d 3000 0) (d 1000 0) (d 1000 0) true (d 1 (-16)))
  = Ok toy_sMod.
Proof. vm_compute. reflexivity. Qed.
Lemma toy_good : ids_ok toy_sMod /\ forall w, stack_good (sm_radius toy_sMod) (sm_layers toy_sMod w).
Proof.
  pose proof toy_built as H. apply createSample_built in H; [|reflexivity]. tauto.
Qed.
Example C20_ex :
  s_meet (sm_P toy_sMod) /\ s_upright (sm_P toy_sMod) /\
  layerNumberAbove 100 toy_sMod (d 35 0) true = Ok 0%Z /\
  layerNumberBelow 100 toy_sMod (d 35 0) true = Ok 2%Z /\
  layerNumberBelow 100 toy_sMod (d 6371 0) true
  = Ok (Z.of_nat (List.length (sm_P toy_sMod)) - 1)%Z /\
  layerNumberAbove 100 toy_sMod (d 6372 0) true = Raise SlownessModelError.
Proof.
  destruct toy_good as [_ H]. specialize (H true). split; [apply H|].
  split; [eapply good_upright; exact H|]. repeat split; vm_compute; reflexivity.
Qed.

(** a list with a gap between depths 1 and 2: the search for depth 1.5 never ends *)
Definition gap_sm : smodel b64 :=
  sm_set_layers (sm_init toy_vm (d 0 0) (d 0 0) (d 0 0) (d 0 0) (d 0 0) true (d 0 0))
    [ mkSL 0 (d 9 0) (d 0 0) (d 8 0) (d 1 0); mkSL 1 (d 8 0) (d 2 0) (d 7 0) (d 3 0);
      mkSL 2 (d 7 0) (d 3 0) (d 6 0) (d 4 0); mkSL 3 (d 6 0) (d 4 0) (d 5 0) (d 5 0) ] [] 4.
Theorem C20_gap_diverges_refuted :
  s_upright (sm_P gap_sm) /\
  forall fuel, layerNumForDepth fuel gap_sm (d 15 (-1)) true = Diverge.
Proof.
  split.
  - intros y [<-|[<-|[<-|[<-|[]]]]]; vm_compute; reflexivity.
  - intros fuel. change (while fuel (lnfd_body gap_sm true (d 15 (-1))) (0%Z, 3%Z) = Diverge).
    assert (A : lnfd_body gap_sm true (d 15 (-1)) (0%Z, 3%Z) = Ok (inl (0%Z, 1%Z))) by (vm_compute; reflexivity).
    assert (B : lnfd_body gap_sm true (d 15 (-1)) (0%Z, 1%Z) = Ok (inl (0%Z, 1%Z))) by (vm_compute; reflexivity).
    assert (C : forall n, while n (lnfd_body gap_sm true (d 15 (-1))) (0%Z, 1%Z) = Diverge).
    { induction n as [|n IH]; [reflexivity|]. cbn [while]. rewrite B. exact IH. }
    destruct fuel as [|fuel]; [reflexivity|]. cbn [while]. rewrite A. apply C.
Qed.

(** ** C21: adding a sample *)
Theorem C21_what_changes :
  forall {T} {N : Num T} {O : NumOrd T} (m : smodel T) p w m',
  addSlowness m p w = Ok m' -> ids_ok m ->
  ids_ok m' /\ (sm_next m <= sm_next m')%Z /\ same_setup m m' /\
  exists f, sm_layers m' w = splice f (sm_layers m w) /\
            sm_layers m' (negb w) = splice f (sm_layers m (negb w)) /\
            (forall id, f id <> None -> In id (map sl_id (sm_layers m w))) /\
            (forall y a b, In y (sm_layers m w) -> f (sl_id y) = Some (a, b) ->
               halves p y a b /\ n_0 <=? sl_botDepth a = true) /\
            (forall i y, nth_error (sm_layers m w) i = Some y ->
               (f (sl_id y) = None <-> ~ (spans y p /\ cuttable m w (sm_layers m w) i y))).
Proof. exact @addSlowness_spec. Qed.
Theorem C21_stays_gap_free :
  forall {T} {N : Num T} {O : NumOrd T} (m : smodel T) p w m' v,
  addSlowness m p w = Ok m' -> ids_ok m ->
  (s_meet (sm_layers m v) -> s_meet (sm_layers m' v)) /\
  (n_ok p -> s_join (sm_layers m v) -> s_join (sm_layers m' v)) /\
  (forall x, boundary (sm_layers m v) x -> boundary (sm_layers m' v) x) /\
  (forall y l, sm_layers m v = y :: l -> exists z l', sm_layers m' v = z :: l' /\
     sl_topDepth z = sl_topDepth y /\ sl_topP z = sl_topP y /\
     sl_botDepth (last l' z) = sl_botDepth (last l y) /\ sl_botP (last l' z) = sl_botP (last l y)).
Proof. exact @addSlowness_keeps. Qed.
Theorem C21_sampled_afterwards :
  forall {T} {N : Num T} {O : NumOrd T} (m : smodel T) p w m',
  addSlowness m p w = Ok m' -> ids_ok m ->
  forall i y, nth_error (sm_layers m' w) i = Some y ->
    ~ (spans y p /\ cuttable m' w (sm_layers m' w) i y).
Proof. exact @addSlowness_done2. Qed.
Theorem C21_terminates :
  forall {T} {N : Num T} {O : NumOrd T} (m : smodel T) p w, addSlowness m p w <> Diverge.
Proof. exact @addSlowness_nd. Qed.
(** the models the constructor makes satisfy the hypothesis, and keep every boundary of
    the velocity model *)
Theorem C21_constructed_models :
  forall {T} {N : Num T} {O : NumOrd T} {L : Libm T} fuel vm dp Dp dz dx err innerS tol (m : smodel T),
  newSlownessModel fuel vm dp Dp dz dx err innerS tol = Ok m -> n_ok (vm_radius vm) ->
  ids_ok m /\
  forall w v x, In v (vm_layers vm) -> x = vl_topDepth v \/ x = vl_botDepth v ->
    boundary (sm_layers m w) x.
Proof.
  intros T N O L fuel vm dp Dp dz dx err innerS tol m H Hr.
  apply createSample_built in H; [|exact Hr]. destruct H as [A [B [C [D [E _]]]]].
  split; [exact A|exact E].
Qed.
Example C21_ex :
  ids_ok toy_sMod /\
  exists m', addSlowness toy_sMod (d 300 0) true = Ok m' /\
    (List.length (sm_P m') > List.length (sm_P toy_sMod))%nat /\
    (List.length (sm_S m') > List.length (sm_S toy_sMod))%nat /\
    s_meet (sm_P m') /\ s_join (sm_S m').
Proof.
  destruct toy_good as [I G]. split; [exact I|].
  destruct (addSlowness toy_sMod (d 300 0) true) as [m'| |] eqn:E; [|vm_compute in E; discriminate..].
  exists m'. split; [reflexivity|].
  destruct (C21_stays_gap_free _ _ _ _ true E I) as [A _].
  destruct (C21_stays_gap_free _ _ _ _ false E I) as [_ [B _]].
  destruct (G true) as [_ [G1 _]]. destruct (G false) as [_ [_ [G2 _]]].
  assert (P : (List.length (sm_P m') > List.length (sm_P toy_sMod))%nat /\
              (List.length (sm_S m') > List.length (sm_S toy_sMod))%nat).
  { clear - E. vm_compute in E. inversion E; subst. split; vm_compute; lia. }
  destruct P. split; [assumption|]. split; [assumption|]. split; [apply A; exact G1|apply B; [reflexivity|exact G2]].
Qed.

(** ** C23: validation *)
Theorem C23_validate_exact :
  forall {T} {N : Num T} {O : NumOrd T} (m : smodel T),
  n_ok (sm_radius m) -> n_ok (sm_maxDepthInterval m) -> n_ok (- n_lit 1 300 : T) ->
  zones_numbers (sm_hiP m) -> zones_numbers (sm_hiS m) -> zones_numbers (sm_fluid m) ->
  (sm_validate m = Ok true <->
   n_0 <? sm_radius m = true /\ n_0 <? sm_maxDepthInterval m = true /\
   zones_good (sm_hiP m) /\ zones_good (sm_hiS m) /\ zones_good (sm_fluid m) /\
   stack_good (sm_radius m) (sm_P m) /\ stack_good (sm_radius m) (sm_S m)) /\
  (sm_validate m = Ok true \/ sm_validate m = Raise SlownessModelError).
Proof. exact @sm_validate_iff. Qed.
Theorem C23_constructed_valid :
  forall {T} {N : Num T} {O : NumOrd T} {L : Libm T} fuel vm dp Dp dz dx err innerS tol (m : smodel T),
  newSlownessModel fuel vm dp Dp dz dx err innerS tol = Ok m -> n_ok (vm_radius vm) ->
  sm_validate m = Ok true /\ sm_radius m = vm_radius vm /\
  forall w, stack_good (vm_radius vm) (sm_layers m w) /\
    exists l y, sm_layers m w = l ++ [y] /\ sl_botDepth y =? vm_radius vm = true.
Proof.
  intros T N O L fuel vm dp Dp dz dx err innerS tol m H Hr.
  split; [eapply createSample_valid; exact H|].
  apply createSample_built in H; [|exact Hr].
  destruct H as [_ [_ [E [F [_ [_ [_ G]]]]]]]. rewrite E in *. cbn [sm_init sm_vMod] in *.
  split; [reflexivity|]. intros w. split; [apply F|apply G].
Qed.
(** both values of [validate] occur *)
Example C23_ex :
  sm_validate toy_sMod = Ok true /\
  sm_validate (sm_set_layers toy_sMod (tl (sm_P toy_sMod)) (sm_S toy_sMod) 0) = Raise SlownessModelError /\
  sm_validate gap_sm = Raise SlownessModelError /\
  zones_numbers (sm_hiP toy_sMod) /\ zones_numbers (sm_fluid toy_sMod) /\ sm_fluid toy_sMod <> [].
Proof.
  split; [vm_compute; reflexivity|]. split; [vm_compute; reflexivity|]. split; [vm_compute; reflexivity|].
  split; [|split].
  - intros z H. repeat (destruct H as [<-|H]; [split; reflexivity|]). destruct H.
  - intros z H. repeat (destruct H as [<-|H]; [split; reflexivity|]). destruct H.
  - discriminate.
Qed.

Print Assumptions C20_search_exact.
Print Assumptions C20_search_terminates.
Print Assumptions C20_search_outside.
Print Assumptions C20_gap_diverges_refuted.
Print Assumptions C21_what_changes.
Print Assumptions C21_stays_gap_free.
Print Assumptions C21_sampled_afterwards.
Print Assumptions C21_terminates.
Print Assumptions C21_constructed_models.
Print Assumptions C23_validate_exact.
Print Assumptions C23_constructed_valid.

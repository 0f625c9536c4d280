(** Properties C22, C44 and C46: the sampling lies on the velocity model, critical depths
    and fluid zones, and the radius of the planet. *)
From Coq Require Import ZArith Bool List String Reals Lia Lra SpecFloat.
From Verif Require Import Base Num PyStr VelocityModel VelSpec VelProofs SlownessLayer SlownessModel
  SlowSpec SlowProofs SlowAddProofs SlowBuildProofs CritSpec CritProofs SlowRealProofs Toy SlowProps.
Import ListNotations.
Local Open Scope list_scope.
Local Open Scope num_scope.

(** ** C22: the sampling lies on the velocity model *)
Theorem C22_insertion_stays_on_model :
  forall (vm : vmodel R), contiguous (vm_layers vm) -> thick (vm_layers vm) ->
  (forall v, In v (vm_layers vm) -> layer_ok v) ->
  forall m p w m', well_sampled vm m -> ids_ok m ->
  (forall y, In y (sm_P m) \/ In y (sm_S m) -> (sl_topDepth y <= sl_botDepth y)%R) ->
  addSlowness m p w = Ok m' ->
  well_sampled vm m' /\
  (forall y, In y (sm_P m') \/ In y (sm_S m') -> (sl_topDepth y <= sl_botDepth y)%R).
Proof. exact s_inv_step. Qed.
(** the depth of a cut of a thick layer is strictly inside it *)
Theorem C22_cut_is_inside :
  forall (vm : vmodel R), contiguous (vm_layers vm) -> thick (vm_layers vm) ->
  (forall v, In v (vm_layers vm) -> layer_ok v) ->
  forall w v y p tv bv n a b r, In v (vm_layers vm) -> w = true \/ vl_topS v <> 0%R ->
  on_layer r w v y -> (sl_topDepth y < sl_botDepth y)%R ->
  layer_velocities vm w y = Ok (tv, bv) -> spans y p ->
  split_pair r p tv bv y n = Ok (a, b) ->
  (sl_topDepth y < sl_botDepth a < sl_botDepth y)%R /\ on_layer r w v a /\ on_layer r w v b.
Proof. exact split_on_layer. Qed.
Theorem C22_constructed_on_model :
  forall {L : Libm R} fuel vm dp Dp dz dx err innerS tol (m : smodel R),
  newSlownessModel fuel vm dp Dp dz dx err innerS tol = Ok m ->
  thick (vm_layers vm) -> vm_radius vm = 6371%R ->
  (forall y, In y (sm_P m) -> (sl_topDepth y < sl_botDepth y)%R -> on_model vm true y) /\
  (forall y, In y (sm_S m) -> (sl_topDepth y < sl_botDepth y)%R ->
     exists v (pv : bool), In v (vm_layers vm) /\ on_layer (vm_radius vm) pv v y /\ (pv = true <-> uses_P vm innerS v)).
Proof.
  intros L fuel vm dp Dp dz dx err innerS tol m H Ht Hr.
  apply createSample_on_model in H; [|exact Ht|exact Hr]. destruct H as [[_ [_ [HP HS]]] Hin].
  split; [intros y Hy Ty; apply (HP y Hy Ty)|].
  intros y Hy Ty. destruct (HS y Hy Ty) as [[v [A [B [_ C]]]]|[v [A [B C]]]]; rewrite Hin in C.
  - exists v, false. split; [exact A|]. split; [exact B|]. split; [discriminate|contradiction].
  - exists v, true. tauto.
Qed.

(** a planet with constant velocity 1: the layer of slownesses 6371 .. 0 is cut at slowness
    3000, at depth 3371 *)
Definition unit_vm : vmodel R :=
  mkVModel "unit" 6371%R 0%R 1%R 1%R 0%R 6371%R true
    [mkVLayer 0 0%R 6371%R 1%R 1%R 1%R 1%R 1%R 1%R].
Definition unit_sm : smodel R :=
  sm_set_layers (sm_init unit_vm 1%R 1%R 1%R 1%R 1%R true 1%R)
    [mkSL 0 6371%R 0%R 0%R 6371%R] [mkSL 1 6371%R 0%R 0%R 6371%R] 2.
Lemma unit_ok : contiguous (vm_layers unit_vm) /\ thick (vm_layers unit_vm) /\
  (forall v, In v (vm_layers unit_vm) -> layer_ok v).
Proof.
  split; [|split].
  - intros i a b [Ha _] [_ Hb]. exfalso. cbn [unit_vm vm_layers] in Hb.
    destruct (Z.to_nat (i + 1)) as [|[|k]] eqn:E; try discriminate. lia.
  - intros v [<-|[]]. apply Rltb_lt. cbn [vl_topDepth vl_botDepth]. lra.
  - intros v [<-|[]]. unfold layer_ok. rewrite n_0_R. cbn [vl_topDepth vl_botDepth vl_topP vl_botP vl_topS vl_botS].
    split; [rewrite Reqb_eq; lra|]. split; [apply Rltb_lt; lra|]. split; [apply Rltb_lt; lra|].
    split; [apply Rleb_le; lra|]. split; [apply Rleb_le; lra|]. rewrite Reqb_eq. split; lra.
Qed.
Lemma unit_line : forall w v x, In v (vm_layers unit_vm) -> wvel w v x = 1%R.
Proof. intros w v x [<-|[]]. unfold wvel, line. destruct w; cbn; lra. Qed.
Lemma unit_sampled : well_sampled unit_vm unit_sm /\ ids_ok unit_sm /\
  (forall y, In y (sm_P unit_sm) \/ In y (sm_S unit_sm) -> (sl_topDepth y <= sl_botDepth y)%R).
Proof.
  assert (V : In (mkVLayer 0 0%R 6371%R 1%R 1%R 1%R 1%R 1%R 1%R) (vm_layers unit_vm)) by (left; reflexivity).
  assert (On : forall w n, on_layer 6371%R w (mkVLayer 0 0%R 6371%R 1%R 1%R 1%R 1%R 1%R 1%R) (mkSL n 6371%R 0%R 0%R 6371%R)).
  { intros w n. unfold on_layer. rewrite !(unit_line _ _ _ V). cbn. repeat split; lra. }
  split; [|split].
  - split; [reflexivity|]. split; [apply (Rlit_0 6371)|]. split.
    + intros y [<-|[]] _. eexists. split; [exact V|]. apply On.
    + intros y [<-|[]] _. left. eexists. split; [exact V|]. split; [apply On|]. split; [intros [F|[]]; discriminate|]. intros [F|[F _]]; [cbn in F; lra|discriminate].
  - split; [repeat constructor; auto|]. split; [repeat constructor; auto|].
    split; [intros y [[<-|[]]|[<-|[]]]; cbn; lia|]. intros y z [<-|[]] [<-|[]] F; discriminate.
  - intros y [[<-|[]]|[<-|[]]]; cbn; lra.
Qed.
Example C22_ex :
  addSlowness unit_sm 3000%R true
  = Ok (sm_set_layers unit_sm [mkSL 3 6371%R 0%R 3000%R 3371%R; mkSL 2 3000%R 3371%R 0%R 6371%R]
                      [mkSL 1 6371%R 0%R 0%R 6371%R] 4).
Proof.
  destruct unit_ok as [Hc [Ht Hl]].
  assert (V : In (mkVLayer 0 0%R 6371%R 1%R 1%R 1%R 1%R 1%R 1%R) (vm_layers unit_vm)) by (left; reflexivity).
  assert (LV : forall n tp bp x, (0 <= x < 6371)%R -> layer_velocities unit_vm true (mkSL n tp x bp 6371%R) = Ok (1%R, 1%R)).
  { intros n tp bp x Hx. unfold layer_velocities. cbn [sl_topDepth sl_botDepth].
    rewrite (proj2 (Reqb_ne x 6371%R)) by lra. cbn [negb].
    rewrite (eval_below_in unit_vm Hc Ht _ x true V) by (cbn; lra).
    rewrite (eval_above_in unit_vm Hc Ht _ 6371%R true V) by (cbn; lra).
    rewrite !(unit_line _ _ _ V). reflexivity. }
  unfold addSlowness. cbn [unit_sm sm_layers sm_set_layers sm_init sm_P sm_S negb List.length mult plus sm_vMod sm_radius sm_allowInnerCoreS sm_next].
  cbn [addS_go]. rewrite LV by lra. cbn [bind negb andb].
  unfold strictly_contains at 1. cbn [sl_topP sl_botP].
  rewrite n_0_R. rewrite (proj2 (Rltb_lt 0%R _)) by (cbn; lra).
  assert (SP : split_pair (n_lit 6371 0) 3000%R 1%R 1%R (mkSL 0 6371%R 0%R 0%R 6371%R) 2
     = Ok (mkSL 3 6371%R 0%R 3000%R 3371%R, mkSL 2 3000%R 3371%R 0%R 6371%R)).
  { unfold split_pair. cbn [sl_topDepth sl_botDepth sl_topP sl_botP].
    rewrite (proj2 (Reqb_ne 6371%R 0%R)) by lra. cbn [negb].
    unfold interpolate. unfold py_div at 1. cbn [n_sub Num_R]. 
    change (@n_0 R Num_R) with (Rlit 0 0). change (@n_1 R Num_R) with (Rlit 1 0). change (@n_lit R Num_R 6371 0) with (Rlit 6371 0).
    rewrite !Rlit_0.
    rewrite (proj2 (Reqb_ne (6371 - 0) 0)%R) by lra. cbn [bind n_div Num_R n_mul n_add].
    rewrite (proj2 (Reqb_ne (3000 * ((1 - 1) / (6371 - 0)) + 1) 0)%R) by (cbn; lra).
    unfold py_div at 1. cbn [Num_R n_div].
    replace (3000 * ((1 - 1) / (6371 - 0)) + 1)%R with 1%R by lra.
    rewrite n_0_R, (proj2 (Reqb_ne 1 0)%R) by lra. cbn [bind].
    replace ((6371 + 3000 * (0 * ((1 - 1) / (6371 - 0)) - 1)) / 1)%R with 3371%R by lra.
    unfold new_slayer. rewrite n_0_R.
    rewrite !(proj2 (Rleb_le _ _)) by lra. reflexivity. }
  rewrite SP. cbn [bind]. rewrite LV by lra. cbn [bind negb andb].
  unfold strictly_contains at 1. cbn [sl_topP sl_botP]. rewrite n_0_R.
  rewrite (proj2 (Rltb_ge 0%R _)) by (cbn; lra). reflexivity.
Qed.

(** ** C44: critical depths and fluid zones *)
Theorem C44_critical_depths_exact :
  forall {T} {N : Num T} (m m' : smodel T), findCriticalPoints m = Ok m' ->
  exists out, picks (critical_top (sm_vMod m) (sm_allowInnerCoreS m)) 0 (vm_layers (sm_vMod m)) out /\
    sm_crit m' = mkCD n_0 0 0 0 :: map (fun '(n, v) => mkCD (vl_topDepth v) (Z.of_nat n) (-1) (-1)) out
                 ++ [mkCD (sm_radius m) (Z.of_nat (List.length (vm_layers (sm_vMod m)))) (-1) (-1)].
Proof.
  intros T N m m' H. apply findCritical_exact in H. destruct H as [out [A [B _]]]. exists out.
  split; [exact A|]. rewrite B. f_equal. f_equal. apply map_ext. intros [n v]. reflexivity.
Qed.
Theorem C44_surface_once :
  forall (vm : vmodel R) innerS, ~ critical_top vm innerS 0.
Proof.
  intros vm innerS [v [w [tp [bp [_ [_ [H|H]]]]]]].
  - rewrite (proj2 (Reqb_eq tp tp) eq_refl) in H. discriminate.
  - apply Rltb_lt in H. rewrite n_0_R in H. cbn [n_sub n_mul Num_R] in H. lra.
Qed.
Theorem C44_fluid_zones_exact :
  forall {T} {N : Num T} (m m' : smodel T), findCriticalPoints m = Ok m' ->
  fluid_runs (vm_layers (sm_vMod m)) (sm_fluid m').
Proof. intros T N m m' H. apply findCritical_exact in H. destruct H as [out [_ [_ A]]]. exact A. Qed.
Example C44_ex :
  match findCriticalPoints (sm_init toy_vm (d 1 (-1)) (d 1000 0) (d 3000 0) (d 1000 0) (d 1000 0) true (d 1 (-16))) with
  | Ok m' => map (fun c => cd_depth c) (sm_crit m') = [d 0 0; d 35 0; d 2889 0; d 5154 0; d 6371 0] /\
             map (fun z => (dr_top z, dr_bot z)) (sm_fluid m') = [(d 2889 0, d 5154 0)]
  | _ => False
  end.
Proof. vm_compute. split; reflexivity. Qed.

(** ** C46: the radius of the planet *)
(** Whatever its radius, the slowness of a constructed model at the surface is that of a
    planet of radius 6371. *)
Theorem C46_own_radius_refuted :
  forall {L : Libm R} fuel vm dp Dp dz dx err innerS tol (m : smodel R),
  newSlownessModel fuel vm dp Dp dz dx err innerS tol = Ok m -> vm_radius vm <> 6371%R ->
  exists v ls y l, vm_layers vm = v :: ls /\ sm_P m = y :: l /\ sl_topDepth y = vl_topDepth v /\
    (sl_topP y * vl_topP v = 6371 - vl_topDepth v)%R /\
    (sl_topP y * vl_topP v <> vm_radius vm - vl_topDepth v)%R.
Proof.
  intros L fuel vm dp Dp dz dx err innerS tol m H Hr.
  apply createSample_first in H. destruct H as [v [ls [y [l [A [B [C D]]]]]]].
  exists v, ls, y, l. split; [exact A|]. split; [exact B|]. split; [exact C|]. split; [exact D|].
  rewrite D. lra.
Qed.
(** planets of radius 3000; the slownesses at the surface are 6371/5 and 6371/2.  If the
    velocity decreases towards the centre the construction succeeds, for a homogeneous
    planet it divides by zero. *)
Definition small_vm (v1 v2 : b64) : vmodel b64 :=
  mkVModel "small" (d 3000 0) (d 35 0) (d 1000 0) (d 2000 0) (d 0 0) (d 3000 0) true
    [ mkVLayer 0 (d 0 0) (d 1000 0) (d 5 0) (d 5 0) (d 2 0) (d 2 0) (d 26 (-1)) (d 26 (-1));
      mkVLayer 1 (d 1000 0) (d 3000 0) (d 5 0) v1 (d 2 0) v2 (d 26 (-1)) (d 26 (-1)) ].
Definition small_build (v1 v2 : b64) : result (smodel b64) :=
  newSlownessModel 20 (small_vm v1 v2) (d 1 (-1)) (d 9000 0) (d 9000 0) (d 9000 0) (d 900000 0) true (d 1 (-16)).
Example C46_ex :
  match small_build (d 2 0) (d 1 0) with
  | Ok m => map (fun y => (sl_topP y, sl_botP y)) (sm_P m)
            = [(n_div (d 6371 0) (d 5 0), n_div (d 5371 0) (d 5 0)); (n_div (d 5371 0) (d 5 0), n_div (d 3371 0) (d 2 0))]
  | _ => False
  end /\
  small_build (d 5 0) (d 2 0) = Raise ZeroDivisionError.
Proof. split; vm_compute; reflexivity. Qed.

Print Assumptions C22_insertion_stays_on_model.
Print Assumptions C22_cut_is_inside.
Print Assumptions C22_constructed_on_model.
Print Assumptions C44_critical_depths_exact.
Print Assumptions C44_surface_once.
Print Assumptions C44_fluid_zones_exact.
Print Assumptions C46_own_radius_refuted.

(** C48: Between two neighbouring critical depths the sampled slowness only falls or only rises. *)
From Coq Require Import ZArith Bool List String Reals Lia Lra.
From Verif Require Import Base Num PyStr VelocityModel VelSpec VelProofs SlownessLayer SlownessModel
  SlowSpec SlowProofs SlowAddProofs SlowBuildProofs SlowProps CritSpec CritProofs CritProps SlowRealProofs SampleProofs StackSpec StackProofs
  TauModel TauSpec TauProofs TauBuildProofs TauProps PathSpec MonoSpec MonoProofs BuildRun.
Import ListNotations.
Local Open Scope list_scope.
Local Open Scope R_scope.

(** Two layers with no critical depth between them go the same way; every layer of positive thickness
    goes one way or the other. *)
Theorem C48_same_way :
  forall {L : Libm R} fuel vm dp Dp dz dx err innerS tol (m : smodel R),
  newSlownessModel fuel vm dp Dp dz dx err innerS tol = Ok m ->
  thick (vm_layers vm) -> vm_radius vm = 6371 -> no_flat vm innerS -> fluid_above_inner_core vm innerS ->
  forall w,
  (forall y, In y (sm_layers m w) -> sl_topDepth y < sl_botDepth y -> sl_topP y <> sl_botP y) /\
  (forall i j y z, (i < j)%nat -> nth_error (sm_layers m w) i = Some y -> nth_error (sm_layers m w) j = Some z ->
    (forall c, In c (sm_crit m) -> ~ (sl_botDepth y <= cd_depth c <= sl_topDepth z)) ->
    0 <= (sl_topP y - sl_botP y) * (sl_topP z - sl_botP z)).
Proof.
  intros L fuel vm dp Dp dz dx err innerS tol m H Ht Hr Hnf Hfi w.
  destruct (constructed_pairs _ _ _ _ _ _ _ _ _ _ H Ht Hr Hnf Hfi w) as [A B]. split.
  - rewrite Forall_forall in B. exact B.
  - intros i j y z Lt Hy Hz N. rewrite FOP_nth in A. apply (A i j y z Lt Hy Hz).
    intros c Hc X. apply in_map_iff in Hc. destruct Hc as [c' [<- Hc]]. exact (N c' Hc X).
Qed.

(** Hence in every branch of the tau model the slowness falls with depth throughout or rises with
    depth throughout. *)
Theorem C48_steady_branches :
  forall {L : Libm R} fuel fuel' vm dp Dp dz dx err innerS tol (m : smodel R) t,
  newSlownessModel fuel vm dp Dp dz dx err innerS tol = Ok m -> newTauModel fuel' m = Ok t ->
  thick (vm_layers vm) -> vm_radius vm = 6371 -> no_flat vm innerS -> fluid_above_inner_core vm innerS ->
  forall w b, In b (branches t w) -> steady m b.
Proof.
  intros L fuel fuel' vm dp Dp dz dx err innerS tol m t H HT Ht Hr Hnf Hfi w b Hb.
  destruct (C25_branches_tile_exact _ _ _ _ _ _ _ _ _ _ _ _ H HT Ht w) as [Ti [_ [Bu Is]]].
  destruct (Is b Hb) as [Ew _]. unfold steady. rewrite Ew. intros i j Hi Hj.
  destruct (C23_constructed_valid _ _ _ _ _ _ _ _ _ _ H (proj2 (Reqb_eq _ _) eq_refl)) as [_ [_ G]].
  destruct (G w) as [Sg _]. pose proof (good_upright _ _ Sg) as Up.
  assert (Hm : s_meet (sm_layers m w)) by apply Sg.
  assert (Hjo : s_join (sm_layers m w)) by apply Sg.
  assert (Lt : tb_top b < tb_bot b) by (apply Rltb_lt; exact (Bu b Hb)).
  destruct (branch_inside _ _ _ _ _ Hm Up Lt Hi Hj) as [Lj [In1 In2]].
  destruct (constructed_pairs _ _ _ _ _ _ _ _ _ _ H Ht Hr Hnf Hfi w) as [A B].
  apply steady_range; try assumption.
  - intros y Hy. apply Rleb_le. exact (Up y Hy).
  - intros k l y z Lk Ll Hy Hz. rewrite FOP_nth in A. apply (A k l y z ltac:(lia) Hy Hz).
    intros c Hc X. apply (branch_gap _ _ _ _ Ti Bu Hb Hc).
    pose proof (In1 k y ltac:(lia) Hy). pose proof (In2 l z ltac:(lia) Hz). lra.
Qed.

(** So the model as constructed fulfils all that the theorems on ray paths (C36) ask for. *)
Theorem C48_rays_ready :
  forall fuel fuel' vm dp Dp dz dx err innerS tol (m : smodel R) t,
  newSlownessModel fuel vm dp Dp dz dx err innerS tol = Ok m -> newTauModel fuel' m = Ok t ->
  thick (vm_layers vm) -> vm_radius vm = 6371 -> no_flat vm innerS -> fluid_above_inner_core vm innerS ->
  rays_ready t.
Proof.
  intros fuel fuel' vm dp Dp dz dx err innerS tol m t H HT Ht Hr Hnf Hfi.
  pose proof (C25_branches_tile_exact _ _ _ _ _ _ _ _ _ _ _ _ H HT Ht) as Ti.
  pose proof (C48_steady_branches _ _ _ _ _ _ _ _ _ _ _ _ H HT Ht Hr Hnf Hfi) as St.
  destruct (C23_constructed_valid _ _ _ _ _ _ _ _ _ _ H (proj2 (Reqb_eq _ _) eq_refl)) as [_ [_ G]].
  assert (Em : tm_sMod t = m) by (apply newTauModel_inv in HT; tauto).
  split.
  - split; [|split].
    + intros w. rewrite Em. destruct (G w) as [Sg _]. split; [apply Sg|exact (good_upright _ _ Sg)].
    + destruct (Ti true) as [_ [_ [U _]]]. exact U.
    + destruct (Ti false) as [_ [_ [U _]]]. exact U.
  - rewrite Em. intros b [Hb|Hb].
    + split; [exact (St true b Hb)|]. destruct (Ti true) as [_ [_ [_ K]]]. destruct (K b Hb) as [-> K']. exact K'.
    + split; [exact (St false b Hb)|]. destruct (Ti false) as [_ [_ [_ K]]]. destruct (K b Hb) as [-> K']. exact K'.
Qed.

(** the hypotheses hold for a ball of constant velocity, whose whole construction is carried out in BuildRun.v *)
Example C48_ex : newSlownessModel 20 unit_vm 1 7000 7000 10 100000 true 1 = Ok (one_sm one_c') /\
  newTauModel 20 (one_sm one_c') = Ok one_t /\
  thick (vm_layers unit_vm) /\ vm_radius unit_vm = 6371 /\ no_flat unit_vm true /\ fluid_above_inner_core unit_vm true /\
  (forall w, In (one_tb w) (branches one_t w)).
Proof.
  split; [exact one_built|]. split; [exact one_modelled|].
  split; [intros v [<-|[]]; apply Rltb_lt; cbn; lra|]. split; [reflexivity|].
  split; [|split; [left; reflexivity|intros []; left; reflexivity]].
  intros w v tp bp [<-|[]] [[_ E]|[_ E]]; apply ends_R in E; unfold top_of, bot_of in E; cbn [vl_topDepth vl_botDepth vl_topP vl_botP vl_topS vl_botS] in E; lra.
Qed.
Example C48_rays_ready_ex : rays_ready one_t.
Proof.
  destruct C48_ex as [A [B [C [D [E [F _]]]]]]. exact (C48_rays_ready _ _ _ _ _ _ _ _ _ _ _ _ A B C D E F).
Qed.

Print Assumptions C48_same_way.
Print Assumptions C48_steady_branches.
Print Assumptions C48_rays_ready.

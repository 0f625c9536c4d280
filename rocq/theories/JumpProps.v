(** Property C70: the depths getDisconDepths lists are the ends of the model and the depths
    at which a velocity jumps. *)
From Coq Require Import ZArith Bool List String Ascii Reals Lia Lra Sorted.
From Verif Require Import Base Num PyStr VelocityModel NameSpec VelSpec VelProofs SlownessLayer SlownessModel SlowSpec
  CritSpec CritProofs JumpSpec JumpProofs SlowRealProofs SlowProofs VelProps CritProps RealRun SlowRun.
Import ListNotations.
Local Open Scope R_scope.

(** Every model with a layer has a list; one without has none. *)
Theorem C70_defined : forall {T} {N : Num T} (m : vmodel T),
  (vm_layers m <> [] -> exists l, getDisconDepths m = Ok l) /\
  (vm_layers m = [] -> getDisconDepths m = Raise IndexError).
Proof.
  intros T N m. unfold getDisconDepths. split; intros H.
  - destruct (vm_layers m) as [|a ls]; [contradiction|]. rewrite py_index_last. cbn. eexists. reflexivity.
  - rewrite H. reflexivity.
Qed.

(** The list is, in order of depth and once each, the top of the model, the depths at which evaluating
    just above and just below give different P or S velocities, and the bottom of the model. *)
Theorem C70_listed : forall (m : vmodel R) l, contiguous (vm_layers m) -> thick (vm_layers m) ->
  getDisconDepths m = Ok l -> lists (fun x => model_end m x \/ jumps m "P" x \/ jumps m "S" x) l.
Proof. exact listed. Qed.

(** So the boundaries fixDisconDepths chooses are in the list, except where it falls back on the
    surface or the centre. *)
Theorem C70_named_are_listed : forall (m : vmodel R) l, getDisconDepths m = Ok l ->
  let m' := fst (fixDisconDepths m) in
  (In (vm_moho m') l \/ vm_moho m' = 0) /\
  (In (vm_cmb m') l \/ vm_cmb m' = vm_radius m) /\
  (In (vm_iocb m') l \/ vm_iocb m' = vm_radius m).
Proof.
  intros m l H m'.
  assert (Q : forall i x, discon (vm_layers m) i x -> In x l).
  { intros i x [a [b [Ha [Hb [-> D]]]]]. destruct (vm_layers m) as [|c ls] eqn:E; [destruct (nth_layer_nil _ _ Ha)|].
    rewrite (listed_eq _ _ _ E) in H.
    assert (El : l = vl_topDepth c :: inner (c :: ls) ++ [vl_botDepth (last ls c)]) by congruence. subst l.
    right. apply in_or_app. left. apply inner_in. exists i, a, b. split; [exact Ha|]. split; [exact Hb|]. split; [reflexivity|].
    destruct (Req_EM_T (vl_botP a) (vl_topP b)) as [X|X]; [|left; exact X].
    destruct (Req_EM_T (vl_botS a) (vl_topS b)) as [Y|Y]; [|right; exact Y]. exfalso. apply D.
    split; apply Reqb_eq; assumption. }
  pose proof (C14_nearest_discontinuities m) as C. cbv zeta in C. fold m' in C. destruct C as [A [B [ic [C [D1 [D2 _]]]]]].
  split; [|split].
  - destruct A as [[A _]|[i [A _]]]; [right; rewrite A; apply n_0_R|left; exact (Q _ _ A)].
  - destruct B as [[B _]|[i [B _]]]; [right; exact B|left; exact (Q _ _ B)].
  - destruct (n_eqb (vm_cmb m') ic) eqn:E; [right; exact (D1 eq_refl)|]. rewrite (D2 eq_refl).
    destruct C as [[C _]|[i [[C _] _]]]; [right; exact C|left; exact (Q _ _ C)].
Qed.

Lemma picks_in : forall {A : Type} (P : nat -> Prop) (ls : list A) n out k a, picks P n ls out -> nth_error ls k = Some a ->
  P (n + k)%nat -> In ((n + k)%nat, a) out.
Proof.
  intros A P ls. induction ls as [|b ls IH]; intros n out k a H E Q; [destruct k; discriminate|].
  destruct k as [|k]; [cbn in E; assert (b = a) by congruence; subst b; rewrite Nat.add_0_r in *|cbn in E; rewrite Nat.add_succ_r in *].
  - inversion H; subst; [left; reflexivity|contradiction].
  - inversion H; subst; [right|]; apply (IH (S n)); auto.
Qed.

(** Where the P velocity jumps, or the S velocity between solids while S waves are allowed in the inner
    core, the slowness model has a critical depth.  (The radius of slowness models is 6371.) *)
Theorem C70_critical : forall (m m' : smodel R) w x above below,
  let vm := sm_vMod m in
  contiguous (vm_layers vm) -> thick (vm_layers vm) ->
  (forall v, In v (vm_layers vm) -> vl_topP v <> 0 /\ vl_botP v <> 0 /\ (vl_topS v = 0 <-> vl_botS v = 0)) ->
  findCriticalPoints m = Ok m' ->
  evaluateAbove vm x w = Ok above -> evaluateBelow vm x w = Ok below -> above <> below -> x <> 6371 ->
  (w = "P"%string \/ (w = "S"%string /\ sm_allowInnerCoreS m = true /\ above <> 0 /\ below <> 0)) ->
  In x (map (fun c => cd_depth c) (sm_crit m')).
Proof.
  intros m m' w x above below vm C K V F A B D X W.
  assert (I : exists i a b, nth_layer (vm_layers vm) i a /\ nth_layer (vm_layers vm) (i + 1) b /\ x = vl_botDepth a).
  { assert (J : In x (inner (vm_layers vm))).
    { apply inner_jump; [exact C|exact K|]. destruct W as [-> |[-> _]]; [left|right]; exists above, below; auto. }
    apply inner_in in J. destruct J as [i [a [b [Ha [Hb [E _]]]]]]. exists i, a, b. auto. }
  destruct I as [i [a [b [Ha [Hb E]]]]].
  pose proof (C _ _ _ Ha Hb) as Eb. apply Reqb_eq in Eb.
  destruct (C44_critical_depths_exact m m' F) as [out [P1 P2]]. fold vm in P1.
  assert (Q : In (S (Z.to_nat i), b) out).
  { destruct Ha as [Hi Ha]. destruct Hb as [_ Hb]. replace (Z.to_nat (i + 1)) with (S (Z.to_nat i)) in Hb by lia.
    apply (picks_in _ _ 0%nat _ (S (Z.to_nat i)) b P1 Hb). cbn [Nat.add critical_top].
    destruct (V _ (nth_error_In _ _ Ha)) as [Va1 [Va2 Va3]]. destruct (V _ (nth_error_In _ _ Hb)) as [Vb1 [Vb2 Vb3]].
    assert (L : @n_lit R Num_R 6371 0 = 6371) by (change (@n_lit R Num_R) with Rlit; unfold Rlit, powerRZ; lra).
    assert (G : forall p q, p <> 0 -> q <> 0 -> p <> q -> (6371 - vl_botDepth a) / p <> (6371 - vl_topDepth b) / q).
    { intros p q Hp Hq Hn Y. apply Hn. rewrite <- Eb, <- E in Y.
      assert (Z1 : (6371 - x) * q = (6371 - x) * p).
      { replace ((6371 - x) * q) with ((6371 - x) / p * (p * q)) by (field; exact Hp). rewrite Y. field. exact Hq. }
      apply Rmult_eq_reg_l in Z1; [symmetry; exact Z1|lra]. }
    destruct W as [-> |[-> [Wi [Wa Wb]]]].
    - destruct (sides vm i a b "P" _ _ _ _ C K (conj Hi Ha) ltac:(split; [lia|replace (Z.to_nat (i + 1)) with (S (Z.to_nat i)) by lia; exact Hb])
        (proj2 (val_P a _ _) (conj eq_refl eq_refl)) (proj2 (val_P b _ _) (conj eq_refl eq_refl))) as [A1 B1].
      rewrite <- E in A1, B1. rewrite A1 in A. rewrite B1 in B. assert (above = vl_botP a) by congruence. assert (below = vl_topP b) by congruence. subst above below.
      exists a, b, true. split; [exact Ha|]. split; [exact Hb|].
      exists ((6371 - vl_topDepth a) / vl_topP a), ((6371 - vl_botDepth a) / vl_botP a), ((6371 - vl_topDepth b) / vl_topP b), ((6371 - vl_botDepth b) / vl_botP b).
      split; [left; split; [reflexivity|split; rewrite L; apply py_div_R; assumption]|].
      split; [left; split; [reflexivity|split; rewrite L; apply py_div_R; assumption]|].
      left. apply Reqb_ne. apply G; assumption.
    - destruct (sides vm i a b "S" _ _ _ _ C K (conj Hi Ha) ltac:(split; [lia|replace (Z.to_nat (i + 1)) with (S (Z.to_nat i)) by lia; exact Hb])
        (proj2 (val_S a _ _) (conj eq_refl eq_refl)) (proj2 (val_S b _ _) (conj eq_refl eq_refl))) as [A1 B1].
      rewrite <- E in A1, B1. rewrite A1 in A. rewrite B1 in B. assert (above = vl_botS a) by congruence. assert (below = vl_topS b) by congruence. subst above below.
      assert (Na : ~ s_as_p vm (sm_allowInnerCoreS m) (Z.to_nat i) a).
      { intros [Y|[Y _]]; [|congruence]. apply Wa, Va3. apply Reqb_eq in Y. rewrite n_0_R in Y. exact Y. }
      assert (Nb : ~ s_as_p vm (sm_allowInnerCoreS m) (S (Z.to_nat i)) b).
      { intros [Y|[Y _]]; [|congruence]. apply Wb. apply Reqb_eq in Y. rewrite n_0_R in Y. exact Y. }
      exists a, b, false. split; [exact Ha|]. split; [exact Hb|].
      exists ((6371 - vl_topDepth a) / vl_topS a), ((6371 - vl_botDepth a) / vl_botS a), ((6371 - vl_topDepth b) / vl_topS b), ((6371 - vl_botDepth b) / vl_botS b).
      split; [right; right; split; [reflexivity|split; [exact Na|split; rewrite L; apply py_div_R; tauto]]|].
      split; [right; right; split; [reflexivity|split; [exact Nb|split; rewrite L; apply py_div_R; tauto]]|].
      left. apply Reqb_ne. apply G; assumption. }
  rewrite P2. cbn [map]. right. rewrite map_app. apply in_or_app. left. apply in_map_iff.
  exists (mkCD (vl_topDepth b) (Z.of_nat (S (Z.to_nat i))) (-1) (-1)). split; [cbn; congruence|].
  apply in_map_iff. exists (S (Z.to_nat i), b). split; [reflexivity|exact Q].
Qed.

(** the planet [z_v], whose P velocity jumps at 1 km, and one in which nothing jumps *)
Definition smooth_vm : vmodel R := mkVModel "smooth" 6371 0 1 1 0 6371 true
  [mkVLayer 0 0 3000 1 2 1 1 1 1; mkVLayer 1 3000 6371 2 2 1 1 1 1].
Example C70_ex : getDisconDepths z_v = Ok [0; 1; 6371] /\ getDisconDepths smooth_vm = Ok [0; 6371] /\
  contiguous (vm_layers z_v) /\ thick (vm_layers z_v) /\
  evaluateAbove z_v 1 "P" = Ok 490 /\ evaluateBelow z_v 1 "P" = Ok 637 /\
  (forall v, In v (vm_layers z_v) -> vl_topP v <> 0 /\ vl_botP v <> 0 /\ (vl_topS v = 0 <-> vl_botS v = 0)) /\
  exists m', findCriticalPoints (z_s true) = Ok m'.
Proof.
  assert (Q : forall a b : R, a <> b -> @n_eqb R Num_R a b = false) by (intros a b H; apply Reqb_ne; exact H).
  assert (Q' : forall a b : R, a = b -> @n_eqb R Num_R a b = true) by (intros a b H; apply Reqb_eq; exact H).
  assert (C : contiguous (vm_layers z_v)).
  { apply contiguous_cons. split; [apply Reqb_eq; reflexivity|].
    intros i a b Ha Hb. apply nth_layer_cons in Hb. destruct Hb as [[Hb _]|[_ Hb]].
    - destruct Ha as [Ha _]. lia.
    - destruct (nth_layer_nil _ _ Hb). }
  assert (K : thick (vm_layers z_v)).
  { intros l H. destruct H as [<-|[<-|[]]]; apply Rltb_lt; cbn; lra. }
  assert (V : forall v, In v (vm_layers z_v) -> vl_topP v <> 0 /\ vl_botP v <> 0 /\ (vl_topS v = 0 <-> vl_botS v = 0)).
  { intros v [<-|[<-|[]]]; cbn; repeat split; intros; lra. }
  destruct (sides z_v 0 (mkVLayer 0 0 1 277 490 23 26 3 3) (mkVLayer 1 1 6371 637 637 26 26 3 3) "P" 277 490 637 637 C K) as [A B];
    [split; [lia|reflexivity]|split; [lia|reflexivity]|apply val_P; auto|apply val_P; auto|].
  split; [|split; [|split; [exact C|split; [exact K|split; [exact A|split; [exact B|split; [exact V|]]]]]]].
  - rewrite (listed_eq z_v _ _ eq_refl). cbn [last vl_topDepth vl_botDepth]. rewrite inner_cons. unfold discon_between. cbn [vl_botP vl_topP].
    rewrite (Q 490 637) by lra. reflexivity.
  - rewrite (listed_eq smooth_vm _ _ eq_refl). cbn [last vl_topDepth vl_botDepth]. rewrite inner_cons. unfold discon_between.
    cbn [vl_botP vl_topP vl_botS vl_topS]. rewrite (Q' 2 2), (Q' 1 1) by reflexivity. reflexivity.
  - eexists. srun.
Qed.
Print Assumptions C70_defined.
Print Assumptions C70_listed.
Print Assumptions C70_named_are_listed.
Print Assumptions C70_critical.

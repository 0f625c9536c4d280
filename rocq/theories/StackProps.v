(** Property C49: the coarsely sampled layer stacks are continuous. *)
From Coq Require Import ZArith Bool List String Reals Lra Lia.
From Verif Require Import Base Num VelocityModel SlownessLayer SlownessModel VelSpec VelProofs
  SlowSpec SlowAddProofs CritSpec StackSpec StackProofs RealRun SlowRun.
Import ListNotations.
Local Open Scope R_scope.

(** The P and S stacks coarseSample makes have no gaps, the P slowness is continuous, and
    the S slowness is continuous exactly if S waves are allowed in the inner core or the
    velocity model has no S velocity left to lose at the inner core boundary. *)
Theorem C49_continuous :
  forall fuel (m m1 m' : smodel R),
  v_validate (sm_vMod m) = Ok true -> thick (vm_layers (sm_vMod m)) ->
  findCriticalPoints m = Ok m1 -> coarseSample fuel m1 = Ok m' ->
  (forall w, s_meet (sm_layers m' w)) /\ s_join (sm_P m') /\
  (s_join (sm_S m') <-> sm_allowInnerCoreS m = true \/ P_from_inner_core (sm_vMod m)).
Proof. exact coarse_continuous. Qed.
(** Hence a model that is solid above its inner core boundary cannot be sampled without S
    waves in the inner core, for any sampling parameters. *)
Theorem C49_constructed :
  forall {L : Libm R} fuel vm dp Dp dz dx err tol (m : smodel R),
  newSlownessModel fuel vm dp Dp dz dx err false tol = Ok m -> thick (vm_layers vm) ->
  P_from_inner_core vm.
Proof.
  intros L fuel vm dp Dp dz dx err tol m H Ht.
  apply createSample_continuous in H; [exact H|exact Ht|reflexivity].
Qed.

Lemma z_valid : v_validate z_v = Ok true.
Proof. srun. Qed.
Lemma z_thick : thick (vm_layers z_v).
Proof. intros v [<-|[<-|[]]]; cbn; apply Rltb_true; lra. Qed.
Lemma z_solid : ~ P_from_inner_core z_v.
Proof.
  intros H. destruct (H (mkVLayer 0 0 1 277 490 23 26 3 3) (mkVLayer 1 1 6371 637 637 26 26 3 3)) as [E|[E|E]].
  - exists 0%nat. split; reflexivity.
  - cbn. lra.
  - cbn in E. lra.
  - cbn in E. lra.
  - cbn in E. lra.
Qed.
(** a case with a solid layer above the inner core boundary, where the S slowness jumps *)
Example C49_ex : exists m1 m', findCriticalPoints (z_s false) = Ok m1 /\ coarseSample 20 m1 = Ok m' /\
  ~ s_join (sm_S m').
Proof.
  assert (X : exists m1 m', findCriticalPoints (z_s false) = Ok m1 /\ coarseSample 20 m1 = Ok m').
  { eexists. eexists. split; [srun|srun]. }
  destruct X as [m1 [m' [H1 H2]]]. exists m1, m'. split; [exact H1|]. split; [exact H2|].
  destruct (C49_continuous 20 (z_s false) m1 m' z_valid z_thick H1 H2) as [_ [_ J]].
  intros F. apply J in F. destruct F as [F|F]; [discriminate|exact (z_solid F)].
Qed.

Print Assumptions C49_continuous.
Print Assumptions C49_constructed.

(** C65: the samples of the P and S layers of a constructed slowness model agree. *)
From Coq Require Import ZArith Bool List String Reals Lia Lra.
From Verif Require Import Base Num PyStr VelocityModel VelSpec SlownessLayer SlownessModel SlowSpec SlowProofs SlowBuildProofs StackProofs
  TauModel TauSpec TauProofs TauBuildProofs TauProps CompatSpec CompatProofs RealRun SlowRun BuildRun TwoRun.
Import ListNotations.
Local Open Scope list_scope.
Local Open Scope R_scope.

(** no P layer passes through a slowness sampled for S *)
Theorem C65_compatible : forall {L : Libm R} fuel vm a b c d e f g (m : smodel R),
  newSlownessModel fuel vm a b c d e f g = Ok m -> forall s, sampled_value (sm_S m) s -> clear_of (sm_P m) s.
Proof. intros L fuel vm a b c d e f g m H. unfold newSlownessModel in H. exact (created_compat _ _ _ H). Qed.

(** a sample of S shared by no P layer as top or bottom lies outside the P slownesses *)
Theorem C65_found_or_outside : forall {L : Libm R} fuel vm a b c d e f g (m : smodel R),
  newSlownessModel fuel vm a b c d e f g = Ok m -> forall s, sampled_value (sm_S m) s ->
  sampled_value (sm_P m) s \/ (forall t, sampled_value (sm_P m) t -> t < s) \/ (forall t, sampled_value (sm_P m) t -> s < t).
Proof.
  intros L fuel vm a b c d e f g m H s Hs. pose proof (C65_compatible _ _ _ _ _ _ _ _ _ _ H s Hs) as C.
  unfold newSlownessModel in H. destruct (createSample_built _ _ _ H (R_ok _)) as [_ [_ [_ [G _]]]].
  specialize (G true). cbn [sm_layers] in G. destruct G as [_ [_ [J _]]].
  destruct (clear_side (sm_P m) s C J) as [A|[A|A]]; auto.
Qed.

(** no P layer passes through a ray parameter of the tau model *)
Theorem C65_ray_parameters : forall {L : Libm R} fuel fuel' vm a b c d e f g (m : smodel R) t,
  newSlownessModel fuel vm a b c d e f g = Ok m -> newTauModel fuel' m = Ok t ->
  forall p, In p (tm_rayParams t) -> clear_of (sm_P m) p.
Proof.
  intros L fuel fuel' vm a b c d e f g m t Hm Ht p Hp. apply (C65_compatible _ _ _ _ _ _ _ _ _ _ Hm).
  destruct (C24_ray_parameters _ _ _ Ht (fun v _ => R_ok v)) as [Rc _].
  destruct Rc as [idx [_ [_ Em]]]. apply (in_map Some) in Hp. rewrite <- Em in Hp. apply in_map_iff in Hp. destruct Hp as [i [Ei _]].
  apply nth_error_In in Ei. rename Ei into Hp. unfold slownesses in Hp.
  apply in_flat_map in Hp. destruct Hp as [y [Hy Hp]]. exists y. split; [exact Hy|].
  destruct Hp as [<-|[<-|[]]]; auto.
Qed.

(** the planet of constant velocity given as two layers: 3371 is sampled at the boundary *)
Example C65_ex : exists e tA xA tB xB, let m := two_sm e two_c' in
  newSlownessModel 20 two_vm 1 7000 7000 10 e true 1 = Ok m /\ newTauModel 20 m = Ok (two_t e tA xA tB xB) /\
  sampled_value (sm_S m) 3371 /\ In 3371 (tm_rayParams (two_t e tA xA tB xB)) /\ clear_of (sm_P m) 3371 /\ ~ clear_of (sm_P m) 3000.
Proof.
  destruct two_all as [e [tA [xA [tB [xB [H1 [H2 _]]]]]]]. exists e, tA, xA, tB, xB. cbv zeta.
  assert (Sv : sampled_value (sm_S (two_sm e two_c')) 3371) by (eexists; split; [left; reflexivity|right; reflexivity]).
  split; [exact H1|]. split; [exact H2|]. split; [exact Sv|]. split; [right; left; reflexivity|].
  split; [exact (C65_compatible _ _ _ _ _ _ _ _ _ _ H1 _ Sv)|].
  intros C. apply (C (mkSL 8 3371 3000 0 6371)); [right; left; reflexivity|]. right. cbn. lra.
Qed.

Print Assumptions C65_compatible.
Print Assumptions C65_found_or_outside.
Print Assumptions C65_ray_parameters.

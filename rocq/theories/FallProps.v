(** C67: Outside high slowness zones sampled slownesses never rise with depth. *)
From Coq Require Import ZArith Bool List String Reals Lia Lra.
From Verif Require Import Base Num PyStr VelocityModel VelSpec VelProofs SlownessLayer SlownessModel SlowSpec SlowProofs SlowBuildProofs SlowProps CritSpec SlowRealProofs StackProofs SampleProofs
  TauModel MonoSpec MonoProofs ErrSpec CompatSpec ReadySpec ReadyProofs ReadyProps FallSpec FallProofs BullenSpec
  RealRun SlowRun BuildRun TwoRun InsideRun InsideProps ZoneProofs ZoneProps.
Import ListNotations.
Local Open Scope string_scope.
Local Open Scope list_scope.
Local Open Scope R_scope.

(** A layer in which the slowness rises was, when distances were checked, part of a layer with an end in a zone. *)
Theorem C67_layers : forall {L : Libm R} fuel vm dp Dp dz dx err innerS tol (m : smodel R),
  newSlownessModel fuel vm dp Dp dz dx err innerS tol = Ok m -> VelSpec.thick (vm_layers vm) -> vm_radius vm = 6371 ->
  forall w y, In y (sm_layers m w) -> sl_topP y < sl_botP y -> by_zone vm (hi_zones m w) y.
Proof.
  intros L fuel vm dp Dp dz dx err innerS tol m H Ht Hr w y Hy Ri.
  destruct (constructed_fine _ _ _ _ _ _ _ _ _ _ H Ht Hr) as [_ C]. destruct (C w) as [F _].
  destruct (F y Hy) as [X|X]; [lra|exact X].
Qed.

Theorem C67_no_zone : forall {L : Libm R} fuel vm dp Dp dz dx err innerS tol (m : smodel R),
  newSlownessModel fuel vm dp Dp dz dx err innerS tol = Ok m -> VelSpec.thick (vm_layers vm) -> vm_radius vm = 6371 ->
  forall w, hi_zones m w = [] -> never_rises (sm_layers m w).
Proof.
  intros L fuel vm dp Dp dz dx err innerS tol m H Ht Hr w E y Hy. destruct (Rlt_le_dec (sl_topP y) (sl_botP y)) as [X|X]; [|exact X].
  destruct (C67_layers _ _ _ _ _ _ _ _ _ _ H Ht Hr w y Hy X) as [z [lo [hi [Hz _]]]]. rewrite E in Hz. destruct Hz.
Qed.

(** For the velocity model: in a layer that no zone meets the slowness at the bottom is at most that at the top, *)
Theorem C67_velocity : forall {L : Libm R} fuel vm dp Dp dz dx err innerS tol (m : smodel R),
  newSlownessModel fuel vm dp Dp dz dx err innerS tol = Ok m -> VelSpec.thick (vm_layers vm) -> vm_radius vm = 6371 ->
  forall w v tp bp, In v (vm_layers vm) -> profile vm innerS w v tp bp ->
  ~ meets_zone (hi_zones m w) (vl_topDepth v) (vl_botDepth v) -> bp <= tp.
Proof.
  intros L fuel vm dp Dp dz dx err innerS tol m H Ht Hr w v tp bp Hv P Nz. destruct (Rlt_le_dec tp bp) as [X|X]; [exfalso|exact X].
  destruct (constructed_fine _ _ _ _ _ _ _ _ _ _ H Ht Hr) as [Hco C]. destruct (C w) as [_ [_ [_ [_ [_ [ls [_ [_ [_ [Sh Pt]]]]]]]]]].
  destruct (Sh v Hv) as [y [Hy [E1 [E2 Py]]]]. destruct (profile_fun _ _ _ _ _ _ _ _ P Py) as [E3 E4].
  destruct (Pt y Hy) as [y' [Hy' [P1 [P2 [P3 P4]]]]].
  destruct (C67_layers _ _ _ _ _ _ _ _ _ _ H Ht Hr w y' Hy' ltac:(apply P4; lra)) as [z [lo [hi [Hz [A [B [I [_ V]]]]]]]].
  assert (Tv : vl_topDepth v < vl_botDepth v) by (apply Rltb_lt, Ht, Hv).
  assert (Fy : sl_topDepth y' <> sl_botDepth y') by (intros Ey; apply P3 in Ey; lra).
  assert (Uy : sl_topDepth y' <= sl_botDepth y').
  { destruct (C w) as [_ [_ [_ [U _]]]]. apply Rleb_le. exact (U y' Hy'). }
  destruct V as [u [Hu [V1 V2]]]; [lra|].
  assert (u = v) by (apply (same_v vm Hco Ht u v (sl_botDepth y')); auto; lra). subst u.
  apply Nz. exists z. split; [exact Hz|]. unfold in_zone in I. lra.
Qed.

(** and it does not jump up at a boundary that is in no zone. *)
Theorem C67_jump : forall {L : Libm R} fuel vm dp Dp dz dx err innerS tol (m : smodel R),
  newSlownessModel fuel vm dp Dp dz dx err innerS tol = Ok m -> VelSpec.thick (vm_layers vm) -> vm_radius vm = 6371 ->
  forall w i u v ut ub vt vb, nth_error (vm_layers vm) i = Some u -> nth_error (vm_layers vm) (S i) = Some v ->
  profile vm innerS w u ut ub -> profile vm innerS w v vt vb ->
  (forall z, In z (hi_zones m w) -> ~ in_zone z (vl_botDepth u)) -> vt <= ub.
Proof.
  intros L fuel vm dp Dp dz dx err innerS tol m H Ht Hr w i u v ut ub vt vb Hu Hv Pu Pv Nz.
  destruct (constructed_fine _ _ _ _ _ _ _ _ _ _ H Ht Hr) as [Hco C]. destruct (C w) as [_ [_ [_ [_ [_ [ls [Jn [Me [Up [Sh Pt]]]]]]]]]].
  destruct (Sh u (nth_error_In _ _ Hu)) as [y [Hy [E1 [E2 Py]]]]. destruct (profile_fun _ _ _ _ _ _ _ _ Pu Py) as [_ E4].
  destruct (Sh v (nth_error_In _ _ Hv)) as [x [Hx [F1 [F2 Px]]]]. destruct (profile_fun _ _ _ _ _ _ _ _ Pv Px) as [F3 _].
  assert (Tu : vl_topDepth u < vl_botDepth u) by (apply Rltb_lt, Ht; eapply nth_error_In; exact Hu).
  assert (Tv : vl_topDepth v < vl_botDepth v) by (apply Rltb_lt, Ht; eapply nth_error_In; exact Hv).
  pose proof (v_meet _ _ _ _ Hco Hu Hv) as TL.
  (* layers at this depth *)
  assert (Flat : forall q, In q ls -> sl_topDepth q = vl_botDepth u -> sl_botDepth q = vl_botDepth u -> sl_botP q <= sl_topP q).
  { intros q Hq Q1 Q2. destruct (Rlt_le_dec (sl_topP q) (sl_botP q)) as [X|X]; [exfalso|exact X].
    destruct (Pt q Hq) as [q' [Hq' [P1 [P2 [P3 P4]]]]].
    destruct (C67_layers _ _ _ _ _ _ _ _ _ _ H Ht Hr w q' Hq' ltac:(apply P4; lra)) as [z [lo [hi [Hz [A [B [I [D _]]]]]]]].
    assert (Eq : sl_topDepth q' = sl_botDepth q') by (apply P3; lra). specialize (D Eq). apply (Nz z Hz). unfold in_zone in *. lra. }
  apply In_nth_error in Hy, Hx. destruct Hy as [a Ha], Hx as [b Hb].
  assert (Up' : forall q, In q ls -> sl_topDepth q <= sl_botDepth q) by (intros q Hq; apply Rleb_le; exact (Up q Hq)).
  assert (Lab : (a < b)%nat).
  { destruct (Nat.lt_ge_cases a b) as [X|X]; [exact X|exfalso]. destruct (Nat.eq_dec a b) as [->|Ne]; [assert (y = x) by congruence; subst y; lra|].
    pose proof (s_sorted ls a b x y Me Up Hb Ha ltac:(lia)) as X1. apply Rleb_le in X1. lra. }
  assert (Mid : forall n q, (a + S n <= b)%nat -> nth_error ls (a + S n) = Some q -> sl_topP q <= sl_botP y).
  { induction n as [|n IH]; intros q Ln Hq.
    - replace (a + 1)%nat with (S a) in Hq by lia. pose proof (Jn a y q Ha Hq) as J. apply Reqb_eq in J. lra.
    - destruct (nth_error ls (a + S n)) as [p|] eqn:Ep.
      2:{ apply nth_error_None in Ep. assert (b < List.length ls)%nat by (apply nth_error_Some; congruence). lia. }
      specialize (IH p ltac:(lia) eq_refl).
      replace (a + S (S n))%nat with (S (a + S n)) in Hq by lia. pose proof (Jn _ p q Ep Hq) as J. apply Reqb_eq in J.
      pose proof (s_sorted ls _ a y p Me Up Ha Ep ltac:(lia)) as X1. apply Rleb_le in X1.
      pose proof (s_sorted ls b _ p x Me Up Ep Hb ltac:(lia)) as X2. apply Rleb_le in X2.
      pose proof (Up' p (nth_error_In _ _ Ep)) as X3.
      pose proof (Flat p (nth_error_In _ _ Ep) ltac:(lra) ltac:(lra)). lra. }
  pose proof (Mid (b - a - 1)%nat x ltac:(lia) ltac:(replace (a + S (b - a - 1))%nat with b by lia; exact Hb)). lra.
Qed.

(** A model without S zones yields a tau model. *)
Theorem C67_tau : forall fuel fuel' vm dp Dp dz dx err innerS tol (m : smodel R),
  newSlownessModel fuel vm dp Dp dz dx err innerS tol = Ok m -> VelSpec.thick (vm_layers vm) -> vm_radius vm = 6371 ->
  near_depths vm -> regular m -> (forall w, (List.length (sm_layers m w) <= fuel')%nat) -> hi_zones m false = [] ->
  exists t, newTauModel fuel' m = Ok t.
Proof.
  intros fuel fuel' vm dp Dp dz dx err innerS tol m H Ht Hr Nd Rg Hf E.
  exact (C66_never_rises _ _ _ _ _ _ _ _ _ _ _ H Ht Hr Nd Rg Hf (C67_no_zone _ _ _ _ _ _ _ _ _ _ H Ht Hr false E)).
Qed.

(** So if the search for critical points finds no zone where the slowness rises (C51_surface_refuted, C51_flat_refuted),
    no model is constructed. *)
Theorem C67_missed : forall {L : Libm R} fuel vm dp Dp dz dx err innerS tol w v tp bp,
  VelSpec.thick (vm_layers vm) -> vm_radius vm = 6371 ->
  In v (vm_layers vm) -> profile vm innerS w v tp bp -> tp < bp ->
  (forall m1, findCriticalPoints (sm_set_radius (sm_init vm dp Dp dz dx err innerS tol) (vm_radius vm)) = Ok m1 ->
     ~ meets_zone (hi_zones m1 w) (vl_topDepth v) (vl_botDepth v)) ->
  forall m : smodel R, newSlownessModel fuel vm dp Dp dz dx err innerS tol <> Ok m.
Proof.
  intros L fuel vm dp Dp dz dx err innerS tol w v tp bp Ht Hr Hv P X Nz m H.
  destruct (constructed_fine _ _ _ _ _ _ _ _ _ _ H Ht Hr) as [_ C]. destruct (C w) as [_ [_ [_ [_ [[m1' [Hf' Ez]] _]]]]].
  specialize (Nz m1' Hf'). rewrite <- Ez in Nz.
  pose proof (C67_velocity _ _ _ _ _ _ _ _ _ _ H Ht Hr w v tp bp Hv P Nz). lra.
Qed.

Ltac first_bind H := match type of H with bind ?a _ = _ => let E := fresh in eassert (E : a = _) by srun; rewrite E in H; clear E; cbn [bind] in H end.
Lemma up_zones : forall dp Dp dz dx err tol (m1 : smodel R), findCriticalPoints (sm_set_radius (sm_init up_v dp Dp dz dx err true tol) 6371) = Ok m1 ->
  forall w, hi_zones m1 w = [].
Proof.
  intros dp Dp dz dx err tol m1 H. unfold findCriticalPoints in H. cbv zeta in H. do 4 first_bind H.
  destruct (sm_validate _) as [[]|e|]; [|discriminate..]. cbn [bind] in H. inversion H. intros []; reflexivity.
Qed.
Lemma flat_zones : forall dp Dp dz dx err tol (m1 : smodel R), findCriticalPoints (sm_set_radius (sm_init flat_v dp Dp dz dx err true tol) 6371) = Ok m1 ->
  forall w, hi_zones m1 w = [].
Proof.
  intros dp Dp dz dx err tol m1 H. unfold findCriticalPoints in H. cbv zeta in H. do 4 first_bind H.
  destruct (sm_validate _) as [[]|e|]; [|discriminate..]. cbn [bind] in H. inversion H. intros []; reflexivity.
Qed.
(** The models of C51: whatever the other arguments are, no slowness model is constructed. *)
Theorem C67_never : forall {L : Libm R} fuel dp Dp dz dx err tol (m : smodel R),
  newSlownessModel fuel up_v dp Dp dz dx err true tol <> Ok m /\ newSlownessModel fuel flat_v dp Dp dz dx err true tol <> Ok m.
Proof.
  intros L fuel dp Dp dz dx err tol m. split.
  - apply (C67_missed fuel up_v dp Dp dz dx err true tol true (mkVLayer 0 0 371 23 20 23 20 1 1) (top_of true (mkVLayer 0 0 371 23 20 23 20 1 1)) (bot_of true (mkVLayer 0 0 371 23 20 23 20 1 1))).
    + intros v [<-|[<-|[]]]; apply Rltb_lt; cbn; lra.
    + reflexivity.
    + left. reflexivity.
    + apply solid_has; cbn; lra.
    + ends_num.
    + intros m1 H [z [Hz _]]. change (vm_radius up_v) with 6371 in H. rewrite (up_zones _ _ _ _ _ _ _ H true) in Hz. destruct Hz.
  - apply (C67_missed fuel flat_v dp Dp dz dx err true tol true (mkVLayer 2 1371 2371 25 10 25 10 1 1) (top_of true (mkVLayer 2 1371 2371 25 10 25 10 1 1)) (bot_of true (mkVLayer 2 1371 2371 25 10 25 10 1 1))).
    + intros v [<-|[<-|[<-|[<-|[]]]]]; apply Rltb_lt; cbn; lra.
    + reflexivity.
    + right; right; left. reflexivity.
    + apply solid_has; cbn; lra.
    + ends_num.
    + intros m1 H [z [Hz _]]. change (vm_radius flat_v) with 6371 in H. rewrite (flat_zones _ _ _ _ _ _ _ H true) in Hz. destruct Hz.
Qed.

(** the planet of constant velocity given as two layers meets the hypotheses *)
Example C67_ex : exists e, let m := two_sm e two_c' in
  newSlownessModel 20 two_vm 1 7000 7000 10 e true 1 = Ok m /\ VelSpec.thick (vm_layers two_vm) /\ vm_radius two_vm = 6371 /\
  (forall w, hi_zones m w = [] /\ sm_layers m w <> []) /\
  (exists i u v ut ub vt vb, nth_error (vm_layers two_vm) i = Some u /\ nth_error (vm_layers two_vm) (S i) = Some v /\
     profile two_vm true true u ut ub /\ profile two_vm true true v vt vb /\ vt <= ub < ut) /\
  near_depths two_vm /\ regular m /\ (forall w, (List.length (sm_layers m w) <= 20)%nat) /\ exists t, newTauModel 20 m = Ok t.
Proof.
  destruct C66_ex as [e [H1 [H2 [H3 [H4 [H5 [H6 [_ [_ [_ [_ H7]]]]]]]]]]]. exists e. cbv zeta in *.
  split; [exact H1|]. split; [exact H2|]. split; [exact H3|]. split; [intros []; split; [reflexivity|discriminate|reflexivity|discriminate]|].
  split; [|auto]. exists 0%nat. do 2 eexists. do 4 eexists. split; [reflexivity|]. split; [reflexivity|].
  split; [apply solid_has; cbn; lra|]. split; [apply solid_has; cbn; lra|]. unfold top_of, bot_of; cbn; lra.
Qed.
Print Assumptions C67_layers.
Print Assumptions C67_no_zone.
Print Assumptions C67_velocity.
Print Assumptions C67_jump.
Print Assumptions C67_tau.
Print Assumptions C67_missed.
Print Assumptions C67_never.

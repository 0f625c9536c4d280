(** Specification of critical depths and fluid zones, and of what it means for a slowness
    layer to lie on the velocity model. *)
From Coq Require Import ZArith Bool List String Reals.
From Verif Require Import Base Num VelocityModel VelSpec SlownessLayer SlownessModel SlowSpec.
Import ListNotations.

Section Spec.
  Context {T : Type} {N : Num T}.
  Local Open Scope num_scope.

  Definition fluid_layer (v : vlayer T) : Prop := vl_topS v =? n_0 = true.

  (** the maximal runs of fluid layers, from top to bottom *)
  Inductive fluid_runs : list (vlayer T) -> list (drange T) -> Prop :=
  | fr_nil : fluid_runs [] []
  | fr_solid : forall v ls zs, ~ fluid_layer v -> fluid_runs ls zs -> fluid_runs (v :: ls) zs
  | fr_run : forall v run rest zs,
      (forall u, In u (v :: run) -> fluid_layer u) ->
      (forall u us, rest = u :: us -> ~ fluid_layer u) ->
      fluid_runs rest zs ->
      fluid_runs ((v :: run) ++ rest)
                 (mkDR (vl_topDepth v) (vl_botDepth (last run v)) (- n_1) :: zs).

  (** ** slowness at the two ends of a velocity layer (the radius is always 6371) *)
  Definition ends (pv : bool) (v : vlayer T) (tp bp : T) : Prop :=
    (n_lit 6371 0 - vl_topDepth v) / (if pv then vl_topP v else vl_topS v) = Ok tp /\
    (n_lit 6371 0 - vl_botDepth v) / (if pv then vl_botP v else vl_botS v) = Ok bp.

  (** a fluid ended at or above layer [i], deeper than the inner core boundary *)
  Definition below_fluid (vm : vmodel T) (i : nat) : Prop :=
    exists j a b, (j < i)%nat /\ nth_error (vm_layers vm) j = Some a /\
      nth_error (vm_layers vm) (S j) = Some b /\ fluid_layer a /\ ~ fluid_layer b /\
      vm_iocb vm <? vl_botDepth a = true.
  (** S waves in layer [i] are treated as P waves *)
  Definition s_as_p (vm : vmodel T) (innerS : bool) (i : nat) (v : vlayer T) : Prop :=
    fluid_layer v \/ (innerS = false /\ below_fluid vm i).
  (** slownesses of layer [i] for wave type [w] *)
  Definition ends_of (vm : vmodel T) (innerS w : bool) (i : nat) (v : vlayer T) (tp bp : T) : Prop :=
    (w = true /\ ends true v tp bp) \/
    (w = false /\ s_as_p vm innerS i v /\ ends true v tp bp) \/
    (w = false /\ ~ s_as_p vm innerS i v /\ ends false v tp bp).

  (** between [u] above and [v] below the slowness jumps, or its gradient changes sign *)
  Definition jump_or_turn (vm : vmodel T) (innerS w : bool) (i : nat) (u v : vlayer T) : Prop :=
    exists ut ub vt vb, ends_of vm innerS w i u ut ub /\ ends_of vm innerS w (S i) v vt vb /\
      (ub =? vt = false \/ (ut - ub) * (ub - vb) <? n_0 = true).

  (** the top of layer [S i] is critical *)
  Definition critical (vm : vmodel T) (innerS : bool) (i : nat) : Prop :=
    exists u v w, nth_error (vm_layers vm) i = Some u /\ nth_error (vm_layers vm) (S i) = Some v /\
      jump_or_turn vm innerS w i u v.

  (** The first layer is compared with a zero-thickness layer at the surface.  This can
      only be true for slownesses that are not numbers. *)
  Definition surface_quirk (vm : vmodel T) (innerS : bool) : Prop :=
    exists v w tp bp, nth_error (vm_layers vm) 0 = Some v /\ ends_of vm innerS w 0 v tp bp /\
      (tp =? tp = false \/ (tp - tp) * (tp - bp) <? n_0 = true).
  Definition critical_top (vm : vmodel T) (innerS : bool) (n : nat) : Prop :=
    match n with O => surface_quirk vm innerS | S i => critical vm innerS i end.

  (** [picks P n ls out]: [out] lists, in order, the elements of [ls] whose index
      (counted from [n]) satisfies [P] *)
  Inductive picks {A} (P : nat -> Prop) : nat -> list A -> list (nat * A) -> Prop :=
  | pk_nil : forall n, picks P n [] []
  | pk_yes : forall n a l out, P n -> picks P (S n) l out -> picks P n (a :: l) ((n, a) :: out)
  | pk_no : forall n a l out, ~ P n -> picks P (S n) l out -> picks P n (a :: l) out.
End Spec.

(** ** lying on the velocity model *)
Section Reals.
  Local Open Scope R_scope.

  (** velocity at depth [x] in a layer *)
  Definition wvel (w : bool) (v : vlayer R) (x : R) : R :=
    if w then line (vl_topDepth v) (vl_topP v) (vl_botDepth v) (vl_botP v) x
    else line (vl_topDepth v) (vl_topS v) (vl_botDepth v) (vl_botS v) x.
  (** the layer is inside velocity layer [v] and slowness*velocity = radius-depth at both ends *)
  Definition on_layer (r : R) (w : bool) (v : vlayer R) (y : slayer R) : Prop :=
    vl_topDepth v <= sl_topDepth y /\ sl_botDepth y <= vl_botDepth v /\
    sl_topP y * wvel w v (sl_topDepth y) = r - sl_topDepth y /\
    sl_botP y * wvel w v (sl_botDepth y) = r - sl_botDepth y.
  Definition on_model (vm : vmodel R) (w : bool) (y : slayer R) : Prop :=
    exists v, In v (vm_layers vm) /\ on_layer (vm_radius vm) w v y.
  (** S sampling follows P in fluids and, if S waves are switched off there, in the
      inner core *)
  Definition uses_P (vm : vmodel R) (innerS : bool) (v : vlayer R) : Prop :=
    vl_topS v = 0 \/ (innerS = false /\ vm_iocb vm <= vl_topDepth v).
  (** Thick P layers lie on the P velocities.  Thick S layers lie on the S velocities, are not
      objects of the P list and do not have to follow P, or they follow P. *)
  Definition good_P (vm : vmodel R) (y : slayer R) : Prop :=
    sl_topDepth y < sl_botDepth y -> on_model vm true y.
  Definition good_S (vm : vmodel R) (innerS : bool) (Pids : list Z) (y : slayer R) : Prop :=
    sl_topDepth y < sl_botDepth y ->
    (exists v, In v (vm_layers vm) /\ on_layer (vm_radius vm) false v y /\ ~ In (sl_id y) Pids /\ ~ uses_P vm innerS v) \/
    (exists v, In v (vm_layers vm) /\ on_layer (vm_radius vm) true v y /\ uses_P vm innerS v).
  Definition well_sampled (vm : vmodel R) (m : smodel R) : Prop :=
    sm_vMod m = vm /\ sm_radius m = vm_radius vm /\
    (forall y, In y (sm_P m) -> good_P vm y) /\
    (forall y, In y (sm_S m) -> good_S vm (sm_allowInnerCoreS m) (map sl_id (sm_P m)) y).
End Reals.

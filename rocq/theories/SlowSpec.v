(** Specification of slowness models, independent of the functions of the model
    (only the record types and Python's comparisons are used). *)
From Coq Require Import ZArith Bool List String Reals.
From Verif Require Import Base Num VelocityModel VelSpec SlownessLayer SlownessModel.
Import ListNotations.

Section Spec.
  Context {T : Type} {N : Num T}.
  Local Open Scope num_scope.

  (** neighbouring layers meet in depth *)
  Definition s_meet (ls : list (slayer T)) : Prop :=
    forall i a b, nth_error ls i = Some a -> nth_error ls (S i) = Some b ->
      sl_botDepth a =? sl_topDepth b = true.
  (** and have the same slowness there *)
  Definition s_join (ls : list (slayer T)) : Prop :=
    forall i a b, nth_error ls i = Some a -> nth_error ls (S i) = Some b ->
      sl_botP a =? sl_topP b = true.
  (** no layer is upside down; zero thickness is allowed *)
  Definition s_upright (ls : list (slayer T)) : Prop :=
    forall y, In y ls -> sl_topDepth y <=? sl_botDepth y = true.

  (** the layer contains the depth, ends included *)
  Definition holds (y : slayer T) (x : T) : Prop :=
    sl_topDepth y <=? x = true /\ x <=? sl_botDepth y = true.
  Definition shallowest (ls : list (slayer T)) (x : T) (i : nat) : Prop :=
    (exists y, nth_error ls i = Some y /\ holds y x) /\
    forall j z, nth_error ls j = Some z -> holds z x -> (i <= j)%nat.
  Definition deepest (ls : list (slayer T)) (x : T) (i : nat) : Prop :=
    (exists y, nth_error ls i = Some y /\ holds y x) /\
    forall j z, nth_error ls j = Some z -> holds z x -> (j <= i)%nat.

  (** depth zones: of positive thickness, in order, not touching *)
  Definition zones_good (zs : list (drange T)) : Prop :=
    (forall z, In z zs -> dr_top z <? dr_bot z = true) /\
    (forall i a b, nth_error zs i = Some a -> nth_error zs (S i) = Some b ->
       dr_bot a <? dr_top b = true) /\
    (forall z, nth_error zs 0 = Some z -> - n_lit 1 300 <? dr_top z = true).
  Definition zones_numbers (zs : list (drange T)) : Prop :=
    forall z, In z zs -> n_ok (dr_top z) /\ n_ok (dr_bot z).

  (** a complete stack of layers from the surface down, not deeper than the radius *)
  Definition stack_good (radius : T) (ls : list (slayer T)) : Prop :=
    (forall y, nth_error ls 0 = Some y -> n_0 =? sl_topDepth y = true) /\
    s_meet ls /\ s_join ls /\
    forall y, In y ls ->
      n_0 <=? sl_topP y = true /\ n_0 <=? sl_botP y = true /\
      sl_topDepth y <=? sl_botDepth y = true /\ sl_botDepth y <=? radius = true.

  (** ** objects *)

  (** Every layer object occurs at most once per list, identities are in use, and an
      object occurring in both lists is the same layer. *)
  Definition ids_ok (m : smodel T) : Prop :=
    NoDup (map sl_id (sm_P m)) /\ NoDup (map sl_id (sm_S m)) /\
    (forall y, In y (sm_P m) \/ In y (sm_S m) -> (sl_id y < sm_next m)%Z) /\
    (forall y z, In y (sm_P m) -> In z (sm_S m) -> sl_id y = sl_id z -> y = z).

  (** ** adding a sample *)

  (** the slowness [p] is strictly between those of top and bottom (a product test, which
      for doubles also excludes differences whose product underflows) *)
  Definition spans (y : slayer T) (p : T) : Prop :=
    n_0 <? (sl_topP y - p) * (p - sl_botP y) = true.
  (** [a] above [b] are [y] cut where the slowness is [p] *)
  Definition halves (p : T) (y a b : slayer T) : Prop :=
    sl_topP a = sl_topP y /\ sl_topDepth a = sl_topDepth y /\
    sl_botP a = p /\ sl_topP b = p /\ sl_botDepth a = sl_topDepth b /\
    sl_botP b = sl_botP y /\ sl_botDepth b = sl_botDepth y.
  (** put the pairs given by [f] in place of the layer objects for which it is defined *)
  Definition splice (f : Z -> option (slayer T * slayer T)) (l : list (slayer T))
    : list (slayer T) :=
    flat_map (fun y => match f (sl_id y) with Some (a, b) => [a; b] | None => [y] end) l.

  (** all attributes except the layers agree *)
  Definition same_setup (m m' : smodel T) : Prop :=
    sm_vMod m' = sm_vMod m /\ sm_minDeltaP m' = sm_minDeltaP m /\
    sm_maxDeltaP m' = sm_maxDeltaP m /\ sm_maxDepthInterval m' = sm_maxDepthInterval m /\
    sm_maxRangeInterval m' = sm_maxRangeInterval m /\ sm_maxInterpError m' = sm_maxInterpError m /\
    sm_allowInnerCoreS m' = sm_allowInnerCoreS m /\ sm_tolerance m' = sm_tolerance m /\
    sm_radius m' = sm_radius m /\ sm_crit m' = sm_crit m /\ sm_hiP m' = sm_hiP m /\
    sm_hiS m' = sm_hiS m /\ sm_fluid m' = sm_fluid m.

  (** depths that are a layer boundary *)
  Definition boundary (ls : list (slayer T)) (x : T) : Prop :=
    exists y, In y ls /\ (sl_topDepth y = x \/ sl_botDepth y = x).
End Spec.

(** ** which layers [addSlowness] may cut *)
Section Eligible.
  Context {T : Type} {N : Num T}.
  Local Open Scope num_scope.

  (** the S velocity just below the top (for a zero-thickness layer: just above the
      bottom) is zero *)
  Definition fluid_there (vm : vmodel T) (y : slayer T) : Prop :=
    exists v, v =? n_0 = true /\
      ((sl_topDepth y =? sl_botDepth y = false /\ evaluateBelow vm (sl_topDepth y) "S"%string = Ok v) \/
       (sl_topDepth y =? sl_botDepth y = true /\ evaluateAbove vm (sl_botDepth y) "S"%string = Ok v)).
  (** P layers always; S layers with an S velocity, if no layer down to this one reaches
      into the inner core (unless S waves are allowed there) *)
  Definition cuttable (m : smodel T) (isPWave : bool) (ls : list (slayer T)) (i : nat) (y : slayer T)
    : Prop :=
    isPWave = true \/
    (~ fluid_there (sm_vMod m) y /\
     (sm_allowInnerCoreS m = true \/
      forall j z, (j <= i)%nat -> nth_error ls j = Some z -> vm_iocb (sm_vMod m) <? sl_botDepth z = false)).
End Eligible.

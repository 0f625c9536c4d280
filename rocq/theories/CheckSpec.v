(** Specification for property C71: the limits the distance check enforces. *)
From Coq Require Import ZArith Bool List String Reals.
From Verif Require Import Base Num VelocityModel SlownessLayer SlownessModel.
Import ListNotations.
Local Open Scope R_scope.

(** [g 0 + ... + g (n - 1)] *)
Fixpoint total (g : nat -> R) (n : nat) : R :=
  match n with O => 0 | S n => total g n + g n end.

Section Spec.
  Context {L : Libm R}.

  (** the ray [p] needs time [t] for distance [x] down through the first [n] layers and up again *)
  Definition ray (m : smodel R) (w : bool) (p : R) (n : nat) (t x : R) : Prop :=
    (n <= List.length (sm_layers m w))%nat /\ 0 <= p /\
    exists f, (forall i, (i < n)%nat -> layerTimeDist m p (Z.of_nat i) w = Ok (f i)) /\
      t = 2 * total (fun i => td_time (f i)) n /\ x = 2 * total (fun i => td_dist (f i)) n.

  (** the ray [p] that turns inside the layer [y], below [n] layers *)
  Definition turning (m : smodel R) (w : bool) (p : R) (n : nat) (y : slayer R) (t x : R) : Prop :=
    exists t0 x0 z td, ray m w p n t0 x0 /\ bullenDepthFor y p (sm_radius m) = Ok z /\
      0 <= sl_topDepth y /\ 0 <= z /\
      bullenRadialSlowness (mkSL (-1) (sl_topP y) (sl_topDepth y) p z) p (sm_radius m) = Ok td /\
      t = t0 + 2 * td_time td /\ x = x0 + 2 * td_dist td.

  (** The rays of the two ends of layer [n] arrive close to each other, unless their ray parameters are
      close, and the time of the second is close to that on the line through the times of the first and
      of the ray between. *)
  Definition within (m : smodel R) (w : bool) (n : nat) (y : slayer R) : Prop :=
    exists ta xa tb xb tc xc,
      ray m w (sl_topP y) n ta xa /\ ray m w (sl_botP y) (S n) tb xb /\
      turning m w ((sl_topP y + sl_botP y) / 2) n y tc xc /\
      (Rabs (xa - xb) <= sm_maxRangeInterval m \/ Rabs (sl_topP y - sl_botP y) <= 2 * sm_minDeltaP m) /\
      (xc <> xa -> Rabs (tb - (ta + (tc - ta) * ((xb - xa) / (xc - xa)))) <= sm_maxInterpError m) /\
      (xc = xa -> xb = xa \/ tc = ta).

  (** the layer touches a high slowness zone: the check skips it *)
  Definition zoned (m : smodel R) (w : bool) (y : slayer R) : Prop :=
    depthInHighSlowness m (sl_botDepth y) (sl_botP y) w = true \/
    depthInHighSlowness m (sl_topDepth y) (sl_topP y) w = true.

  Definition settled (m : smodel R) (w : bool) : Prop :=
    forall n y, nth_error (sm_layers m w) n = Some y -> zoned m w y \/ within m w n y.
End Spec.

(** each layer starts with the slowness with which the one above ends *)
Definition joined (ls : list (slayer R)) : Prop :=
  forall n a b, nth_error ls n = Some a -> nth_error ls (S n) = Some b -> sl_botP a = sl_topP b.
(** the slowness changes in every layer *)
Definition sloped (ls : list (slayer R)) : Prop := forall y, In y ls -> sl_topP y <> sl_botP y.
(** S waves are allowed in the inner core and there is no fluid *)
Definition solid (m : smodel R) : Prop :=
  sm_allowInnerCoreS m = true /\
  forall x v, evaluateAbove (sm_vMod m) x "S"%string = Ok v \/ evaluateBelow (sm_vMod m) x "S"%string = Ok v -> v <> 0.

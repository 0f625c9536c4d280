(** Vocabulary for the shape of the slowness profile (properties C48 and C51). *)
From Coq Require Import ZArith Bool List String Reals.
From Verif Require Import Base Num VelocityModel VelSpec SlownessLayer SlownessModel SlowSpec CritSpec StackSpec TauModel TauSpec PathSpec.
Import ListNotations.
Local Open Scope R_scope.

(** ** the slowness profile *)

(** the layer is sampled with P velocities *)
Definition follows_P (vm : vmodel R) (innerS w : bool) (v : vlayer R) : Prop := w = true \/ uses_P vm innerS v.
(** slownesses at top and bottom of velocity layer [v] for wave type [w] *)
Definition profile (vm : vmodel R) (innerS w : bool) (v : vlayer R) (tp bp : R) : Prop :=
  (follows_P vm innerS w v /\ ends true v tp bp) \/ (~ follows_P vm innerS w v /\ ends false v tp bp).
(** in no layer the slowness is the same at top and bottom *)
Definition no_flat (vm : vmodel R) (innerS : bool) : Prop :=
  forall w v tp bp, In v (vm_layers vm) -> profile vm innerS w v tp bp -> tp <> bp.
(** if S waves are not allowed in the inner core, the layer directly above it is fluid *)
Definition fluid_above_inner_core (vm : vmodel R) (innerS : bool) : Prop :=
  innerS = true \/
  forall u v, on_top_of vm u v -> vl_topDepth u < vm_iocb vm <= vl_topDepth v -> vl_topS u = 0.

(** ** least slownesses *)

(** a slowness found above the bottom of velocity layer [i] (its own top included, its bottom not) *)
Definition above_bottom (vm : vmodel R) (innerS w : bool) (i : nat) (x : R) : Prop :=
  exists j v tp bp, nth_error (vm_layers vm) j = Some v /\ profile vm innerS w v tp bp /\
    (((j <= i)%nat /\ x = tp) \/ ((j < i)%nat /\ x = bp)).
Definition floor_of (P : R -> Prop) (M : R) : Prop := P M /\ forall x, P x -> M <= x.
(** the slowness [y] at depth [x] inside layer [v] *)
Definition slowness_at (vm : vmodel R) (innerS w : bool) (v : vlayer R) (x y : R) : Prop :=
  exists pv : bool, (pv = true <-> follows_P vm innerS w v) /\ y * wvel pv v x = 6371 - x.

(** high slowness zones of the model *)
Definition hi_zones (m : smodel R) (w : bool) : list (drange R) := if w then sm_hiP m else sm_hiS m.
(** the first layer has falling slowness, at most 1.1e300 *)
Definition falls_first (vm : vmodel R) (innerS w : bool) : Prop :=
  forall v tp bp, nth_error (vm_layers vm) 0 = Some v -> profile vm innerS w v tp bp -> bp < tp <= n_lit 11 299.

(** sampled slownesses above depth [x], down to its upper side *)
Definition down_to (ls : list (slayer R)) (x s : R) : Prop :=
  exists y, In y ls /\ sl_topDepth y < x /\ (s = sl_topP y \/ (sl_botDepth y <= x /\ s = sl_botP y)).
(** the same with both sides of depth [x] *)
Definition down_past (ls : list (slayer R)) (x s : R) : Prop :=
  exists y, In y ls /\ ((sl_topDepth y <= x /\ s = sl_topP y) \/ (sl_botDepth y <= x /\ s = sl_botP y)).

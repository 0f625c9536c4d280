(** Specification of the depth at which a ray turns or is totally reflected (property C50). *)
From Coq Require Import ZArith Bool List String Reals.
From Verif Require Import Base Num VelocityModel VelSpec SlownessLayer SlownessModel CritSpec.
Import ListNotations.
Local Open Scope R_scope.

(** depth [x] in layer [v] has slowness [q], for a planet of radius [r] *)
Definition slow_at (r : R) (w : bool) (v : vlayer R) (x q : R) : Prop :=
  wvel w v x <> 0 /\ q * wvel w v x = r - x.

(** the layer has a part between the depths [a] and [b] *)
Definition covers (a b : R) (v : vlayer R) : Prop := a < vl_botDepth v /\ vl_topDepth v < b.
(** layers begin or end at depth [x] *)
Definition layer_end (vm : vmodel R) (x : R) : Prop :=
  exists v, In v (vm_layers vm) /\ (x = vl_topDepth v \/ x = vl_botDepth v).

Section Turn.
  Variable m : smodel R.
  Variable w : bool.   (* true: P *)
  Variable p : R.
  Let r := sm_radius m.

  (** slowness [p] up to the tolerance at the top or the bottom *)
  Definition near_top (v : vlayer R) : Prop :=
    exists q, slow_at r w v (vl_topDepth v) q /\ Rabs (q - p) < sm_tolerance m.
  Definition near_bot (v : vlayer R) : Prop :=
    exists q, slow_at r w v (vl_botDepth v) q /\ Rabs (q - p) < sm_tolerance m.
  (** [p] lies between the slownesses at the top and the bottom *)
  Definition inside (v : vlayer R) : Prop :=
    exists q1 q2, slow_at r w v (vl_topDepth v) q1 /\ slow_at r w v (vl_botDepth v) q2 /\
      (q1 <= p <= q2 \/ q2 <= p <= q1).
  (** the slowness falls to or below [p] where layer [u] begins below [v]; an S wave above a fluid meets
      the P slowness *)
  Definition reflected (v u : vlayer R) : Prop :=
    exists q1 q2 w', slow_at r w v (vl_botDepth v) q1 /\ slow_at r w' u (vl_topDepth u) q2 /\ q2 <= p <= q1 /\
      (w = true -> w' = true) /\
      (w = false -> (w' = true <-> exists z, In z (sm_fluid m) /\ dr_top z <= vl_topDepth u < dr_bot z)).
  (** the ray turns in layer [v], number [i], or at its bottom *)
  Definition turns (i : Z) (v : vlayer R) : Prop :=
    near_top v \/ near_bot v \/ inside v \/
    exists u, nth_layer (vm_layers (sm_vMod m)) (i + 1) u /\ reflected v u.
  (** the depth at which it does *)
  Definition turns_at (v : vlayer R) (z : R) : Prop :=
    (near_top v -> z = vl_topDepth v) /\
    (~ near_top v -> near_bot v -> z = vl_botDepth v) /\
    (~ near_top v -> ~ near_bot v -> inside v -> vl_topDepth v <= z <= vl_botDepth v /\ slow_at r w v z p) /\
    (~ near_top v -> ~ near_bot v -> ~ inside v -> z = vl_botDepth v).
End Turn.

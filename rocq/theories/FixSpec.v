(** Specification for property C72: the samples the two checks of the sampling ask for. *)
From Coq Require Import ZArith Bool List String Reals.
From Verif Require Import Base Num VelocityModel SlownessLayer SlownessModel.
Import ListNotations.
Local Open Scope R_scope.

(** the slowness lies strictly inside the layer *)
Definition between (y : slayer R) (q : R) : Prop := sl_botP y < q < sl_topP y \/ sl_topP y < q < sl_botP y.
Definition untouched (m : smodel R) (q : R) : Prop := forall w y, In y (sm_layers m w) -> ~ between y q.
(** [n] is the least number of steps of length [s] that cover [x] *)
Definition parts (x s : R) (n : Z) : Prop := (IZR n - 1) * s < x <= IZR n * s.

(** the slownesses at which a layer is to be sampled because it spans too much slowness *)
Definition ray_asked (m : smodel R) (w : bool) (q : R) : Prop :=
  exists y n k, In y (sm_layers m w) /\ sm_maxDeltaP m < Rabs (sl_topP y - sl_botP y) /\
    parts (Rabs (sl_topP y - sl_botP y)) (sm_maxDeltaP m) n /\ (1 <= k < n)%Z /\
    q = sl_topP y + IZR k * ((sl_topP y - sl_botP y) / IZR n).
(** the depths at which a layer is to be sampled because it is too thick *)
Definition depth_asked (m : smodel R) (w : bool) (z : R) : Prop :=
  exists y n k, In y (sm_layers m w) /\ sm_maxDepthInterval m < sl_botDepth y - sl_topDepth y /\
    parts (sl_botDepth y - sl_topDepth y) (sm_maxDepthInterval m) n /\ (1 <= k < n)%Z /\
    z = sl_topDepth y + IZR k * ((sl_botDepth y - sl_topDepth y) / IZR n).

(** the velocity above a depth; that of P where there are no S waves *)
Definition velocity (m : smodel R) (w : bool) (z v : R) : Prop :=
  if w then evaluateAbove (sm_vMod m) z "P"%string = Ok v
  else exists u, evaluateAbove (sm_vMod m) z "S"%string = Ok u /\
    ((u <> 0 /\ (sm_allowInnerCoreS m = true \/ z < vm_iocb (sm_vMod m)) /\ v = u) \/
     ((u = 0 \/ (sm_allowInnerCoreS m = false /\ vm_iocb (sm_vMod m) <= z)) /\
      evaluateAbove (sm_vMod m) z "P"%string = Ok v)).
Definition sample (m : smodel R) (w : bool) (z q : R) : Prop :=
  exists v, velocity m w z v /\ v <> 0 /\ q = (sm_radius m - z) / v.

(** the velocity model covers all layers *)
Definition known (m : smodel R) : Prop := forall w y, In y (sm_layers m w) -> exists a b,
  evaluateAbove (sm_vMod m) (sl_botDepth y) (if w then "P" else "S")%string = Ok a /\
  evaluateBelow (sm_vMod m) (sl_topDepth y) (if w then "P" else "S")%string = Ok b.

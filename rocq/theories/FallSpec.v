(** Vocabulary for where sampled slownesses may rise with depth (property C67). *)
From Coq Require Import ZArith Bool List String Reals.
From Verif Require Import Base Num VelocityModel SlownessLayer SlownessModel.
Import ListNotations.
Local Open Scope R_scope.

(** depth [x] is in the zone, ends included *)
Definition in_zone (z : drange R) (x : R) : Prop := dr_top z <= x <= dr_bot z.
(** some depth from [lo] to [hi] is in one of the zones *)
Definition meets_zone (zs : list (drange R)) (lo hi : R) : Prop :=
  exists z, In z zs /\ dr_top z <= hi /\ lo <= dr_bot z.
(** The layer is part of a range of depths with an end in one of the zones.  The range is in one velocity layer; for a
    layer of zero thickness it is a single depth. *)
Definition by_zone (vm : vmodel R) (zs : list (drange R)) (y : slayer R) : Prop :=
  exists z lo hi, In z zs /\ lo <= sl_topDepth y /\ sl_botDepth y <= hi /\ (in_zone z lo \/ in_zone z hi) /\
    (sl_topDepth y = sl_botDepth y -> lo = hi) /\
    (lo < hi -> exists v, In v (vm_layers vm) /\ vl_topDepth v <= lo /\ hi <= vl_botDepth v).

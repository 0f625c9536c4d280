(** Vocabulary for sources at sampled depths (property C53). *)
From Coq Require Import ZArith Bool List String Reals.
From Verif Require Import Base Num VelocityModel VelSpec SlownessLayer SlownessModel SlowSpec TauModel TauSpec PathSpec MonoSpec LimitSpec.
Import ListNotations.
Local Open Scope R_scope.

(** two layers of positive thickness meet at depth [x] *)
Definition sampled_at (ls : list (slayer R)) (x : R) : Prop :=
  exists k y z, nth_error ls k = Some y /\ nth_error ls (S k) = Some z /\ fat y /\ fat z /\ sl_botDepth y = x /\ sl_topDepth z = x.
(** depth [x] lies in a high slowness zone, or nothing above it has a lower slowness *)
Definition zone_or_lowest (m : smodel R) (w : bool) (x : R) : Prop :=
  in_hi_zone m w x \/
  forall y s, In y (sm_layers m w) -> sl_topDepth y = x -> down_past (sm_layers m w) x s -> sl_topP y <= s.

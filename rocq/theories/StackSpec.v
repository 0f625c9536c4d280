(** Specification of the continuity of the coarsely sampled layer stacks. *)
From Coq Require Import ZArith Bool List String Reals.
From Verif Require Import Base Num VelocityModel VelSpec SlownessLayer SlownessModel SlowSpec CritSpec.
Import ListNotations.
Local Open Scope R_scope.

(** [u] is the layer directly above [v] *)
Definition on_top_of (vm : vmodel R) (u v : vlayer R) : Prop :=
  exists i, nth_error (vm_layers vm) i = Some u /\ nth_error (vm_layers vm) (S i) = Some v.

(** Without S waves in the inner core the S stack follows the P velocity from the inner
    core boundary down.  So the layer that ends there has to be fluid already, or has to
    have the same P and S velocity at its bottom.  (At depth 6371 every slowness is 0.) *)
Definition P_from_inner_core (vm : vmodel R) : Prop :=
  forall u v, on_top_of vm u v -> vl_topDepth u < vm_iocb vm <= vl_topDepth v ->
    vl_topS u = 0 \/ vl_botS u = vl_botP u \/ vl_botDepth u = 6371.

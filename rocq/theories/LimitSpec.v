(** Vocabulary for the ray parameter limits of branches (property C52). *)
From Coq Require Import ZArith Bool List String Reals.
From Verif Require Import Base Num VelocityModel VelSpec SlownessLayer SlownessModel SlowSpec CritSpec StackSpec TauModel TauSpec PathSpec MonoSpec.
Import ListNotations.

Section Spec.
  Context {T : Type} {N : Num T}.
  Local Open Scope num_scope.

  (** slownesses at the bottoms of the layers that end above depth [x] *)
  Definition ended (ls : list (slayer T)) (x s : T) : Prop :=
    exists y, In y ls /\ sl_botDepth y <? x = true /\ s = sl_botP y.
  (** slowness on the upper and on the lower side of boundary [x] *)
  Definition upper_side (ls : list (slayer T)) (x s : T) : Prop :=
    exists i y, shallowest ls x i /\ nth_error ls i = Some y /\ s = sl_botP y.
  Definition lower_side (ls : list (slayer T)) (x s : T) : Prop :=
    exists i y, deepest ls x i /\ nth_error ls i = Some y /\ s = sl_topP y.
  (** some layer ends at [x] *)
  Definition ends_at_depth (ls : list (slayer T)) (x : T) : Prop := exists y, In y ls /\ sl_botDepth y =? x = true.
  Definition least (P : T -> Prop) (r : T) : Prop := P r /\ forall s, P s -> r <=? s = true.
  (** [x] is in a high slowness zone, ends included *)
  Definition in_hi_zone (m : smodel T) (w : bool) (x : T) : Prop :=
    exists z, In z (if w then sm_hiP m else sm_hiS m) /\ dr_top z <=? x = true /\ x <=? dr_bot z = true /\
      (dr_rayParam z <? n_lit 1 300 = true \/ (n_lit 1 300 =? dr_rayParam z = true /\ x =? dr_top z = true)).
End Spec.

Local Open Scope R_scope.
(** a layer of positive thickness; a value between two others *)
Definition fat (y : slayer R) : Prop := sl_topDepth y < sl_botDepth y.
Definition btw (s a b : R) : Prop := a <= s <= b \/ b <= s <= a.
(** slownesses in a layer of zero thickness are between those of its neighbours *)
Definition squeezed (ls : list (slayer R)) : Prop :=
  forall y, In y ls -> sl_topDepth y = sl_botDepth y -> exists a b, In a ls /\ In b ls /\ fat a /\ fat b /\
    sl_botDepth a = sl_topDepth y /\ sl_topDepth b = sl_topDepth y /\
    btw (sl_topP y) (sl_botP a) (sl_topP b) /\ btw (sl_botP y) (sl_botP a) (sl_topP b).
(** a stack of layers from the surface down, without gaps or steps other than layers of zero thickness *)
Definition sampled_stack (ls : list (slayer R)) : Prop :=
  s_meet ls /\ s_upright ls /\ s_join ls /\ squeezed ls /\ exists f, nth_error ls 0 = Some f /\ sl_topDepth f = 0.

(** Vocabulary for sources inside layers (property C57). *)
From Coq Require Import ZArith Bool List String Reals.
From Verif Require Import Base Num SlownessLayer SlownessModel SlowSpec BullenSpec SplitSpec LimitSpec SourceSpec.
Import ListNotations.
Local Open Scope list_scope.
Local Open Scope R_scope.

(** the layers [l], one below the other and joined, lead from slowness [p] at depth [z] to slowness [p'] at depth [z'] *)
Inductive tiles : R -> R -> list (slayer R) -> R -> R -> Prop :=
| tl_one : forall y, tiles (sl_topP y) (sl_topDepth y) [y] (sl_botP y) (sl_botDepth y)
| tl_cons : forall y l p' z', tiles (sl_botP y) (sl_botDepth y) l p' z' -> tiles (sl_topP y) (sl_topDepth y) (y :: l) p' z'.
(** the layers [l] are the layer [y], or pieces of it of positive thickness that follow the same power law *)
Definition pieces (rad : R) (y : slayer R) (l : list (slayer R)) : Prop :=
  tiles (sl_topP y) (sl_topDepth y) l (sl_botP y) (sl_botDepth y) /\
  ((exists z, l = [z]) \/
   (sl_botDepth y < rad /\ forall z, In z l -> fat z /\ forall A B, power_law y rad A B -> power_law z rad A B)).
(** each layer is kept or cut in pieces *)
Inductive refines (rad : R) : list (slayer R) -> list (slayer R) -> Prop :=
| rf_nil : refines rad [] []
| rf_cons : forall y l ys l', pieces rad y ys -> refines rad l l' -> refines rad (y :: l) (ys ++ l').

(** depth [x] lies inside layer [y], at least 1 mm from its ends *)
Definition well_inside (y : slayer R) (x : R) : Prop :=
  sl_topDepth y + / 1000000 <= x /\ x + / 1000000 <= sl_botDepth y.
(** where layers meet, or well inside a layer that does not reach the centre *)
Definition source_place (m : smodel R) (w : bool) (x : R) : Prop :=
  sampled_at (sm_layers m w) x \/
  exists y, In y (sm_layers m w) /\ well_inside y x /\ sl_botDepth y < sm_radius m.
(** the slowness [p] at depth [x] inside a layer *)
Definition slowness_inside (m : smodel R) (w : bool) (x p : R) : Prop :=
  exists y, In y (sm_layers m w) /\ sl_topDepth y < x < sl_botDepth y /\ evaluateAtBullen y x (sm_radius m) = Ok p.
(** The slowness at the source occurs inside at most one layer of the other wave type; that layer has positive thickness and
    does not reach the centre, and if it contains the source it has this slowness there. *)
Definition single_cut (m : smodel R) (w : bool) (x : R) : Prop :=
  forall p, slowness_inside m w x p ->
    spans_once (sm_layers m (negb w)) p /\
    forall y, In y (sm_layers m (negb w)) -> spans y p ->
      fat y /\ sl_botDepth y < sm_radius m /\
      (sl_topDepth y < x < sl_botDepth y -> evaluateAtBullen y x (sm_radius m) = Ok p).

(** Vocabulary for the construction of a tau model from a slowness model (property C66). *)
From Coq Require Import ZArith Bool List String Reals.
From Verif Require Import Base Num VelocityModel SlownessLayer SlownessModel SlowSpec SlowBuildProofs TauProofs PathSpec LimitSpec CompatSpec.
Import ListNotations.
Local Open Scope list_scope.
Local Open Scope R_scope.

(** [q] is the least slowness sampled in the layers above layer [k] *)
Definition least_above (ls : list (slayer R)) (k : nat) (q : R) : Prop :=
  sampled_value (firstn k ls) q /\ forall s, sampled_value (firstn k ls) s -> q <= s.
(** the layer is not one of zero thickness at a critical depth *)
Definition within_branch (m : smodel R) (y : slayer R) : Prop :=
  sl_topDepth y < sl_botDepth y \/ forall c, In c (sm_crit m) -> cd_depth c <> sl_topDepth y.
(** inside some S layer the slowness, having risen, falls again below the least slowness sampled above,
    and this slowness is not sampled there *)
Definition unsampled_return (m : smodel R) : Prop :=
  exists k y q, nth_error (sm_S m) k = Some y /\ within_branch m y /\ least_above (sm_S m) k q /\
    sl_botP y < q < sl_topP y.
(** the depths of Moho, CMB and IOCB are numbers below 1e300, the start value of the search for the nearest branch *)
Definition near_depths (vm : vmodel R) : Prop :=
  Rabs (vm_moho vm) < n_lit 1 300 /\ Rabs (vm_cmb vm) < n_lit 1 300 /\ Rabs (vm_iocb vm) < n_lit 1 300.

(** ** slowness models as the constructor leaves them *)
(** the layer number stored for a critical depth *)
Definition num_of (w : bool) (c : critdepth R) : Z := if w then cd_pNum c else cd_sNum c.
(** The layers of one wave type go from the surface to the centre without gaps, the critical depths are
    boundaries of layers in order, the first of them the surface and the last the centre, and a layer of zero
    thickness has slownesses between those above and below it. *)
Record stacked (m : smodel R) (w : bool) : Prop := mkStacked {
  st_good : stack_good (sm_radius m) (sm_layers m w);
  st_inc : increasing (sm_crit m);
  st_at : forall c, In c (sm_crit m) -> crit_at m w (num_of w c) (cd_depth c);
  st_num : forall c, In c (sm_crit m) -> exists i y, deepest (sm_layers m w) (cd_depth c) i /\ nth_error (sm_layers m w) i = Some y /\
    (num_of w c = Z.of_nat i \/ sl_botDepth y = cd_depth c);
  st_sq : squeezed (sm_layers m w);
  st_ends : exists c0 l cn, sm_crit m = c0 :: l ++ [cn] /\ cd_depth c0 = 0 /\ cd_depth cn = sm_radius m;
  st_last : exists l y, sm_layers m w = l ++ [y] /\ sl_botDepth y = sm_radius m }.

(** between neighbouring critical depths the slowness only falls or only rises *)
Definition steady_between (m : smodel R) (w : bool) : Prop :=
  forall n c c' i j, nth_error (sm_crit m) n = Some c -> nth_error (sm_crit m) (S n) = Some c' ->
    deepest (sm_layers m w) (cd_depth c) i -> shallowest (sm_layers m w) (cd_depth c') j ->
    falls (sm_layers m w) i j \/ rises (sm_layers m w) i j.


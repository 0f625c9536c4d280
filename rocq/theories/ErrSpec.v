(** Independent vocabulary for the accuracy of interpolated arrivals (property C56): the exact ray with a given
    parameter, by the ray integrals, along the legs of a phase. *)
From Coq Require Import ZArith Bool List Reals.
From Verif Require Import Base Num SlownessLayer SlownessModel SlowSpec TauModel SeismicPhase TauSpec CurveSpec BullenSpec.
Import ListNotations.
Local Open Scope list_scope.
Local Open Scope R_scope.

(** the slowness (radius / velocity) [u] at radius [r] inside layer [y]: the power law through the values at its
    ends; around the centre, constant velocity *)
Definition slow_law (y : slayer R) (rad : R) (u : R -> R) : Prop :=
  (sl_botDepth y < rad /\ exists A B, power_law y rad A B /\ forall r, u r = A * Rpower r B) \/
  (sl_botDepth y = rad /\ forall r, u r = sl_topP y / (rad - sl_topDepth y) * r).

(** time and distance of the ray with parameter [p] between the radii [a] and [b] *)
Definition ray_part (u : R -> R) (p a b x tm : R) : Prop :=
  integral (dist_rate u p) a b x /\ integral (time_rate u p) a b tm.

Section Ray.
  Variables (m : smodel R) (w : bool) (j : nat) (p q : R).
  Let ls := sm_layers m w.
  Let rad := sm_radius m.

  (** The ray goes down from layer [k], at most through layer [j]; it turns at the radius where the slowness is its
      parameter.  [x], [tm]: its distance and time; [d]: the distance that the sampled ray [q] covers in the layer in
      which the ray turns (0 if it does not turn). *)
  Inductive ray_down : nat -> R -> R -> R -> Prop :=
  | rd_end : forall k, (j < k)%nat -> ray_down k 0 0 0
  | rd_flat : forall k y x tm d, (k <= j)%nat -> nth_error ls k = Some y -> p <= sl_topP y -> p <= sl_botP y ->
      sl_topDepth y = sl_botDepth y -> ray_down (S k) x tm d -> ray_down k x tm d
  | rd_cross : forall k y u x tm x' tm' d, (k <= j)%nat -> nth_error ls k = Some y -> p <= sl_topP y -> p <= sl_botP y ->
      sl_topDepth y < sl_botDepth y -> slow_law y rad u ->
      ray_part u p (rad - sl_botDepth y) (rad - sl_topDepth y) x tm ->
      ray_down (S k) x' tm' d -> ray_down k (x + x') (tm + tm') d
  | rd_turn : forall k y u z x tm td, (k <= j)%nat -> nth_error ls k = Some y -> sl_botP y < p <= sl_topP y ->
      sl_topDepth y < sl_botDepth y -> slow_law y rad u ->
      rad - sl_botDepth y <= z <= rad - sl_topDepth y -> u z = p -> ray_part u p z (rad - sl_topDepth y) x tm ->
      layerTimeDist m q (Z.of_nat k) w = Ok td -> ray_down k x tm (td_dist td)
  | rd_stop : forall k y, (k <= j)%nat -> nth_error ls k = Some y -> sl_botP y < p <= sl_topP y ->
      sl_topDepth y = sl_botDepth y -> ray_down k 0 0 0.
End Ray.

(** the ray on its way through one branch; upwards it takes the same time and distance *)
Definition exact_leg (m : smodel R) (b : tbranch R) (p q x tm d : R) : Prop :=
  p <= tb_maxRP b /\
  exists i j, deepest (sm_layers m (tb_isP b)) (tb_top b) i /\ shallowest (sm_layers m (tb_isP b)) (tb_bot b) j /\
    ray_down m (tb_isP b) j p q i x tm d.
(** and along all legs *)
Inductive exact_ray (t : tmodel R) (p q : R) : list seg -> R -> R -> R -> Prop :=
| er_nil : exact_ray t p q [] 0 0 0
| er_cons : forall s l b x tm d x' tm' d', leg_branch t s b -> exact_leg (tm_sMod t) b p q x tm d ->
    exact_ray t p q l x' tm' d' -> exact_ray t p q (s :: l) (x + x') (tm + tm') (d + d').

(** Every layer is flat, or reaches the centre, or is thick enough for the code to use it; its slowness changes
    with depth, and its velocities are equal or differ by the tolerance of the test for constant velocity. *)
Definition plain_layer (m : smodel R) (y : slayer R) : Prop :=
  let rt := sm_radius m - sl_topDepth y in
  let rb := sm_radius m - sl_botDepth y in
  thick y (sm_radius m) /\ slow_pos y /\ sl_topP y <> sl_botP y /\
  (Rabs (rt / sl_topP y - rb / sl_botP y) < sm_tolerance m ->
     rt / sl_topP y = rb / sl_botP y /\ sm_tolerance m <= rt * rt - rb * rb).
Definition centre_layer (m : smodel R) (y : slayer R) : Prop :=
  sl_topDepth y < sl_botDepth y /\ sl_botDepth y = sm_radius m /\ sl_botP y = 0 /\ 0 < sl_topP y.
Definition regular (m : smodel R) : Prop :=
  forall w y, In y (sm_layers m w) -> sl_topDepth y = sl_botDepth y \/ plain_layer m y \/ centre_layer m y.

(** no slowness of the model and no limit of a branch lies strictly between two ray parameters *)
Definition nothing_between (t : tmodel R) (p1 p0 : R) : Prop :=
  (forall w y, In y (sm_layers (tm_sMod t) w) -> ~ p1 < sl_topP y < p0 /\ ~ p1 < sl_botP y < p0) /\
  (forall b, In b (tm_P t) \/ In b (tm_S t) -> ~ p1 < tb_maxRP b < p0).

(** a ray that may enter a branch by its limit can enter the first layer of it *)
Definition limit_at_top (m : smodel R) (b : tbranch R) : Prop :=
  forall i y, deepest (sm_layers m (tb_isP b)) (tb_top b) i -> nth_error (sm_layers m (tb_isP b)) i = Some y -> tb_maxRP b <= sl_topP y.

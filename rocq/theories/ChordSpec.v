(** Vocabulary for waves of constant velocity (property C73): straight lines through a ball. *)
From Coq Require Import ZArith Bool List String Reals.
From Verif Require Import Base Num VelocityModel VelSpec SlownessLayer SlownessModel SlowSpec CritSpec MonoSpec TauModel TauSpec SeismicPhase CurveSpec.
Import ListNotations.
Local Open Scope list_scope.
Local Open Scope R_scope.

(** The straight line whose distance from the centre is [a] meets the sphere of radius [r] at this angle, seen from
    the centre, and at this distance from its point nearest to the centre; zero for smaller spheres. *)
Definition line_angle (a r : R) : R := if Rle_dec r a then 0 else acos (a / r).
Definition line_length (a r : R) : R := if Rle_dec r a then 0 else sqrt (r * r - a * a).

(** straight distance between two points of a sphere of radius [r] that are [x] apart seen from the centre *)
Definition straight (r x : R) : R := dist_euc r 0 (r * cos x) (r * sin x).

(** a velocity model in which waves of type [w] (or the P waves that take their place) have velocity [v] everywhere *)
Definition one_velocity (vm : vmodel R) (innerS w : bool) (v : R) : Prop :=
  0 < v /\ forall l x pv, In l (vm_layers vm) -> (pv = true <-> follows_P vm innerS w l) -> wvel pv l x = v.

(** the layers of a slowness model with this velocity *)
Definition uniform (m : smodel R) (w : bool) (v : R) : Prop :=
  0 < v /\ forall y, In y (sm_layers m w) ->
    sl_topP y = (sm_radius m - sl_topDepth y) / v /\ sl_botP y = (sm_radius m - sl_botDepth y) / v.
(** they are thick enough for the code, except those of zero thickness *)
Definition usable (m : smodel R) (w : bool) : Prop :=
  0 < sm_tolerance m /\ forall y, In y (sm_layers m w) ->
    let rt := sm_radius m - sl_topDepth y in
    let rb := sm_radius m - sl_botDepth y in
    0 <= rb /\ (rt = rb \/ rb = 0 \/ sm_tolerance m <= rt * rt - rb * rb).
(** branches end where layers do, and take the rays that reach their top *)
Definition proper (t : tmodel R) (w : bool) (v : R) : Prop :=
  forall b, In b (TauSpec.branches t w) ->
    tb_isP b = w /\ tb_maxRP b = (sm_radius (tm_sMod t) - tb_top b) / v /\
    (exists y, In y (sm_layers (tm_sMod t) w) /\ sl_topDepth y = tb_top b) /\
    (exists y, In y (sm_layers (tm_sMod t) w) /\ sl_botDepth y = tb_bot b).

(** down through the branches 0 ... n-1 and up again *)
Definition down_up (w : bool) (n : nat) (l : list seg) : Prop :=
  map sg_branch l = map Z.of_nat (seq 0 n ++ rev (seq 0 n)) /\ forall s, In s l -> sg_isP s = w.

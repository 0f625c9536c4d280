(** Independent vocabulary for ray paths (property C36). *)
From Coq Require Import ZArith Bool List String Reals.
From Verif Require Import Base Num PyStr VelocityModel SlownessLayer SlownessModel SlowSpec TauModel SeismicPhase TauSpec CurveSpec PierceSpec.
Import ListNotations.
Local Open Scope list_scope.

(** ** one leg: the way of a ray through the layers of one branch *)
Section Leg.
  Context {T : Type} {N : Num T} {L : Libm T}.
  Variables (m : smodel T) (w : bool) (p : T).
  Local Open Scope num_scope.

  Definition flat (y : slayer T) : Prop := sl_topDepth y =? sl_botDepth y = true.
  (** time and distance for crossing layer number [k] *)
  Definition passes (k : nat) (tm d : T) : Prop :=
    exists x, layerTimeDist m p (Z.of_nat k) w = Ok x /\ td_time x = tm /\ td_dist x = d.
  (** the ray turns in layer [y] at depth [z]; time and distance for the part of the layer above *)
  Definition turns (y : slayer T) (z tm d : T) : Prop :=
    bullenDepthFor y p (sm_radius m) = Ok z /\ n_0 <=? sl_topDepth y = true /\ n_0 <=? z = true /\
    exists x, bullenRadialSlowness (mkSL (-1) (sl_topP y) (sl_topDepth y) p z) p (sm_radius m) = Ok x /\
      td_time x = tm /\ td_dist x = d.

  (** downwards from layer [k] through layer [e] - 1: a point at the bottom of each layer; the ray ends at
      its turning point in the first layer with a smaller slowness at its bottom *)
  Inductive descent (e : nat) : nat -> list (timedist T) -> Prop :=
  | de_end : forall k, (e <= k)%nat -> descent e k []
  | de_flat : forall k y l, (k < e)%nat -> nth_error (sm_layers m w) k = Some y -> p <=? sl_botP y = true ->
      flat y -> descent e (S k) l -> descent e k l
  | de_pass : forall k y l tm d, (k < e)%nat -> nth_error (sm_layers m w) k = Some y -> p <=? sl_botP y = true ->
      ~ flat y -> passes k tm d -> descent e (S k) l -> descent e k (mkTD p tm d (sl_botDepth y) :: l)
  | de_turn : forall k y z tm d, (k < e)%nat -> nth_error (sm_layers m w) k = Some y -> p <=? sl_botP y = false ->
      ~ flat y -> turns y z tm d -> descent e k [mkTD p tm d z]
  | de_stop : forall k y, (k < e)%nat -> nth_error (sm_layers m w) k = Some y -> p <=? sl_botP y = false ->
      flat y -> descent e k [].

  (** upwards from layer [k] - 1 to layer [i]: a point at the top of each layer *)
  Inductive climb (i : nat) : nat -> list (timedist T) -> Prop :=
  | cl_end : climb i i []
  | cl_flat : forall k y l, (i <= k)%nat -> nth_error (sm_layers m w) k = Some y -> flat y ->
      climb i k l -> climb i (S k) l
  | cl_pass : forall k y l tm d, (i <= k)%nat -> nth_error (sm_layers m w) k = Some y -> ~ flat y -> passes k tm d ->
      climb i k l -> climb i (S k) (mkTD p tm d (sl_topDepth y) :: l).
  (** upwards in the layers [i] to [j]: layers with slowness at most [p] at the top are below the turning
      point; from the first other one upwards, where the ray turns or comes from below *)
  Definition ascent (i j : nat) (l : list (timedist T)) : Prop :=
    exists e y, (i <= e <= j)%nat /\ nth_error (sm_layers m w) e = Some y /\
      (forall k z, (e < k <= j)%nat -> nth_error (sm_layers m w) k = Some z -> sl_topP z <=? p = true \/ flat z) /\
      (e = i \/ sl_topP y <=? p = false /\ ~ flat y) /\
      ((sl_botP y <? p = false /\ climb i (S e) l) \/
       (sl_botP y <? p = true /\ exists z tm d l', turns y z tm d /\ climb i e l' /\ l = mkTD p tm d (sl_topDepth y) :: l')).

  (** the points of one leg through a branch that reaches from [top] to [bot]; none if the ray cannot
      enter it *)
  Definition leg_points (b : tbranch T) (down : bool) (l : list (timedist T)) : Prop :=
    (tb_maxRP b <? p = true /\ l = []) \/
    (tb_maxRP b <? p = false /\ n_0 <=? p = true /\
     exists i j y y', deepest (sm_layers m w) (tb_top b) i /\ shallowest (sm_layers m w) (tb_bot b) j /\
       nth_error (sm_layers m w) i = Some y /\ sl_topDepth y =? tb_top b = true /\
       nth_error (sm_layers m w) j = Some y' /\ sl_botDepth y' =? tb_bot b = true /\
       if down then descent (S j) i l else ascent i j l).
End Leg.

(** ** the whole path *)
Local Open Scope R_scope.

(** sum of [f] over a list *)
Definition total {A : Type} (f : A -> R) (l : list A) : R := fold_right (fun x s => f x + s) 0 l.

(** two successive legs in branch [k] *)
Definition both_in (k : Z) (s : seg) (next : option seg) : Prop :=
  sg_branch s = k /\ exists s', next = Some s' /\ sg_branch s' = k.
(** the piece along a boundary that is put between two legs: for diffracted waves between two legs just
    above the core, else for head waves between two legs just above the Moho *)
Definition boundary_piece (ph : phase R) (a : arrival R) (s : seg) (next : option seg) (l : list (timedist R)) : Prop :=
  let t := ph_tMod ph in
  let p := ar_rayParam a in
  let diff := both_in (tm_cmbBranch t - 1) s next /\ diffracted (ph_name ph) in
  let head := both_in (tm_mohoBranch t - 1) s next /\ head_wave (ph_name ph) in
  (diff /\ exists d0, at_index (ph_dist ph) 0 d0 /\
     l = [mkTD p ((ar_dist a - d0) * p) (ar_dist a - d0) (tm_cmbDepth t)]) \/
  (~ diff /\ head /\ exists d0 n, at_index (ph_dist ph) 0 d0 /\
     n = Z.max (Z.of_nat (str_count "Pn" (ph_name ph))) (Z.of_nat (str_count "Sn" (ph_name ph))) /\
     l = [mkTD p ((ar_dist a - d0) / IZR n * p) ((ar_dist a - d0) / IZR n) (tm_mohoDepth t)]) \/
  (~ diff /\ ~ head /\ l = []).

(** the pieces of the path, leg by leg *)
Inductive way (ph : phase R) (a : arrival R) : list seg -> list (timedist R) -> Prop :=
| way_nil : way ph a [] []
| way_cons : forall s l b own extra rest,
    leg_branch (ph_tMod ph) s b ->
    leg_points (tm_sMod (ph_tMod ph)) (tb_isP b) (ar_rayParam a) b (sg_down s) own ->
    boundary_piece ph a s (hd_error l) extra ->
    way ph a l rest -> way ph a (s :: l) (own ++ extra ++ rest).

(** the points of [path] are the running sums of the pieces *)
Definition running (p : R) (pieces path : list (timedist R)) : Prop :=
  List.length path = List.length pieces /\
  forall n x, nth_error path n = Some x -> exists y, nth_error pieces n = Some y /\
    x = mkTD p (total td_time (firstn (S n) pieces)) (total td_dist (firstn (S n) pieces)) (td_depth y).

(** all layers meet, none is upside down, and the branches have a positive thickness *)
Definition path_ready (t : tmodel R) : Prop :=
  (forall w, s_meet (sm_layers (tm_sMod t) w) /\ s_upright (sm_layers (tm_sMod t) w)) /\
  b_upright (tm_P t) /\ b_upright (tm_S t).

(** In the layers [i] to [j] the slowness falls (rises) with depth, strictly so in layers of positive
    thickness. *)
Definition falls (ls : list (slayer R)) (i j : nat) : Prop :=
  forall k y, (i <= k <= j)%nat -> nth_error ls k = Some y ->
    sl_botP y <= sl_topP y /\ (sl_botP y = sl_topP y -> sl_topDepth y = sl_botDepth y) /\
    forall z, (k < j)%nat -> nth_error ls (S k) = Some z -> sl_topP z <= sl_botP y.
Definition rises (ls : list (slayer R)) (i j : nat) : Prop :=
  forall k y, (i <= k <= j)%nat -> nth_error ls k = Some y ->
    sl_topP y <= sl_botP y /\ (sl_botP y = sl_topP y -> sl_topDepth y = sl_botDepth y) /\
    forall z, (k < j)%nat -> nth_error ls (S k) = Some z -> sl_botP y <= sl_topP z.
(** the same for the layers of a branch *)
Definition steady (m : smodel R) (b : tbranch R) : Prop :=
  forall i j, deepest (sm_layers m (tb_isP b)) (tb_top b) i -> shallowest (sm_layers m (tb_isP b)) (tb_bot b) j ->
    falls (sm_layers m (tb_isP b)) i j \/ rises (sm_layers m (tb_isP b)) i j.

(** a stretch of a ray: time, distance, upper and lower end *)
Definition stretch : Type := (R * R * R * R)%type.
(** stretches that lie one below the other, from [z] to [z'] *)
Inductive chain : R -> list stretch -> R -> Prop :=
| ch_nil : forall z, chain z [] z
| ch_cons : forall z z1 z' tm d c, z <= z1 -> chain z1 c z' -> chain z ((tm, d, z, z1) :: c) z'.
Definition at_bottom (p : R) (s : stretch) : timedist R := let '(tm, d, _, z) := s in mkTD p tm d z.
Definition at_top (p : R) (s : stretch) : timedist R := let '(tm, d, z, _) := s in mkTD p tm d z.

(** for the layers of a branch everything is as the sampled curves take it *)
Definition rays_ready (t : tmodel R) : Prop :=
  path_ready t /\
  forall b, In b (tm_P t) \/ In b (tm_S t) -> steady (tm_sMod t) b /\ all_rays (tm_sMod t) (tb_isP b) (tm_rayParams t) b.
(** how often two successive legs both lie in branch [k] *)
Fixpoint pairs (k : Z) (l : list Z) : nat :=
  match l with
  | x :: ((y :: _) as r) => ((if (x =? k)%Z && (y =? k)%Z then 1 else 0) + pairs k r)%nat
  | _ => 0%nat
  end.
(** the last point of a path *)
Definition final (l : list (timedist R)) (x : timedist R) : Prop := exists l0, l = l0 ++ [x].
(** depths that never decrease, never increase *)
Definition downwards (l : list (timedist R)) : Prop :=
  forall m n x y, (m < n)%nat -> nth_error l m = Some x -> nth_error l n = Some y -> td_depth x <= td_depth y.
Definition upwards (l : list (timedist R)) : Prop :=
  forall m n x y, (m < n)%nat -> nth_error l m = Some x -> nth_error l n = Some y -> td_depth y <= td_depth x.

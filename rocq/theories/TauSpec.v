(** Specification of tau models: ray parameter samples, branches, their lookup and the
    depth correction; independent of the functions of the model. *)
From Coq Require Import ZArith Bool List String Sorted.
From Verif Require Import Base Num VelocityModel SlownessLayer SlownessModel SlowSpec TauModel.
Import ListNotations.

Section Spec.
  Context {T : Type} {N : Num T}.
  Local Open Scope num_scope.

  (** ** ray parameter samples *)

  (** the sampled slownesses from the surface down *)
  Definition slownesses (ls : list (slayer T)) : list T :=
    flat_map (fun y => [sl_topP y; sl_botP y]) ls.
  (** entry [i] is smaller than everything before it *)
  Definition record_at (vs : list T) (i : nat) : Prop :=
    exists v, nth_error vs i = Some v /\
      forall j u, (j < i)%nat -> nth_error vs j = Some u -> v <? u = true.
  (** [out] lists the entries of [vs] that are records, in order *)
  Definition records (vs out : list T) : Prop :=
    exists idx, StronglySorted lt idx /\ (forall i, In i idx <-> record_at vs i) /\
      map (nth_error vs) idx = map Some out.
  Definition decreasing (l : list T) : Prop := StronglySorted (fun a b => b <? a = true) l.

  (** ** branches *)

  (** branch number [i] of [bs] has a next one, its neighbour in depth *)
  Definition tiles (crit : list (critdepth T)) (bs : list (tbranch T)) : Prop :=
    S (List.length bs) = List.length crit /\
    forall i b c c', nth_error bs i = Some b -> nth_error crit i = Some c ->
      nth_error crit (S i) = Some c' -> tb_top b = cd_depth c /\ tb_bot b = cd_depth c'.
  Definition b_meet (bs : list (tbranch T)) : Prop :=
    forall i a b, nth_error bs i = Some a -> nth_error bs (S i) = Some b -> tb_bot a = tb_top b.

  (** the ray with parameter [p] crosses a layer from top to bottom *)
  Definition crosses (p : T) (y : slayer T) : Prop :=
    p <=? sl_topP y = true /\ p <=? sl_botP y = true.
  (** The ray goes down from layer [i], stopping after layer [j]: it crosses [n] layers,
      in which it collects the increments [incs], and stops because layer [j] is reached or
      because it does not cross the next one. *)
  Definition descends (m : smodel T) {L : Libm T} (w : bool) (p : T) (i j : nat)
             (incs : list (timedist T)) : Prop :=
    let n := List.length incs in
    (i + n <= S j)%nat /\
    (forall k y, (k < n)%nat -> nth_error (sm_layers m w) (i + k) = Some y -> crosses p y) /\
    (forall k x, nth_error incs k = Some x -> layerTimeDist m p (Z.of_nat (i + k)) w = Ok x) /\
    ((i + n)%nat = S j \/
     exists y, nth_error (sm_layers m w) (i + n) = Some y /\ ~ crosses p y /\ ~ spans y p).
  Definition sum_dist (incs : list (timedist T)) : T := fold_left (fun s x => s + td_dist x) incs n_0.
  Definition sum_time (incs : list (timedist T)) : T := fold_left (fun s x => s + td_time x) incs n_0.

  (** what a branch stores for the ray with parameter [p] *)
  Definition ray_values (m : smodel T) {L : Libm T} (w : bool) (b : tbranch T) (p dist time tau : T) : Prop :=
    tau = time - p * dist /\
    ((p <=? tb_maxRP b = false /\ dist = n_0 /\ time = n_0) \/
     (p <=? tb_maxRP b = true /\ exists i j incs,
        deepest (sm_layers m w) (tb_top b) i /\ shallowest (sm_layers m w) (tb_bot b) j /\
        (descends m w p i j incs \/ (S j <= i)%nat /\ incs = []) /\
        dist = sum_dist incs /\ time = sum_time incs)).
  Definition all_rays (m : smodel T) {L : Libm T} (w : bool) (rp : list T) (b : tbranch T) : Prop :=
    List.length (tb_dist b) = List.length rp /\ List.length (tb_time b) = List.length rp /\
    List.length (tb_tau b) = List.length rp /\
    forall k p d t u, nth_error rp k = Some p -> nth_error (tb_dist b) k = Some d ->
      nth_error (tb_time b) k = Some t -> nth_error (tb_tau b) k = Some u ->
      ray_values m w b p d t u.

  (** the least of a list of numbers *)
  Definition least (v : T) (l : list T) : Prop :=
    In v l /\ forall u, In u l -> v <=? u = true.

  (** ** nearest branch *)
  (** [i] is the branch whose top is nearest to [x]; of several, the [first] or the last *)
  Definition nearest_top (first : bool) (bs : list (tbranch T)) (x : T) (i : nat) : Prop :=
    exists b, nth_error bs i = Some b /\
      forall j c, nth_error bs j = Some c ->
        n_abs (tb_top b - x) <=? n_abs (tb_top c - x) = true /\
        ((if first then j < i else i < j)%nat -> n_abs (tb_top b - x) <? n_abs (tb_top c - x) = true).

  (** ** lookup *)
  Definition in_branch (b : tbranch T) (x : T) : Prop := tb_top b <=? x = true /\ x <? tb_bot b = true.
End Spec.

(** ** depth correction *)
Section Correct.
  Context {T : Type} {N : Num T}.
  Local Open Scope num_scope.

  Definition b_upright (bs : list (tbranch T)) : Prop := forall b, In b bs -> tb_top b <? tb_bot b = true.
  Definition last_branch (bs : list (tbranch T)) (b : tbranch T) : Prop := exists l, bs = l ++ [b].
  (** [d] is the top or the bottom of a branch *)
  Definition at_edge (bs : list (tbranch T)) (d : T) : Prop :=
    exists b, In b bs /\ (tb_top b =? d = true \/ tb_bot b =? d = true).
  (** no layer boundary is nearer than 1 mm to [x], except at [x] itself *)
  Definition apart (m : smodel T) (x : T) : Prop :=
    forall w y e, In y (sm_layers m w) -> e = sl_topDepth y \/ e = sl_botDepth y ->
      e =? x = true \/
      (n_abs (e - x) <? n_lit 1 (-6) = false /\ n_abs (x - e) <? n_lit 1 (-6) = false).
  Definition branches (t : tmodel T) (w : bool) : list (tbranch T) := if w then tm_P t else tm_S t.
  (** branch number [n] starts at depth [x] *)
  Definition starts_at (t : tmodel T) (n : Z) (x : T) : Prop :=
    (0 <= n)%Z /\ exists b, nth_error (tm_P t) (Z.to_nat n) = Some b /\ tb_top b = x.
  (** [c] is the rest of [b] below depth [d] when [a] is the part above; [c] stores for every
      ray the difference of what [b] and [a] store *)
  Definition rest_of (f : tbranch T -> list T) (a b c : tbranch T) : Prop :=
    List.length (f a) = List.length (f b) ->
    List.length (f c) = List.length (f b) /\
    forall k x y z, nth_error (f a) k = Some x -> nth_error (f b) k = Some y -> nth_error (f c) k = Some z -> z = y - x.
  Definition cut_branch (d : T) (b a c : tbranch T) : Prop :=
    tb_isP a = tb_isP b /\ tb_isP c = tb_isP b /\
    tb_top a = tb_top b /\ tb_bot a = d /\ tb_top c = d /\ tb_bot c = tb_bot b /\
    tb_maxRP a = tb_maxRP b /\ tb_maxRP c = tb_minRP a /\ tb_minRP c = tb_minRP b /\ tb_minTurnRP c = tb_minTurnRP b /\
    rest_of tb_dist a b c /\ rest_of tb_time a b c /\ rest_of tb_tau a b c.
  (** [l'] is [l] with branch [n] cut in two at [d]; the upper part satisfies [Q] *)
  Definition cut_at (Q : tbranch T -> Prop) (d : T) (n : nat) (l l' : list (tbranch T)) : Prop :=
    exists l1 b l2 a c, l = l1 ++ b :: l2 /\ List.length l1 = n /\ l' = l1 ++ a :: c :: l2 /\
      cut_branch d b a c /\ Q a.
  (** The branch stores one distance, time and tau per ray parameter, and they are those of
      the layers of [m] if these leave no gap. *)
  Definition new_branch (m : smodel T) {L : Libm T} (w : bool) (rp : list T) (b : tbranch T) : Prop :=
    List.length (tb_dist b) = List.length rp /\ List.length (tb_time b) = List.length rp /\
    List.length (tb_tau b) = List.length rp /\
    (s_meet (sm_layers m w) -> s_upright (sm_layers m w) -> all_rays m w rp b).
  (** what a correction never changes *)
  Definition same_depths (t r : tmodel T) : Prop :=
    tm_mohoDepth r = tm_mohoDepth t /\ tm_cmbDepth r = tm_cmbDepth t /\ tm_iocbDepth r = tm_iocbDepth t /\
    tm_radius r = tm_radius t /\ tm_rayParams r = tm_rayParams t.
End Correct.

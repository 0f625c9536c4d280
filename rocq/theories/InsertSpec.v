(** Specification of adding a slowness sample to a tau branch and of the subtraction of
    branches with new samples; independent of the functions of the model. *)
From Coq Require Import ZArith Bool List.
From Verif Require Import Base Num VelocityModel SlownessLayer SlownessModel SlowSpec TauModel TauSpec.
Import ListNotations.

Section Spec.
  Context {T : Type} {N : Num T}.
  Local Open Scope num_scope.

  (** [l'] is [l] with [x] put in before entry [i] *)
  Definition put_in (i : nat) (x : T) (l l' : list T) : Prop :=
    exists a c, l = (a ++ c)%list /\ List.length a = i /\ l' = (a ++ x :: c)%list.

  (** The increments [incs] of the layers from the surface down, ending after layer [j] or
      above the first layer whose lower slowness is less than [p]. *)
  Definition from_surface (m : smodel T) {L : Libm T} (w : bool) (p : T) (j : nat) (incs : list (timedist T)) : Prop :=
    let n := List.length incs in
    (n <= S j)%nat /\
    (forall k x, nth_error incs k = Some x ->
       layerTimeDist m p (Z.of_nat k) w = Ok x /\
       exists y, nth_error (sm_layers m w) k = Some y /\ sl_botP y <? p = false) /\
    (n = S j \/ exists y, nth_error (sm_layers m w) n = Some y /\ sl_botP y <? p = true).

  (** the new sample of a branch between layers [i] (with [y]) and [j] *)
  Definition inserted (m : smodel T) {L : Libm T} (w : bool) (p : T) (y : slayer T) (j : nat) (dist time tau : T) : Prop :=
    exists incs, dist = sum_dist incs /\ time = sum_time incs /\ tau = time - p * dist /\
      ((p <=? sl_botP y = true /\ p <=? sl_topP y = true) /\ from_surface m w p j incs \/
       ~ (p <=? sl_botP y = true /\ p <=? sl_topP y = true) /\ incs = []).

  (** The difference [r] of [own] and [top] when [top] has a new entry [s] and another new
      entry [p + 1], where the difference is given. *)
  Definition less_two (own top : list T) (s p : nat) (vS vP : T) (r : list T) : Prop :=
    List.length r = S (S (List.length own)) /\
    nth_error r s = Some vS /\ nth_error r (S p) = Some vP /\
    forall i a, nth_error own i = Some a ->
      let j := if (i <? s)%nat then i else if (i <? p)%nat then S i else S (S i) in
      exists b, nth_error top j = Some b /\ nth_error r j = Some (a - b).

  (** what a ray collects between the depths [top] and [bot] *)
  Definition collects (m : smodel T) {L : Libm T} (w : bool) (top bot mx p dist time tau : T) : Prop :=
    tau = time - p * dist /\
    ((p <=? mx = false /\ dist = n_0 /\ time = n_0) \/
     (p <=? mx = true /\ exists i j y z incs,
        nth_error (sm_layers m w) i = Some y /\ sl_topDepth y =? top = true /\
        nth_error (sm_layers m w) j = Some z /\ sl_botDepth z =? bot = true /\
        (descends m w p i j incs \/ (S j <= i)%nat /\ incs = []) /\
        dist = sum_dist incs /\ time = sum_time incs)).

  (** slowness at the top of the deepest layer of a wave type that touches a depth *)
  Definition slowness_below (m : smodel T) (w : bool) (x p : T) : Prop :=
    exists i y, deepest (sm_layers m w) x i /\ nth_error (sm_layers m w) i = Some y /\ sl_topP y =? p = true.
  (** [c] is the part of [b] below [top] *)
  Definition lower_part (b top c : tbranch T) : Prop :=
    tb_top c = tb_bot top /\ tb_bot c = tb_bot b /\ tb_isP c = tb_isP b /\ tb_isP top = tb_isP b /\
    tb_maxRP c = tb_minRP top /\ tb_minTurnRP c = tb_minTurnRP b /\ tb_minRP c = tb_minRP b.
  (** the difference of [own] and [top] when [top] has a new entry [p], for which there is no
      entry in the difference *)
  Definition less_skipped (own top : list T) (p : nat) (r : list T) : Prop :=
    List.length r = List.length own /\
    forall i a, nth_error own i = Some a ->
      exists b, nth_error top (if (i <? p)%nat then i else S i) = Some b /\ nth_error r i = Some (a - b).
  (** the difference of the first [p] entries, and a value after them *)
  Definition less_cut (own top : list T) (p : nat) (v : T) (r : list T) : Prop :=
    List.length r = S p /\ nth_error r p = Some v /\
    forall i a b, (i < p)%nat -> nth_error own i = Some a -> nth_error top i = Some b -> nth_error r i = Some (a - b).
  (** the difference entry by entry, as long as both have entries *)
  Definition less_plain (own top : list T) (r : list T) : Prop :=
    List.length r = Nat.min (List.length own) (List.length top) /\
    forall i a b, nth_error own i = Some a -> nth_error top i = Some b -> nth_error r i = Some (a - b).
End Spec.

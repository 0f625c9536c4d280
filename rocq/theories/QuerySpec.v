(** Specification of the influence of earlier queries on later ones, and of the resolution of
    discontinuities given by name or by depth. *)
From Coq Require Import ZArith Bool List String.
From Verif Require Import Base Num VelocityModel SlownessLayer SlownessModel SlowSpec TauModel TauSpec
  Legs SeismicPhase TauPTime.
Import ListNotations.

Section Spec.
  Context {T : Type} {N : Num T}.
  Local Open Scope num_scope.

  (** none of the depths [w] is the top of a branch *)
  Definition no_tops (w : list T) (t : tmodel T) : Prop :=
    forall x b, In x w -> In b (tm_P t) -> x =? tb_top b = false.
  (** every branch of the corrected model [r] starts at the source depth or where a branch of
      the loaded model does *)
  Definition in_place (t r : tmodel T) (x : T) : Prop :=
    forall b, In b (tm_P r) -> tb_top b = x \/ exists b0, In b0 (tm_P t) /\ tb_top b = tb_top b0.
  (** [x] is a source depth for which the loaded model is left alone: no layer boundary is
      near it but not at it, and cutting puts the new branches where they belong *)
  Definition calm {L : Libm T} (fuel : nat) (t : tmodel T) (x : T) : Prop :=
    n_ok x /\ apart (tm_sMod t) x /\
    forall w t' r, tm_depthCorrect fuel [] t x = Ok (w, t', r) -> in_place t r x.
  (** layers leave no gaps *)
  Definition gap_free (t : tmodel T) : Prop :=
    forall v, s_meet (sm_layers (tm_sMod t) v) /\ s_upright (sm_layers (tm_sMod t) v).
  (** the loaded model is for a source at the surface *)
  Definition at_surface (t : tmodel T) : Prop :=
    tm_sourceDepth t = n_0 /\ tm_sourceBranch t = 0%Z /\ n_0 >? tm_radius t = false /\
    exists b, nth_error (tm_P t) 0 = Some b /\ tb_top b = n_0 /\ tb_top b <? tb_bot b = true.

  (** of the branches whose top is not one of the depths [w], branch [i] is the first of those
      whose top is nearest to [x] *)
  Definition listed (w : list T) (b : tbranch T) : Prop := exists x, In x w /\ x =? tb_top b = true.
  Definition nearest_discon (w : list T) (bs : list (tbranch T)) (x : T) (i : nat) : Prop :=
    exists b, nth_error bs i = Some b /\ ~ listed w b /\
      forall j c, nth_error bs j = Some c -> ~ listed w c ->
        n_abs (x - tb_top b) <=? n_abs (x - tb_top c) = true /\
        ((j < i)%nat -> n_abs (x - tb_top b) <? n_abs (x - tb_top c) = true).
End Spec.

(** what a query returns, without the shared list of depths *)
Definition answer {A B C : Type} (r : result (A * B * C)) : result (B * C) :=
  match r with Ok (_, b, c) => Ok (b, c) | Raise e => Raise e | Diverge => Diverge end.

Section Histories.
  Context {T : Type} {N : Num T} {L : Libm T}.
  Variable show : T -> string.
  Local Open Scope num_scope.

  (** What can have happened to the shared list and to the loaded model [t] since the start of
      the program: successful queries on it, and source depths of queries on other models
      (which are not boundaries of this one). *)
  Inductive history (t : tmodel T) : list T -> tmodel T -> Prop :=
  | at_start : history t [] t
  | after_query : forall w s fuel order depth degrees names coords w' s' arrs, history t w s ->
      calm fuel t depth -> set_order_ok order ->
      get_travel_times show fuel order w s depth degrees names coords = Ok (w', s', arrs) -> history t w' s'
  | after_other : forall w s x, history t w s -> no_tops [x] t -> history t (w ++ [x]) s.

  (** The same for one TauP_Time object made for [t], all of whose source depths are in [Q]. *)
  Inductive runs (t : tmodel T) (fuel : nat) (Q : T -> Prop) : list T -> ttime T -> Prop :=
  | made : forall w depth, no_tops w t -> runs t fuel Q w (tt_new t depth)
  | again : forall w s order names depth degrees coords w' s', runs t fuel Q w s ->
      Q depth -> calm fuel t depth -> set_order_ok order -> names <> [] ->
      tt_rerun show fuel order w s names depth degrees coords = Ok (w', s') -> runs t fuel Q w' s'
  | other : forall w s x, runs t fuel Q w s -> no_tops [x] t -> runs t fuel Q (w ++ [x]) s.
End Histories.

(** the identity of the model object inside a phase is not observable *)
Definition unstamped {T} (p : phase T) : phase T :=
  mkPhase (ph_name p) (ph_purist p) (ph_legs p) (ph_min p) (ph_max p) (ph_minIdx p) (ph_maxIdx p)
    (ph_sourceDepth p) (ph_tMod p) 0 (ph_dist p) (ph_time p) (ph_rayParams p) (ph_minDist p) (ph_maxDist p) (ph_seq p).
(** what a run leaves in the object *)
Definition outcome {T} (r : result (list T * ttime T))
  : result (tmodel T * tmodel T * list string * list (phase T) * T * list (arrival T)) :=
  match r with
  | Ok (_, s) => Ok (tt_tMod s, tt_tModDepth s, tt_names s, map unstamped (tt_phases s), tt_depth s, tt_arrivals s)
  | Raise e => Raise e | Diverge => Diverge end.

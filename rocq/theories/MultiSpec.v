(** Independent vocabulary for property C81: a phase that goes the way of another one several times. *)
From Coq Require Import List ZArith Reals.
From Verif Require Import Base SeismicPhase JoinSpec.
Import ListNotations.

(** the legs [l] are those of [l'], [n] times, in any order and direction *)
Definition times_over (n : nat) (l l' : list seg) : Prop := same_media l (concat (repeat l' n)).

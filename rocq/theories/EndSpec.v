(** Vocabulary for computations that end (property C68). *)
From Coq Require Import Arith List.
From Verif Require Import Base.

(** the outcome does not depend on the number of steps allowed, once it is not "too few steps" *)
Definition settled {A} (f : nat -> result A) : Prop :=
  forall n k, (n <= k)%nat -> f n <> Diverge -> f k = f n.
(** enough steps exist, and more change nothing *)
Definition ends {A} (f : nat -> result A) : Prop :=
  exists n r, r <> Diverge /\ forall k, (n <= k)%nat -> f k = r.

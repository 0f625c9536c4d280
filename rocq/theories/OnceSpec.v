(** Vocabulary for curves without triplications (property C76). *)
From Coq Require Import ZArith List Reals.
Import ListNotations.
Local Open Scope R_scope.

(** from each sample to every later one the distance grows (or shrinks) *)
Definition grows (l : list R) : Prop := forall i j x y, (i < j)%nat -> nth_error l i = Some x -> nth_error l j = Some y -> x < y.
Definition shrinks (l : list R) : Prop := forall i j x y, (i < j)%nat -> nth_error l i = Some x -> nth_error l j = Some y -> y < x.
(** [x] lies between the least and the greatest of the numbers *)
Definition spanned (l : list R) (x : R) : Prop := exists d d', In d l /\ In d' l /\ d <= x <= d'.

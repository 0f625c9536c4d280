(** Vocabulary for reflected waves of constant velocity (property C74). *)
From Coq Require Import Reals.
Local Open Scope R_scope.

(** straight distance between a point of the sphere of radius [r] and one of the sphere of radius [q] that are [x] apart seen from the centre *)
Definition between (r q x : R) : R := dist_euc r 0 (q * cos x) (q * sin x).

(** Independent vocabulary for property C78: rays only go forward. *)
From Coq Require Import List Reals.
From Verif Require Import Base Num TauModel.
Local Open Scope R_scope.

(** every branch stores one distance and one time for each ray parameter, none of them negative *)
Definition forth (t : tmodel R) : Prop :=
  forall b, In b (tm_P t) \/ In b (tm_S t) ->
    List.length (tb_dist b) = List.length (tm_rayParams t) /\ List.length (tb_time b) = List.length (tm_rayParams t) /\
    (forall x, In x (tb_dist b) -> 0 <= x) /\ (forall x, In x (tb_time b) -> 0 <= x).

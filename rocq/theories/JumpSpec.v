(** Specification for property C70: the depths at which velocities jump. *)
From Coq Require Import ZArith Bool List String Reals Sorted.
From Verif Require Import Base Num VelocityModel.
Import ListNotations.

(** at depth [x] the wave type [wave] is faster or slower just below than just above *)
Definition jumps (m : vmodel R) (wave : string) (x : R) : Prop :=
  exists above below, evaluateAbove m x wave = Ok above /\ evaluateBelow m x wave = Ok below /\ above <> below.

(** [x] is where the model begins or ends *)
Definition model_end (m : vmodel R) (x : R) : Prop :=
  (exists l, nth_error (vm_layers m) 0 = Some l /\ x = vl_topDepth l) \/
  (exists l, nth_error (vm_layers m) (List.length (vm_layers m) - 1) = Some l /\ x = vl_botDepth l).

(** [l] lists, in order and once each, the depths with property [P] *)
Definition lists (P : R -> Prop) (l : list R) : Prop :=
  StronglySorted Rlt l /\ forall x, In x l <-> P x.

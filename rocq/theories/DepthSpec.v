(** Independent vocabulary for property C84: depth phases. *)
From Coq Require Import String.
From Verif Require Import Base RouteSpec.
Local Open Scope string_scope.

(** the upgoing leg of the wave type of the downgoing leg [m] *)
Definition upgoing (m u : string) : Prop := (m = "P" /\ u = "p") \/ (m = "S" /\ u = "s").

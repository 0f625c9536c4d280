(** Specification of runs for pierce points and ray paths with added depths (property C62). *)
From Coq Require Import ZArith Bool List String Reals.
From Verif Require Import Base Num VelocityModel SlownessLayer SlownessModel TauModel SeismicPhase TauPTime.
Import ListNotations.

Section Same.
  Context {T : Type} {N : Num T}.

  (** equal but for pierce points and path *)
  Definition same_arrival (a b : arrival T) : Prop :=
    ar_time a = ar_time b /\ ar_dist a = ar_dist b /\ ar_rayParam a = ar_rayParam b /\
    ar_index a = ar_index b /\ ar_name a = ar_name b /\ ar_purist a = ar_purist b /\
    ar_sourceDepth a = ar_sourceDepth b /\ ar_takeoff a = ar_takeoff b /\ ar_incident a = ar_incident b.
  (** equal but for the slowness model *)
  Definition same_tau (t t' : tmodel T) : Prop :=
    tm_rayParams t' = tm_rayParams t /\ tm_P t' = tm_P t /\ tm_S t' = tm_S t /\
    tm_mohoBranch t' = tm_mohoBranch t /\ tm_cmbBranch t' = tm_cmbBranch t /\ tm_iocbBranch t' = tm_iocbBranch t /\
    tm_mohoDepth t' = tm_mohoDepth t /\ tm_cmbDepth t' = tm_cmbDepth t /\ tm_iocbDepth t' = tm_iocbDepth t /\
    tm_sourceDepth t' = tm_sourceDepth t /\ tm_sourceBranch t' = tm_sourceBranch t /\ tm_radius t' = tm_radius t.
End Same.

Local Open Scope R_scope.
(** a branch begins or ends within [n] millimetres of depth [a] *)
Definition edge_near (n : nat) (bs : list (tbranch R)) (a : R) : Prop :=
  exists b, In b bs /\ (Rabs (a - tb_top b) <= INR n * / 10 ^ 6 \/ Rabs (a - tb_bot b) <= INR n * / 10 ^ 6).

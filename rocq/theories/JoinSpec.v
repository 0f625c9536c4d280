(** Independent vocabulary for property C80: the legs of a phase without their order. *)
From Coq Require Import List ZArith String Reals Permutation.
From Verif Require Import Base Num SlownessLayer SlownessModel TauModel SeismicPhase CurveSpec.
Import ListNotations.

(** the branch of a leg and its wave type *)
Definition medium (g : seg) : Z * bool := (sg_branch g, sg_isP g).
(** the legs [l] pass the same branches as the wave types as those of [l'], in any order and direction *)
Definition same_media (l l' : list seg) : Prop := Permutation (map medium l) (map medium l').

Local Open Scope R_scope.
(** a phase that is neither diffracted nor a head wave, without a high slowness zone in its range *)
Definition plain (show : R -> string) (w : list R) (t : tmodel R) (tid : Z) (name : string) (ph : phase R) : Prop :=
  newPhase show w t tid name = Ok ph /\ ph_rayParams ph <> [] /\ (exists r, In r (tm_rayParams t) /\ ph_max ph <= r) /\
  ~ diffracted name /\ ~ head_wave name /\
  (forall z, In z (sm_hiP (tm_sMod t)) \/ In z (sm_hiS (tm_sMod t)) -> ~ ph_min ph < dr_rayParam z < ph_max ph).

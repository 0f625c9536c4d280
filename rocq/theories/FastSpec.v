(** Vocabulary for the least travel time (property C75). *)
From Coq Require Import ZArith Bool List Reals.
From Verif Require Import Base Num SlownessModel TauModel TauSpec SeismicPhase CurveSpec.
Import ListNotations.
Local Open Scope list_scope.
Local Open Scope R_scope.

(** legs of type [w], each of which starts where the one before it ends, from depth [x] to depth [y] *)
Inductive walk (t : tmodel R) (w : bool) : R -> list seg -> R -> Prop :=
| wk_end : forall x, walk t w x [] x
| wk_down : forall s l b y, sg_isP s = w -> sg_down s = true -> leg_branch t s b -> walk t w (tb_bot b) l y ->
    walk t w (tb_top b) (s :: l) y
| wk_up : forall s l b y, sg_isP s = w -> sg_down s = false -> leg_branch t s b -> walk t w (tb_top b) l y ->
    walk t w (tb_bot b) (s :: l) y.

(** Vocabulary for the name that shows the depths used (property C77). *)
From Coq Require Import ZArith Bool List String.
From Verif Require Import Base Num TauModel QuerySpec QueryProps.
Import ListNotations.
Local Open Scope num_scope.

Section Spec.
  Context {T : Type} {N : Num T}.
  Variable show : T -> string.

  (** how a leg appears in that name: a digit as the depth of the nearest discontinuity, that of the last branch if there is none
      within 1e300 km; any other leg as it is *)
  Definition shown (w : list T) (t : tmodel T) (leg word : string) : Prop :=
    (exists k b, is_digit_of leg k /\ word = show (tb_top b) /\
       ((exists n, nearest_discon w (tm_P t) (n_int k) n /\ nth_error (tm_P t) n = Some b) \/
        ((forall c, In c (tm_P t) -> listed w c \/ n_abs (n_int k - tb_top c) <? n_lit 1 300 = false) /\ exists l, tm_P t = (l ++ [b])%list)))
    \/ ((forall k, ~ is_digit_of leg k) /\ word = leg).
End Spec.

(** Independent vocabulary for the travel-time properties C05-C09 and C39. *)
From Coq Require Import ZArith Bool List String Reals.
From Verif Require Import Base Num.
Import ListNotations.
Local Open Scope num_scope.

Section Order.
  Context {T : Type} {N : Num T} {A : Type}.

  (** no later element has a smaller key *)
  Definition sorted_on (key : A -> T) (l : list A) : Prop :=
    forall i j a b, (i < j)%nat -> nth_error l i = Some a -> nth_error l j = Some b ->
      key b <? key a = false.

  (** elements with equal keys come in the same order in both lists *)
  Definition same_ties (key : A -> T) (l l' : list A) : Prop :=
    forall v, filter (fun a => key a =? v) l = filter (fun a => key a =? v) l'.
End Order.

(** the items made one by one from a list of names, leaving out those for which
    [mk] raises TauModelError; any other exception is not acceptable *)
Inductive built {A : Type} (mk : string -> result A) : list string -> list A -> Prop :=
| built_nil : built mk [] []
| built_ok : forall n ns a l, mk n = Ok a -> built mk ns l -> built mk (n :: ns) (a :: l)
| built_skip : forall n ns l, mk n = Raise TauModelError -> built mk ns l -> built mk (n :: ns) l.

Local Open Scope R_scope.

(** [x] is between [a] and [b], in either order *)
Definition between (a x b : R) : Prop := a <= x <= b \/ b <= x <= a.

(** degrees to radians *)
Definition rad (x : R) : R := x * PI / 180.

(** [x] is the distance [deg] folded into [0,180] degrees *)
Definition folded (deg x : R) : Prop := 0 <= x <= 180 /\ cos (rad x) = cos (rad deg).

(** the sampled curve [dist], [rp] passes distance [s] on its [i]-th interval: the two
    samples bracket [s]; a hit of the interval's second end only counts on the very last
    interval; an interval with the same ray parameter at both ends is a shadow zone
    unless it is the whole curve *)
Definition passes (dist rp : list R) (i : nat) (s : R) : Prop :=
  exists d0 d1 p0 p1,
    nth_error dist i = Some d0 /\ nth_error dist (S i) = Some d1 /\
    nth_error rp i = Some p0 /\ nth_error rp (S i) = Some p1 /\
    between d0 s d1 /\
    (s = d1 -> S (S i) = List.length dist) /\
    (p0 = p1 -> (List.length rp <= 2)%nat).

(** [y] is the value at [s] of the straight line through (x0,y0) and (x1,y1) *)
Definition on_line (x0 y0 x1 y1 s y : R) : Prop :=
  x0 <> x1 /\ (y - y0) * (x1 - x0) = (y1 - y0) * (s - x0).

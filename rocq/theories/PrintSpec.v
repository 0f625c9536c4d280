(** Specification of printed numbers and tables. *)
From Coq Require Import ZArith Bool List String Ascii Reals SpecFloat.
From Verif Require Import Base SeismicPhase VelSpec TimeSpec.
Import ListNotations.
Local Open Scope R_scope.

(** ** decimal numbers *)

(** [k] is the integer closest to [y], the even one of two *)
Definition nearest_even (y : R) (k : Z) : Prop :=
  Rabs (y - IZR k) <= 1 / 2 /\ (Rabs (y - IZR k) = 1 / 2 -> Z.Even k).

(** decimal digits *)
Definition is_dec_digit (c : ascii) : Prop := (48 <= nat_of_ascii c <= 57)%nat.
(** the number that the digits [s] spell after digits spelling [acc] *)
Fixpoint spells (acc : Z) (s : string) : Z :=
  match s with
  | EmptyString => acc
  | String c s => spells (10 * acc + (Z.of_nat (nat_of_ascii c) - 48)) s
  end.
(** digits without needless zeros in front *)
Definition plain_digits (s : string) : Prop :=
  s <> ""%string /\ all_chars is_dec_digit s /\
  (s = "0"%string \/ forall s', s <> String "0" s').

(** [s] is the decimal notation with [dp] decimals of the number with the sign [neg] and the
    absolute value [mag] *)
Definition shows_signed (dp : nat) (neg : bool) (mag : R) (s : string) : Prop :=
  exists ip fp : string,
    s = ((if neg then "-" else "") ++ ip ++ "." ++ fp)%string /\
    plain_digits ip /\ all_chars is_dec_digit fp /\ String.length fp = dp /\
    nearest_even (mag * 10 ^ dp) (spells 0 (ip ++ fp)).

(** [s] is the decimal notation of [x] *)
Definition shows (dp : nat) (x : R) (s : string) : Prop :=
  exists neg, (neg = true <-> x < 0) /\ shows_signed dp neg (Rabs x) s.

(** absolute value of a finite double *)
Definition magnitude (x : spec_float) (mag : R) : Prop :=
  match x with
  | S754_zero _ => mag = 0
  | S754_finite _ m e => mag = IZR (Z.pos m) * powerRZ 2 e
  | _ => False
  end.
(** sign bit *)
Definition signed (x : spec_float) (neg : bool) : Prop :=
  match x with
  | S754_zero s | S754_infinity s | S754_finite s _ _ => neg = s
  | S754_nan => False
  end.

(** ** lines *)

(** [w] stands in [line] and ends before column [k] (columns count from 0) *)
Definition ends_at (line : string) (k : nat) (w : string) : Prop :=
  exists a b : string, line = (a ++ w ++ b)%string /\ String.length (a ++ w) = k.
(** [w] stands in [line] from column [k] on *)
Definition starts_at (line : string) (k : nat) (w : string) : Prop :=
  exists a b : string, line = (a ++ w ++ b)%string /\ String.length a = k.

(** a name that can be told apart in a line *)
Definition one_word (s : string) : Prop := s <> ""%string /\ all_chars (fun c => ~ space c) s.

(** ** announcements *)

(** [l]: the names, in order, for which [mk] raises TauModelError *)
Inductive refused {A : Type} (mk : string -> result A) : list string -> list string -> Prop :=
| refused_nil : refused mk [] []
| refused_yes : forall n ns l, mk n = Raise TauModelError -> refused mk ns l -> refused mk (n :: ns) (n :: l)
| refused_no : forall n ns l, mk n <> Raise TauModelError -> refused mk ns l -> refused mk (n :: ns) l.

(** ** tables *)

(** [s] is the line of a table for the arrival [a] of a source at [depth] km: distance folded to
    0..180 degrees, source depth, name, time, ray parameter in s/deg, takeoff and incident angle,
    travelled distance in degrees, a mark that tells whether the purist name is the same, purist
    name.  [k] is the length of the longest name in the table; numbers of ordinary size end and
    names begin at fixed columns. *)
Definition table_line (deg depth : R) (k : nat) (a : arrival R) (s : string) : Prop :=
  exists x wd wz wt wp wo wi wq,
    folded deg x /\ shows 2 x wd /\ shows 1 depth wz /\ shows 2 (ar_time a) wt /\
    shows 3 (ar_rayParam a * (PI / 180)) wp /\ shows 2 (ar_takeoff a) wo /\
    shows 2 (ar_incident a) wi /\ shows 2 (ar_dist a * (180 / PI)) wq /\
    (one_word (ar_name a) -> one_word (ar_purist a) ->
     exists mark, (mark = "="%string /\ ar_purist a = ar_name a \/ mark = "*"%string /\ ar_purist a <> ar_name a) /\
     words s [wd; wz; ar_name a; wt; wp; wo; wi; wq; mark; ar_purist a]) /\
    (0 <= depth <= 999 -> 0 <= ar_time a <= 99999 -> 0 <= ar_rayParam a * (PI / 180) <= 9999 ->
     0 <= ar_takeoff a <= 180 -> 0 <= ar_incident a <= 180 -> 0 <= ar_dist a * (180 / PI) <= 9999 ->
     ends_at s 8 wd /\ ends_at s 16 wz /\ starts_at s 19 (ar_name a) /\
     ends_at s (30 + k) wt /\ ends_at s (41 + k) wp /\ ends_at s (50 + k) wo /\
     ends_at s (60 + k) wi /\ ends_at s (70 + k) wq /\ starts_at s (74 + k) (ar_purist a)).

(** the two lines over the columns when the longest name has [k >= 2] letters; the columns of
    distance, depth, time, ray parameter and purist name end or begin where those of [table_line]
    do, the other three headings end one column later *)
Definition headings (k : nat) (l1 l2 : string) : Prop :=
  ends_at l1 8 "Distance" /\ ends_at l1 16 "Depth" /\ starts_at l1 19 "Phase" /\
  ends_at l2 (30 + k) "Time (s)" /\ ends_at l2 (41 + k) "p (s/deg)" /\
  ends_at l1 (51 + k) "Takeoff" /\ ends_at l1 (61 + k) "Incident" /\
  ends_at l2 (71 + k) "Distance" /\ starts_at l2 (74 + k) "Name".

(** [k] is the length of the longest name *)
Definition longest (arrs : list (arrival R)) (k : nat) : Prop :=
  (forall a, In a arrs -> (String.length (ar_name a) <= k)%nat) /\
  exists a, In a arrs /\ String.length (ar_name a) = k.

(** Specification of the command line. *)
From Coq Require Import ZArith Bool List String Ascii.
From Verif Require Import Base.
Import ListNotations.
Local Open Scope string_scope.

(** an option given with a text that is not empty *)
Definition texted (o : option string) (s : string) : Prop := o = Some s /\ s <> "".
(** an option that is not given, or given with the empty text *)
Definition untexted (o : option string) : Prop := forall s, ~ texted o s.

(** the value of an attribute after reading an option: the meaning of the text, or the value
    [before] *)
Definition takes {A} (means : string -> A -> Prop) (o : option string) (before after : A) : Prop :=
  (forall s, texted o s -> means s after) /\ (untexted o -> after = before).

(** the text [s] consists of the fields [l] with the character [c] between them *)
Inductive fields (c : ascii) : string -> list string -> Prop :=
| fields_last : forall s, ~ In c (list_ascii_of_string s) -> fields c s [s]
| fields_more : forall f s l, ~ In c (list_ascii_of_string f) -> fields c s l ->
    fields c (f ++ String c s) (f :: l).

(** printed lines that differ at most in the name in the line that tells the model *)
Definition retitled (m m' : string) (l l' : list string) : Prop :=
  Forall2 (fun x y => x = y \/
     (x = String (ascii_of_nat 10) ("Model: " ++ m) /\ y = String (ascii_of_nat 10) ("Model: " ++ m'))) l l'.

(** Independent vocabulary for file names. *)
From Coq Require Import List String Ascii.
Import ListNotations.
Local Open Scope string_scope.

Fixpoint has_chr (c : ascii) (s : string) : Prop :=
  match s with
  | EmptyString => False
  | String d s => d = c \/ has_chr c s
  end.
Fixpoint only_chr (c : ascii) (s : string) : Prop :=
  match s with
  | EmptyString => True
  | String d s => d = c /\ only_chr c s
  end.

(** [b] is what follows the last slash of the path [s] *)
Definition final_component (s b : string) : Prop :=
  ~ has_chr "/" b /\ (s = b \/ exists dir, s = dir ++ "/" ++ b).

(** [st] is the file name [b] without its extension: the text before the last dot, unless only
    dots are there *)
Definition name_stem (b st : string) : Prop :=
  (exists ext, b = st ++ "." ++ ext /\ ~ has_chr "." ext /\ ~ only_chr "." st)
  \/ (st = b /\ forall st' ext, b = st' ++ "." ++ ext -> ~ has_chr "." ext -> only_chr "." st').

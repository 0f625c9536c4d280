(** Independent vocabulary for the building of model files. *)
From Coq Require Import List String Ascii.
From Verif Require Import ApiSpec.
Import ListNotations.
Local Open Scope string_scope.

(** [p] is the file called [b] in the directory [q] *)
Definition file_in (q b p : string) : Prop :=
  p = q ++ "/" ++ b /\ ~ has_chr "/" b /\ q <> "" /\ forall q', q <> q' ++ "/".

(** where the package keeps the model of that stem *)
Definition packaged (dir ver st : string) : string := dir ++ "/" ++ st ++ "__py" ++ ver ++ "__tvel.pickle".

(** [st] is the file name of the path [p] without directory and extension *)
Definition path_stem (p st : string) : Prop := exists b, final_component p b /\ name_stem b st.

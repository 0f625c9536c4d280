(** Specification of phase names and phase lists, independent of the tokenizer and
    of the expansion code. *)
From Coq Require Import ZArith Bool List String Ascii Permutation Lia.
Import ListNotations.
Local Open Scope string_scope.

(** characters that are a leg of their own wherever they occur *)
Definition simple_chars : list ascii := ["K"; "k"; "I"; "i"; "J"; "p"; "s"; "m"; "c"]%char.
(** characters that may follow a one-letter leg which is not simple *)
Definition follow_chars : list ascii :=
  ["P"; "S"; "K"; "m"; "c"; "^"; "v"; "0"; "1"; "2"; "3"; "4"; "5"; "6"; "7"; "8"; "9"]%char.
(** second letters of two-letter legs *)
Definition second_chars : list ascii := ["g"; "b"; "n"]%char.

Definition number_chars : list ascii :=
  ["0"; "1"; "2"; "3"; "4"; "5"; "6"; "7"; "8"; "9"]%char.

(** [Tokens s l]: the string [s] is split into the legs [l].  Lookahead of one
    character decides between the rules, so the relation is functional. *)
Inductive Tokens : string -> list string -> Prop :=
| Tok_nil : Tokens "" []
| Tok_simple : forall c s l, In c simple_chars -> Tokens s l ->
    Tokens (String c s) (String c "" :: l)
| Tok_last : forall c, ~ In c simple_chars -> Tokens (String c "") [String c ""]
| Tok_one : forall c d s l, ~ In c simple_chars -> In d follow_chars ->
    Tokens (String d s) l -> Tokens (String c (String d s)) (String c "" :: l)
| Tok_two : forall c d s l, ~ In c simple_chars -> In d second_chars ->
    Tokens s l -> Tokens (String c (String d s)) (String c (String d "") :: l)
| Tok_diff : forall x s l, x = "Sdiff" \/ x = "Pdiff" -> Tokens s l ->
    Tokens (x ++ s) (x :: l).

(** a surface wave name *)
Definition is_kmps (name : string) : Prop := exists p, name = p ++ "kmps".

(** concatenation of the legs *)
Definition join (l : list string) : string := fold_right append "" l.

(** the character [c] occurs in [s] *)
Definition has_char (c : ascii) (s : string) : Prop := exists a b, s = a ++ String c b.

(** [n] is [a] (a lower case word) written in any mixture of cases *)
Definition same_letter (c d : ascii) : Prop :=
  c = d \/ (65 <= nat_of_ascii c <= 90 /\ nat_of_ascii d = nat_of_ascii c + 32).
Definition same_word (n a : string) : Prop :=
  Forall2 same_letter (list_ascii_of_string n) (list_ascii_of_string a).

(** The documented phase groups. *)
Definition group_ttp : list string := ["p"; "P"; "Pn"; "Pdiff"; "PKP"; "PKiKP"; "PKIKP"].
Definition group_tts : list string := ["s"; "S"; "Sn"; "Sdiff"; "SKS"; "SKIKS"].
Definition group_ttp_plus : list string :=
  ["p"; "P"; "Pn"; "Pdiff"; "PKP"; "PKiKP"; "PKIKP"; "PcP"; "pP"; "pPdiff"; "pPKP"; "pPKIKP";
   "pPKiKP"; "sP"; "sPdiff"; "sPKP"; "sPKIKP"; "sPKiKP"].
Definition group_tts_plus : list string :=
  ["s"; "S"; "Sn"; "Sdiff"; "SKS"; "SKIKS"; "sS"; "sSdiff"; "sSKS"; "sSKIKS"; "ScS"; "pS";
   "pSdiff"; "pSKS"; "pSKIKS"].
Definition group_ttbasic : list string :=
  ["p"; "P"; "Pn"; "Pdiff"; "PKP"; "PKiKP"; "PKIKP"; "PcP"; "pP"; "pPdiff"; "pPKP"; "pPKIKP";
   "pPKiKP"; "sP"; "sPdiff"; "sPKP"; "sPKIKP"; "sPKiKP"; "s"; "S"; "Sn"; "Sdiff"; "SKS"; "SKIKS";
   "sS"; "sSdiff"; "sSKS"; "sSKIKS"; "ScS"; "pS"; "pSdiff"; "pSKS"; "pSKIKS"; "ScP"; "SKP";
   "SKIKP"; "PKKP"; "PKIKKIKP"; "SKKP"; "SKIKKIKP"; "PP"; "PKPPKP"; "PKIKPPKIKP"].
Definition group_ttall : list string :=
  ["p"; "P"; "Pn"; "Pdiff"; "PKP"; "PKiKP"; "PKIKP"; "PcP"; "pP"; "pPdiff"; "pPKP"; "pPKIKP";
   "pPKiKP"; "sP"; "sPdiff"; "sPKP"; "sPKIKP"; "sPKiKP"; "s"; "S"; "Sn"; "Sdiff"; "SKS"; "SKIKS";
   "sS"; "sSdiff"; "sSKS"; "sSKIKS"; "ScS"; "pS"; "pSdiff"; "pSKS"; "pSKIKS"; "ScP"; "SKP";
   "SKIKP"; "PKKP"; "PKIKKIKP"; "SKKP"; "SKIKKIKP"; "PP"; "PKPPKP"; "PKIKPPKIKP"; "SKiKP"; "PcS";
   "PKS"; "PKIKS"; "PKKS"; "PKIKKIKS"; "SKKS"; "SKIKKIKS"; "SKSSKS"; "SKIKSSKIKS"; "SS"; "SP";
   "PS"].
Definition groups : list (string * list string) :=
  [("ttp", group_ttp); ("tts", group_tts); ("ttp+", group_ttp_plus); ("tts+", group_tts_plus);
   ("ttbasic", group_ttbasic); ("ttall", group_ttall)].

(** [stands_for n x]: the requested name [n] asks for the phase [x] *)
Definition stands_for (n x : string) : Prop :=
  (exists a g, In (a, g) groups /\ same_word n a /\ In x g)
  \/ (x = n /\ forall a g, In (a, g) groups -> ~ same_word n a).

(** Model of the phase name tokenizer of taupy/SeismicPhase.py and of the phase
    lists of taupy/TauP_Time.py (string level only). *)
From Coq Require Import ZArith Bool List String Ascii Lia.
From Verif Require Import Base PyStr.
Import ListNotations.
Local Open Scope string_scope.

(** taupy/SeismicPhase.py:1107-1108 *)
Definition leg_easy (c : ascii) : bool := chr_mem c (list_ascii_of_string "KkIiJpsmc").

(** taupy/SeismicPhase.py:1115-1117 *)
Definition leg_one_next (d : ascii) : bool := chr_mem d (list_ascii_of_string "PSKmc^v") || is_digit d.

(** taupy/SeismicPhase.py:1104-1162: the loop of [legPuller] on the rest of the
    name.  The test [nchar == "P" or "S"] of line 1111 is always true in Python, so
    lines 1136-1162 are unreachable and not modelled. *)
Fixpoint leg_go (s : string) : result (list string) :=
  match s with
  | EmptyString => Ok []
  | String c s1 =>
      if leg_easy c then let! l := leg_go s1 in Ok (str1 c :: l)
      else
        match s1 with
        | EmptyString => Ok [str1 c]
        | String d s2 =>
            if leg_one_next d then let! l := leg_go s1 in Ok (str1 c :: l)
            else if chr_mem d (list_ascii_of_string "ps") then Raise TauModelError
            else if chr_mem d (list_ascii_of_string "gbn") then let! l := leg_go s2 in Ok (String c (str1 d) :: l)
            else
              match s2 with
              | String e (String f (String g s5)) =>
                  let five := String c (String d (String e (String f (String g EmptyString)))) in
                  if (five =? "Sdiff") || (five =? "Pdiff")
                  then let! l := leg_go s5 in Ok (five :: l)
                  else Raise TauModelError
              | _ => Raise TauModelError
              end
        end
  end.

(** taupy/SeismicPhase.py:1087-1165 *)
Definition legPuller (name : string) : result (list string) :=
  let! l := if str_endswith "kmps" name then Ok [name] else leg_go name in
  Ok (l ++ ["END"])%list.

(** taupy/TauP_Time.py:258-264 *)
Definition names_ttp : list string := ["p"; "P"; "Pn"; "Pdiff"; "PKP"; "PKiKP"; "PKIKP"].
(** taupy/TauP_Time.py:269-274 *)
Definition names_tts : list string := ["s"; "S"; "Sn"; "Sdiff"; "SKS"; "SKIKS"].
(** taupy/TauP_Time.py:278-288 *)
Definition names_ttp_plus : list string :=
  ["PcP"; "pP"; "pPdiff"; "pPKP"; "pPKIKP"; "pPKiKP"; "sP"; "sPdiff"; "sPKP"; "sPKIKP"; "sPKiKP"].
(** taupy/TauP_Time.py:292-300 *)
Definition names_tts_plus : list string :=
  ["sS"; "sSdiff"; "sSKS"; "sSKIKS"; "ScS"; "pS"; "pSdiff"; "pSKS"; "pSKIKS"].
(** taupy/TauP_Time.py:303-312 *)
Definition names_basic : list string :=
  ["ScP"; "SKP"; "SKIKP"; "PKKP"; "PKIKKIKP"; "SKKP"; "SKIKKIKP"; "PP"; "PKPPKP"; "PKIKPPKIKP"].
(** taupy/TauP_Time.py:314-328 *)
Definition names_all : list string :=
  ["SKiKP"; "PP"; "ScS"; "PcS"; "PKS"; "PKIKS"; "PKKS"; "PKIKKIKS"; "SKKS"; "SKIKKIKS"; "SKSSKS";
   "SKIKSSKIKS"; "SS"; "SP"; "PS"].

(** taupy/TauP_Time.py:243-331 *)
Definition getPhaseNames (phaseName : string) : list string :=
  let l := str_lower phaseName in
  let is x := (l =? x) in
  if is "ttp" || is "tts" || is "ttbasic" || is "tts+" || is "ttp+" || is "ttall" then
    ((if is "ttp" || is "ttp+" || is "ttbasic" || is "ttall" then names_ttp else [])
     ++ (if is "tts" || is "tts+" || is "ttbasic" || is "ttall" then names_tts else [])
     ++ (if is "ttp+" || is "ttbasic" || is "ttall" then names_ttp_plus else [])
     ++ (if is "tts+" || is "ttbasic" || is "ttall" then names_tts_plus else [])
     ++ (if is "ttbasic" || is "ttall" then names_basic else [])
     ++ (if is "ttall" then names_all else []))%list
  else [phaseName].

(** taupy/TauP_Time.py:235-237: the names before [list(set(...))] *)
Definition phaseNames_raw (phaseList : list string) : list string :=
  flat_map getPhaseNames phaseList.

(** taupy/TauP_Time.py:228-240.  [order] is the iteration order of a Python set: it
    depends on the hash seed, so it is a parameter; see [set_order_ok]. *)
Definition parsePhaseList (order : list string -> list string) (phaseList : list string)
  : list string := order (phaseNames_raw phaseList).

(** [list(set(l))] contains exactly the elements of [l], each once (Python
    language guarantee used at taupy/TauP_Time.py:239). *)
Definition set_order_ok (order : list string -> list string) : Prop :=
  forall l, NoDup (order l) /\ forall x, In x (order l) <-> In x l.

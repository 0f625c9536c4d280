(** Model of the printed output of taupy/TauP_Time.py and of the textual forms of arrivals in
    taupy/Arrival.py and taupy/tau.py. *)
From Coq Require Import ZArith Bool List String Ascii Reals SpecFloat.
From Verif Require Import Base Num PyStr VelocityModel SlownessLayer SlownessModel TauModel Legs
  SeismicPhase TauPTime.
Import ListNotations.

(** -- numbers --------------------------------------------------------------------- *)

(** What a number is rounded to when it is printed with a given number of decimals: a sign and the
    digits as one integer, or one of the special values. *)
Inductive dec := DecNum (neg : bool) (n : N) | DecInf (neg : bool) | DecNan.

(** The rounding done by Python's format code 'f' (library code): to the nearest decimal number,
    halves to the even digit.  The sign is that of the number before rounding. *)
Class Dec (T : Type) := { dec_round : nat -> T -> dec }.

(** the integer next to [y >= 0], halves to even *)
Definition R_half_even (y : R) : Z :=
  let k := Int_part y in
  if Rltb (y - IZR k) (1 / 2) then k
  else if Rltb (1 / 2) (y - IZR k) then (k + 1)%Z
  else if Z.even k then k else (k + 1)%Z.

#[export] Instance Dec_R : Dec R := {
  dec_round := fun d x => DecNum (Rltb x 0) (Z.to_N (R_half_even (Rabs x * 10 ^ d)))
}.

(** the integer next to [a / b], halves to even, for [b > 0] *)
Definition Z_half_even (a b : Z) : Z :=
  let q := (a / b)%Z in
  let m := (a mod b)%Z in
  if (2 * m <? b)%Z then q
  else if (b <? 2 * m)%Z then (q + 1)%Z
  else if Z.even q then q else (q + 1)%Z.

#[export] Instance Dec_B64 : Dec b64 := {
  dec_round := fun d x =>
    match x with
    | S754_zero s => DecNum s 0
    | S754_infinity s => DecInf s
    | S754_nan => DecNan
    | S754_finite s m e =>
        DecNum s (Z.to_N (match e with
                          | Z.neg p => Z_half_even (Z.pos m * 10 ^ Z.of_nat d) (2 ^ Z.pos p)
                          | _ => Z.pos m * 10 ^ Z.of_nat d * 2 ^ e
                          end))
    end
}.

Local Open Scope string_scope.

(** the digit for [n mod 10] *)
Definition digit_char (n : N) : ascii := ascii_of_N (48 + n mod 10)%N.
(** the last [d] digits of [n] in front of [acc] *)
Fixpoint last_digits (d : nat) (n : N) (acc : string) : string :=
  match d with
  | O => acc
  | S d => last_digits d (n / 10)%N (String (digit_char n) acc)
  end.
(** all digits of [n] in front of [acc] *)
Fixpoint all_digits (fuel : nat) (n : N) (acc : string) : string :=
  let acc := String (digit_char n) acc in
  match fuel with
  | O => acc
  | S fuel => if (n <? 10)%N then acc else all_digits fuel (n / 10)%N acc
  end.
(** [str(n)] *)
Definition str_of_N (n : N) : string := all_digits (N.size_nat n) n "".

(** [n] blanks ([" " * n]) *)
Fixpoint spaces (n : nat) : string :=
  match n with O => "" | S n => String " " (spaces n) end.
(** [c * n] for a character *)
Fixpoint rep (c : ascii) (n : nat) : string :=
  match n with O => "" | S n => String c (rep c n) end.
(** "{:>ws}" and "{:<ws}" *)
Definition rjust (w : nat) (s : string) : string := spaces (w - String.length s) ++ s.
Definition ljust (w : nat) (s : string) : string := s ++ spaces (w - String.length s).

Section Print.
  Context {T : Type} {N : Num T} {L : Libm T} {D : Dec T}.
  Variable show : T -> string.

  (** [format(x, ".df")] for [d > 0] (library code) *)
  Definition fixed (d : nat) (x : T) : string :=
    match dec_round d x with
    | DecNum neg n =>
        (if neg then "-" else "") ++ str_of_N (n / 10 ^ N.of_nat d)%N ++ "." ++ last_digits d n ""
    | DecInf neg => if neg then "-inf" else "inf"
    | DecNan => "nan"
    end.

  (** -- Arrival.__str__ and Arrivals.__str__ ----------------------------------------- *)

  (** taupy/Arrival.py:36-38.  The phase of an arrival has the name of the arrival: see
      taupy/SeismicPhase.py:792-793, 812-813 and 1055-1057, where both come from self. *)
  Definition ar_str (a : arrival T) : string :=
    ar_name a ++ " phase arrival at " ++ fixed 3 (ar_time a) ++ " seconds".

  (** [sep.join(l)] *)
  Fixpoint join (sep : string) (l : list string) : string :=
    match l with
    | [] => ""
    | [s] => s
    | s :: l => s ++ sep ++ join sep l
    end.

  (** a line feed *)
  Definition nl : string := String (ascii_of_nat 10) "".
  (** a tabulator *)
  Definition tab : string := String (ascii_of_nat 9) "".

  (** taupy/tau.py:24-29: Arrivals.__str__ *)
  Definition arrivals_str (l : list (arrival T)) : string :=
    str_of_N (N.of_nat (List.length l)) ++ " arrivals" ++ nl ++ tab ++ join (nl ++ tab) (map ar_str l).

  (** -- print statements -------------------------------------------------------------- *)

  (** a computation together with what it prints before it ends, one string for each call of
      print() *)
  Definition out (A : Type) : Type := (list string * result A)%type.
  Definition quiet {A} (r : result A) : out A := ([], r).
  Definition say (s : string) : out unit := ([s], Ok tt).
  Definition obind {A B} (m : out A) (k : A -> out B) : out B :=
    match snd m with
    | Ok a => let r := k a in ((fst m ++ fst r)%list, snd r)
    | Raise e => (fst m, Raise e)
    | Diverge => (fst m, Diverge)
    end.

  (** taupy/TauP_Time.py:117-118 *)
  Definition skip_message (name : string) : string := "Error with this phase, skipping it: " ++ name.

  (** taupy/TauP_Time.py:100-119, like [recalc_go] *)
  Fixpoint recalc_out (w : list T) (t : tmodel T) (id : Z) (depth : T) (first : bool)
           (names : list string) (phases : list (phase T)) : out (list (phase T)) :=
    match names with
    | [] => quiet (Ok phases)
    | name :: names =>
        obind (quiet (cache_scan (S (List.length phases)) name depth id 0 phases)) (fun kf =>
        let '(kept, found) := kf in
        let base := if first then [] else kept in
        obind (match found with
               | Some ph => quiet (Ok (base ++ [ph])%list)
               | None =>
                   match newPhase show w t id name with
                   | Ok ph => quiet (Ok (base ++ [ph])%list)
                   | Raise TauModelError => obind (say (skip_message name)) (fun _ => quiet (Ok base))
                   | Raise e => quiet (Raise e)
                   | Diverge => quiet Diverge
                   end
               end) (fun new =>
        recalc_out w t id depth false names new))
    end.

  (** taupy/TauP_Time.py:94-119, like [recalcPhases] *)
  Definition recalcPhases_out (w : list T) (s : ttime T) : out (ttime T) :=
    obind (recalc_out w (tt_tModDepth s) (tt_depthId s) (tt_depth s) true (tt_names s) (tt_phases s))
      (fun l => quiet (Ok (mkTT (tt_tMod s) (tt_tModDepth s) (tt_depthId s) (tt_nextId s) (tt_names s) l
                                (tt_depth s) (tt_sourceDepth s) (tt_arrivals s)))).

  (** taupy/TauP_Time.py:82-92, like [tt_depthCorrect] *)
  Definition tt_depthCorrect_out (fuel : nat) (w : list T) (s : ttime T) (depth : T)
    : out (list T * ttime T) :=
    obind
      (if negb (n_eqb (tm_sourceDepth (tt_tModDepth s)) depth) then
         obind (quiet (tm_depthCorrect fuel w (tt_tMod s) depth)) (fun x =>
         let '(w, self, d) := x in
         let s := mkTT self d (tt_nextId s) (tt_nextId s + 1) (tt_names s) (tt_phases s)
                       (tt_depth s) (tt_sourceDepth s) [] in
         obind (recalcPhases_out w s) (fun s => quiet (Ok (w, s))))
       else quiet (Ok (w, s)))
      (fun x => let '(w, s) := x in
       quiet (Ok (w, mkTT (tt_tMod s) (tt_tModDepth s) (tt_depthId s) (tt_nextId s) (tt_names s)
                          (tt_phases s) (tt_depth s) depth (tt_arrivals s)))).

  (** taupy/TauP_Time.py:121-133, like [calculate] *)
  Definition calculate_out (fuel : nat) (w : list T) (s : ttime T) (degrees : T)
    : out (list T * ttime T) :=
    obind (tt_depthCorrect_out fuel w s (tt_sourceDepth s)) (fun x => let '(w, s) := x in
    obind (recalcPhases_out w s) (fun s =>
    obind (quiet (tt_calcTime fuel s degrees)) (fun s =>
    quiet (Ok (w, s))))).

  (** -- the table ---------------------------------------------------------------------- *)

  (** taupy/TauP_Time.py:158-162: namespacewidth, [len(max(names, key=len)) - 2] or 5 *)
  Definition namespacewidth (l : list (arrival T)) : Z :=
    match l with
    | [] => 5
    | _ => Z.of_nat (fold_right Nat.max O (map (fun a => String.length (ar_name a)) l)) - 2
    end.

  (** taupy/TauP_Time.py:164-165; [" " * n] is empty for a negative [n] *)
  Definition lineOne (nsw : Z) : string :=
    "Distance   Depth   Phase" ++ spaces (Z.to_nat nsw)
    ++ "Travel    Ray Param   Takeoff  Incident  Purist     Purist".
  (** taupy/TauP_Time.py:166-167 *)
  Definition lineTwo (nsw : Z) : string :=
    "   (deg)    (km)   Name " ++ spaces (Z.to_nat nsw)
    ++ "Time (s)  p (s/deg)     (deg)     (deg)  Distance   Name ".

  (** taupy/TauP_Time.py:171-186: one line of the table; line 177 makes a takeoff angle of -0.0 a
      plain zero.  A string is printed unchanged with a width of 0. *)
  Definition row (nsw : Z) (depth : T) (a : arrival T) : result string :=
    let! dist := ar_moduloDistDeg a in
    let! p := py_div (n_mul (ar_rayParam a) m_pi) (n_int 180) in
    let takeoff := if n_eqb (ar_takeoff a) (n_opp n_0) then n_0 else ar_takeoff a in
    let! pdist := py_div (n_mul (ar_dist a) (n_int 180)) m_pi in
    Ok (rjust 8 (fixed 2 dist) ++ "   "
        ++ rjust 5 (fixed 1 depth) ++ "   "
        ++ ljust (Z.to_nat (nsw + 2)) (ar_name a) ++ "   "
        ++ rjust 8 (fixed 2 (ar_time a)) ++ "   "
        ++ rjust 8 (fixed 3 p) ++ "   "
        ++ rjust 6 (fixed 2 takeoff) ++ "   "
        ++ rjust 7 (fixed 2 (ar_incident a)) ++ "   "
        ++ rjust 7 (fixed 2 pdist) ++ (if seq_ (ar_purist a) (ar_name a) then "  = " else "  * ")
        ++ ljust 5 (ar_purist a) ++ "   ").

  (** taupy/TauP_Time.py:171-186: the loop *)
  Fixpoint print_rows (nsw : Z) (depth : T) (l : list (arrival T)) : out unit :=
    match l with
    | [] => quiet (Ok tt)
    | a :: l =>
        obind (quiet (row nsw depth a)) (fun s =>
        obind (say s) (fun _ => print_rows nsw depth l))
    end.

  (** taupy/TauP_Time.py:155-186.  The assignment to arrival.takeoffAngle in line 178 is not
      recorded in the arrivals: they are not returned to the caller after printing. *)
  Definition printResult (modelName : string) (s : ttime T) : out unit :=
    let nsw := namespacewidth (tt_arrivals s) in
    obind (say (nl ++ "Model: " ++ modelName)) (fun _ =>
    obind (say (lineOne nsw)) (fun _ =>
    obind (say (lineTwo nsw)) (fun _ =>
    obind (say (rep "-" (String.length (lineOne nsw) - 2))) (fun _ =>
    print_rows nsw (tt_depth s) (tt_arrivals s))))).

  (** taupy/TauP_Time.py:56-80, like [tt_rerun]; [modelName] is the attribute set in line 30 *)
  Definition run_out (fuel : nat) (order : list string -> list string) (w : list T) (s : ttime T)
             (modelName : string) (phaseList : list string) (depth : T) (degrees : option T)
             (coords : option (list (option T))) (printOutput : bool)
    : out (list T * ttime T) :=
    obind (quiet (query_degrees degrees coords)) (fun deg =>
    let s := mkTT (tt_tMod s) (tt_tModDepth s) (tt_depthId s) (tt_nextId s)
                  (parsePhaseList order phaseList) (tt_phases s) depth (tt_sourceDepth s)
                  (tt_arrivals s) in
    obind (tt_depthCorrect_out fuel w s depth) (fun x => let '(w, s) := x in
    obind (calculate_out fuel w s deg) (fun x => let '(w, s) := x in
    obind (if printOutput then printResult modelName s else quiet (Ok tt)) (fun _ =>
    quiet (Ok (w, s)))))).

  (** taupy/tau.py:74-102: the answer is None when printing *)
  Definition get_travel_times_out (fuel : nat) (order : list string -> list string) (w : list T)
             (t : tmodel T) (depth : T) (degrees : option T) (phase_list : option (list string))
             (coords : option (list (option T))) (print_output : bool)
    : out (list T * tmodel T * option (list (arrival T))) :=
    let names := match phase_list with Some l => l | None => ["ttall"] end in
    obind (run_out fuel order w (tt_new t depth) (vm_name (sm_vMod (tm_sMod t))) names depth degrees
                   coords print_output)
      (fun x => let '(w, s) := x in
       quiet (Ok (w, tt_tMod s, if print_output then None else Some (tt_arrivals s)))).
End Print.

(** Model of the command line of taupy/TauP_Time.py (readcmdLineArgs, then run). *)
From Coq Require Import ZArith Bool List String Ascii.
From Verif Require Import Base Num PyStr VelocityModel SlownessLayer SlownessModel TauModel Legs
  SeismicPhase TauPTime Printing.
Import ListNotations.
Local Open Scope string_scope.

(** taupy/TauP_Time.py:190-212: the namespace made by argparse (library code, not modelled): the
    text given with each option, None for options that are not given. *)
Record args := mkArgs {
  ag_verbose : bool;
  ag_phase_list : option string;
  ag_modelname : option string;
  ag_depth : option string;
  ag_degrees : option string;
  ag_kilometres : option string;
  ag_staLat : option string;
  ag_staLon : option string;
  ag_evtLat : option string;
  ag_evtLon : option string;
  ag_outfile : option string }.

(** taupy/TauP_Time.py:25-54: the attributes of a TauP_Time object that belong to the question;
    [tl_state] holds the others.  The attributes kilometres and outFile do not exist before
    readcmdLineArgs is called (here None). *)
Record tool (T : Type) := mkTool {
  tl_state : ttime T;
  tl_debug : bool;
  tl_phaseList : list string;
  tl_modelName : string;
  tl_depth : T;
  tl_degrees : option T;
  tl_kilometres : option T;
  tl_stationLat : option T;
  tl_stationLon : option T;
  tl_eventLat : option T;
  tl_eventLon : option T;
  tl_outFile : option string }.
Arguments mkTool {T}. Arguments tl_state {T}. Arguments tl_debug {T}. Arguments tl_phaseList {T}.
Arguments tl_modelName {T}. Arguments tl_depth {T}. Arguments tl_degrees {T}.
Arguments tl_kilometres {T}. Arguments tl_stationLat {T}. Arguments tl_stationLon {T}.
Arguments tl_eventLat {T}. Arguments tl_eventLon {T}. Arguments tl_outFile {T}.

(** [s.split(c)] for a single character (taupy/TauP_Time.py:216) *)
Fixpoint str_split (c : ascii) (s : string) : list string :=
  match s with
  | EmptyString => [""]
  | String x s =>
      if Ascii.eqb x c then "" :: str_split c s
      else match str_split c s with
           | [] => [String x ""]
           | f :: l => String x f :: l
           end
  end.

(** [if text:] for the text of an option: None and the empty string count as not given *)
Definition given (o : option string) : option string :=
  match o with Some "" => None | o => o end.

Section CommandLine.
  Context {T : Type} {N : Num T} {L : Libm T} {D : Dec T}.
  Variable show : T -> string.
  (** [float(text)] (library code), which raises ValueError for texts that are no numbers *)
  Variable read : string -> result T.

  (** taupy/TauP_Time.py:25-54: a new object *)
  Definition newTool (t : tmodel T) (phaseList : option (list string)) (depth : T)
             (degrees : option T) (coords : option (list (option T))) : result (tool T) :=
    let c := match coords with Some c => c | None => [None; None; None; None] end in
    let! sLat := py_index c 2 in
    let! sLon := py_index c 3 in
    let! eLat := py_index c 0 in
    let! eLon := py_index c 1 in
    Ok (mkTool (tt_new t depth) false (match phaseList with Some l => l | None => [] end)
               (vm_name (sm_vMod (tm_sMod t))) depth degrees None sLat sLon eLat eLon None).

  (** [float(text) if text else default] *)
  Definition number_or (o : option string) (default : option T) : result (option T) :=
    match given o with
    | Some s => let! x := read s in Ok (Some x)
    | None => Ok default
    end.

  (** taupy/TauP_Time.py:213-225 *)
  Definition readcmdLineArgs (a : args) (t : tool T) : result (tool T) :=
    let debug := if ag_verbose a then true else tl_debug t in
    let phaseList := match given (ag_phase_list a) with
                     | Some s => str_split "," s
                     | None => tl_phaseList t
                     end in
    let modelName := match given (ag_modelname a) with Some s => s | None => tl_modelName t end in
    let! depth := match given (ag_depth a) with Some s => read s | None => Ok (tl_depth t) end in
    let! degrees := number_or (ag_degrees a) (tl_degrees t) in
    let! km := number_or (ag_kilometres a) None in
    let! sLat := number_or (ag_staLat a) None in
    let! sLon := number_or (ag_staLon a) None in
    let! eLat := number_or (ag_evtLat a) None in
    let! eLon := number_or (ag_evtLon a) None in
    Ok (mkTool (tl_state t) debug phaseList modelName depth degrees km sLat sLon eLat eLon
               (ag_outfile a)).

  (** taupy/TauP_Time.py:56-80: run() on the attributes of the object.  Lines 70 and 140 keep the
      distance used in the attribute degrees. *)
  Definition tool_run (fuel : nat) (order : list string -> list string) (w : list T) (t : tool T)
             (printOutput : bool) : out (list T * tool T) :=
    let coords := Some [tl_eventLat t; tl_eventLon t; tl_stationLat t; tl_stationLon t] in
    obind (quiet (query_degrees (tl_degrees t) coords)) (fun deg =>
    obind (run_out show fuel order w (tl_state t) (tl_modelName t) (tl_phaseList t) (tl_depth t)
                   (tl_degrees t) coords printOutput) (fun x => let '(w, s) := x in
    quiet (Ok (w, mkTool s (tl_debug t) (tl_phaseList t) (tl_modelName t) (tl_depth t) (Some deg)
                         (tl_kilometres t) (tl_stationLat t) (tl_stationLon t) (tl_eventLat t)
                         (tl_eventLon t) (tl_outFile t))))).

  (** taupy/TauP_Time.py:352-358, with the loaded model [t] given to the constructor (the code
      gives none, so that the constructor raises TypeError) *)
  Definition command (fuel : nat) (order : list string -> list string) (w : list T) (t : tmodel T)
             (a : args) : out (list T * tool T) :=
    obind (quiet (newTool t None n_0 None None)) (fun x =>
    obind (quiet (readcmdLineArgs a x)) (fun x =>
    tool_run fuel order w x true)).
End CommandLine.

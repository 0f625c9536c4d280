(** Model of taupy/TauP_Time.py, taupy/TauModelLoader.py, taupy/utils.py and
    taupy/tau.py. *)
From Coq Require Import ZArith Bool List String Ascii Lia.
From Verif Require Import Base Num PyStr VelocityModel SlownessLayer SlownessModel TauModel Legs
  SeismicPhase Pierce.
Import ListNotations.
Local Open Scope num_scope.

(** taupy/TauP_Time.py:25-54: state of a TauP_Time object.  [tt_depthId] is the
    identity of the object tModDepth (0 = the loaded model itself), [tt_nextId] the
    next unused one. *)
Record ttime (T : Type) := mkTT {
  tt_tMod : tmodel T;
  tt_tModDepth : tmodel T; tt_depthId : Z; tt_nextId : Z;
  tt_names : list string;
  tt_phases : list (phase T);
  tt_depth : T;
  tt_sourceDepth : T;
  tt_arrivals : list (arrival T) }.
Arguments mkTT {T}. Arguments tt_tMod {T}. Arguments tt_tModDepth {T}. Arguments tt_depthId {T}.
Arguments tt_nextId {T}. Arguments tt_names {T}. Arguments tt_phases {T}.
Arguments tt_depth {T}. Arguments tt_sourceDepth {T}. Arguments tt_arrivals {T}.

Section Time.
  Context {T : Type} {N : Num T} {L : Libm T}.
  Variable show : T -> string.

  (** taupy/TauP_Time.py:334-350 *)
  Definition great_circle_dist (latA lonA latB lonB : T) : result T :=
    let! rtod := n_int 180 / m_pi in
    let! dtor := m_pi / n_int 180 in
    let! sA := m_sin (latA * dtor) in
    let! sB := m_sin (latB * dtor) in
    let! cA := m_cos (latA * dtor) in
    let! cB := m_cos (latB * dtor) in
    let! cL := m_cos ((lonB - lonA) * dtor) in
    let! a := m_acos (sA * sB + cA * cB * cL) in
    Ok (rtod * a).

  (** taupy/TauP_Time.py:102-110: look for a reusable phase; iterates by index over
      the list while popping from it.  Returns the list and the phase found. *)
  Fixpoint cache_scan (fuel : nat) (name : string) (depth : T) (id : Z) (i : nat)
           (l : list (phase T)) : result (list (phase T) * option (phase T)) :=
    match fuel with
    | O => Diverge
    | S fuel =>
        match nth_error l i with
        | None => Ok (l, None)
        | Some ph =>
            if seq_ (ph_name ph) name then
              let l := list_del l i in
              if (ph_sourceDepth ph =? depth) && (ph_tModId ph =? id)%Z
              then Ok (l, Some ph)
              else cache_scan fuel name depth id (S i) l
            else cache_scan fuel name depth id (S i) l
        end
    end.

  (** taupy/TauP_Time.py:100-119: the loop over the names.  In the first iteration
      self.phases is the old list and newPhases is empty; line 119 makes the two
      names refer to the same list for all later iterations. *)
  Fixpoint recalc_go (w : list T) (t : tmodel T) (id : Z) (depth : T) (first : bool)
           (names : list string) (phases : list (phase T)) : result (list (phase T)) :=
    match names with
    | [] => Ok phases
    | name :: names =>
        let! '(kept, found) := cache_scan (S (List.length phases)) name depth id 0 phases in
        let base := if first then [] else kept in
        let! new :=
          match found with
          | Some ph => Ok (base ++ [ph])%list
          | None =>
              match newPhase show w t id name with
              | Ok ph => Ok (base ++ [ph])%list
              | Raise TauModelError => Ok base
              | Raise e => Raise e
              | Diverge => Diverge
              end
          end in
        recalc_go w t id depth false names new
    end.

  (** taupy/TauP_Time.py:94-119 *)
  Definition recalcPhases (w : list T) (s : ttime T) : result (ttime T) :=
    let! l := recalc_go w (tt_tModDepth s) (tt_depthId s) (tt_depth s) true (tt_names s)
                        (tt_phases s) in
    Ok (mkTT (tt_tMod s) (tt_tModDepth s) (tt_depthId s) (tt_nextId s) (tt_names s) l
             (tt_depth s) (tt_sourceDepth s) (tt_arrivals s)).

  (** taupy/TauP_Time.py:82-92 *)
  Definition tt_depthCorrect (fuel : nat) (w : list T) (s : ttime T) (depth : T)
    : result (list T * ttime T) :=
    let! '(w, s) :=
      if tm_sourceDepth (tt_tModDepth s) <>? depth then
        let! '(w, self, d) := tm_depthCorrect fuel w (tt_tMod s) depth in
        let s := mkTT self d (tt_nextId s) (tt_nextId s + 1) (tt_names s) (tt_phases s)
                      (tt_depth s) (tt_sourceDepth s) [] in
        let! s := recalcPhases w s in
        Ok (w, s)
      else Ok (w, s) in
    Ok (w, mkTT (tt_tMod s) (tt_tModDepth s) (tt_depthId s) (tt_nextId s) (tt_names s)
                (tt_phases s) (tt_depth s) depth (tt_arrivals s)).

  (** [sorted(l, key=time)]: Python's sort is stable and compares with [<] only *)
  Fixpoint insert_arrival (a : arrival T) (l : list (arrival T)) : list (arrival T) :=
    match l with
    | [] => [a]
    | b :: l => if ar_time b <? ar_time a then b :: insert_arrival a l else a :: b :: l
    end.

  (** taupy/TauP_Time.py:147-153 *)
  Definition sortArrivals (l : list (arrival T)) : list (arrival T) :=
    fold_right insert_arrival [] l.

  (** taupy/TauP_Time.py:135-145 *)
  Definition tt_calcTime (fuel : nat) (s : ttime T) (degrees : T) : result (ttime T) :=
    let! ls := mapM (fun ph => ph_calcTime fuel ph degrees) (tt_phases s) in
    Ok (mkTT (tt_tMod s) (tt_tModDepth s) (tt_depthId s) (tt_nextId s) (tt_names s)
             (tt_phases s) (tt_depth s) (tt_sourceDepth s) (sortArrivals (List.concat ls))).

  (** taupy/TauP_Time.py:121-133 (relativePhaseName is None) *)
  Definition calculate (fuel : nat) (w : list T) (s : ttime T) (degrees : T)
    : result (list T * ttime T) :=
    let! '(w, s) := tt_depthCorrect fuel w s (tt_sourceDepth s) in
    let! s := recalcPhases w s in
    let! s := tt_calcTime fuel s degrees in
    Ok (w, s).

  (** taupy/TauP_Time.py:46-51 and 63-71: the distance to use.  [coords] is
      coordinate_list: event latitude, event longitude, station latitude, station
      longitude; elements may be None. *)
  Definition query_degrees (degrees : option T) (coords : option (list (option T))) : result T :=
    let c := match coords with Some c => c | None => [None; None; None; None] end in
    let! sLat := py_index c 2 in
    let! sLon := py_index c 3 in
    let! eLat := py_index c 0 in
    let! eLon := py_index c 1 in
    match degrees with
    | Some d => Ok d
    | None =>
        match sLat, sLon, eLat, eLon with
        | Some sLat, Some sLon, Some eLat, Some eLon => great_circle_dist sLat sLon eLat eLon
        | _, _, _, _ => Raise ValueError
        end
    end.

  (** taupy/TauP_Time.py:25-54: a new object (phaseNames, phases and arrivals are
      empty; sourceDepth does not exist yet, its value is never read before it is set) *)
  Definition tt_new (t : tmodel T) (depth : T) : ttime T := mkTT t t 0 1 [] [] depth depth [].

  (** taupy/TauP_Time.py:56-80 with printOutput=False: run() on an object whose
      attributes phaseList, depth, degrees and coordinates were set to the given values
      (by the constructor or by assignment).  [w] is TauModel.noDisconDepths.  The
      attribute degrees is set to the computed distance by line 70; this matters only if
      run() is called again without setting it. *)
  Definition tt_rerun (fuel : nat) (order : list string -> list string) (w : list T) (s : ttime T)
             (phaseList : list string) (depth : T) (degrees : option T)
             (coords : option (list (option T)))
    : result (list T * ttime T) :=
    let! deg := query_degrees degrees coords in
    let s := mkTT (tt_tMod s) (tt_tModDepth s) (tt_depthId s) (tt_nextId s)
                  (parsePhaseList order phaseList) (tt_phases s) depth (tt_sourceDepth s)
                  (tt_arrivals s) in
    let! '(w, s) := tt_depthCorrect fuel w s depth in
    calculate fuel w s deg.

  (** taupy/TauP_Time.py:25-54 then 56-80 on a fresh object.  The state
      [(w, t)] = (TauModel.noDisconDepths, the loaded model) is threaded. *)
  Definition tt_run (fuel : nat) (order : list string -> list string) (w : list T) (t : tmodel T)
             (phaseList : list string) (depth : T) (degrees : option T)
             (coords : option (list (option T)))
    : result (list T * tmodel T * list (arrival T)) :=
    let! '(w, s) := tt_rerun fuel order w (tt_new t depth) phaseList depth degrees coords in
    Ok (w, tt_tMod s, tt_arrivals s).

  (** taupy/tau.py:74-102 with print_output=False *)
  Definition get_travel_times (fuel : nat) (order : list string -> list string) (w : list T)
             (t : tmodel T) (depth : T) (degrees : option T) (phase_list : option (list string))
             (coords : option (list (option T)))
    : result (list T * tmodel T * list (arrival T)) :=
    tt_run fuel order w t (match phase_list with Some l => l | None => ["ttall"%string] end)
           depth degrees coords.
End Time.

(** -- loading ------------------------------------------------------------------ *)

(** [os.path.basename] (POSIX): the part after the last '/' *)
Fixpoint basename (s : string) : string :=
  match s with
  | EmptyString => EmptyString
  | String c s' =>
      if str_in "/" s' then basename s'
      else if Ascii.eqb c "/" then s' else s
  end.

(** [os.path.splitext(s)[0]] for a string without '/': drop the last extension;
    leading dots do not start an extension. *)
Fixpoint drop_ext (s : string) : string :=
  match s with
  | EmptyString => EmptyString
  | String c s' =>
      if str_in "." s' then String c (drop_ext s')
      else if Ascii.eqb c "." then EmptyString else s
  end.
(** [os.path.splitext(s)[0]] (taupy/utils.py:21): leading dots do not start an extension *)
Fixpoint splitext_stem (s : string) : string :=
  match s with
  | EmptyString => EmptyString
  | String c s' => if Ascii.eqb c "." then String c (splitext_stem s') else drop_ext s
  end.

(** taupy/utils.py:19-25; [dir] = ROOT/data/models, [ver] = the two version digits *)
Definition get_model_filename (dir ver name : string) : string :=
  (dir ++ "/" ++ splitext_stem (basename name) ++ "__py" ++ ver ++ "__tvel.pickle")%string.

(** taupy/TauModelLoader.py:13-24: [fs] maps existing paths to file contents; the
    unpickled value is the content itself. *)
Definition load {C : Type} (dir ver : string) (fs : string -> option C) (name : string) : result C :=
  let f := get_model_filename dir ver name in
  let f := match fs f with Some _ => f | None => name end in
  match fs f with
  | Some c => Ok c
  | None => Raise FileNotFoundError
  end.

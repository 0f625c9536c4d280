(** Model of the methods of taupy/TauP_Pierce.py and taupy/TauP_Path.py: runs for pierce points and
    ray paths, and what they print.  The constructors of the two classes always fail (property C41); the
    methods are modelled for an object with the attributes that these constructors would have set. *)
From Coq Require Import ZArith Bool List String Ascii.
From Verif Require Import Base Num PyStr VelocityModel SlownessLayer SlownessModel TauModel Legs
  SeismicPhase Pierce TauPTime Printing.
Import ListNotations.
Local Open Scope string_scope.
Local Open Scope list_scope.
Local Open Scope num_scope.

Section Views.
  Context {T : Type} {N : Num T} {L : Libm T} {D : Dec T}.
  Variable show : T -> string.

  (** -- source depth and added depths ----------------------------------------------- *)

  (** taupy/TauP_Pierce.py:48-54: the loop over branchDepths for one element of addDepth *)
  Fixpoint look_for (add : T) (must : bool) (l : list T) : bool :=
    match l with
    | [] => must
    | b :: l => if add =? b then must else look_for add true l
    end.

  (** taupy/TauP_Pierce.py:47-56: the loop over addDepth *)
  Fixpoint look_for_all (adds : list T) (must : bool) (branchDepths : list T) : bool :=
    match adds with
    | [] => must
    | a :: adds =>
        let must := look_for a must branchDepths in
        if must then must else look_for_all adds must branchDepths
    end.

  (** taupy/TauP_Pierce.py:40-59 *)
  Definition mustRecalc (t : tmodel T) (adds : list T) (depth : T) : result bool :=
    if tm_sourceDepth t =? depth then
      match adds with
      | [] => Ok false
      | _ => let! bds := getBranchDepths t in Ok (look_for_all adds false bds)
      end
    else Ok true.

  (** taupy/TauModel.py:218-331 with taupy/SlownessModel.py:1287-1348: does the model returned by
      splitBranch(depth) still refer to the slowness model object of the receiver?  (It does not if a
      layer had to be split.) *)
  Definition same_sMod (fuel : nat) (t : tmodel T) (depth : T) : bool :=
    if existsb (fun b => (tb_top b =? depth) || (tb_bot b =? depth)) (tm_P t) then true
    else match splitLayer fuel (tm_sMod t) depth false with
         | Ok (_, infoS) =>
             match splitLayer fuel (si_sMod infoS) depth true with
             | Ok (_, infoP) => negb (si_needed infoS) && negb (si_needed infoP)
             | _ => false
             end
         | _ => false
         end.

  (** taupy/TauP_Pierce.py:66-67: the loop.  [orig] is the slowness model of the model before the loop
      (tModOrig), [shared] tells whether the current model still refers to that object. *)
  Fixpoint split_all (fuel : nat) (w : list T) (orig : smodel T) (shared : bool) (t : tmodel T)
           (adds : list T) : result (list T * smodel T * bool * tmodel T) :=
    match adds with
    | [] => Ok (w, orig, shared, t)
    | a :: adds =>
        let keeps := same_sMod fuel t a in
        let! '(w, self, t) := splitBranch fuel w t a in
        split_all fuel w (if shared then tm_sMod self else orig) (shared && keeps) t adds
    end.

  (** the model [t] after its slowness model object was changed to [m] *)
  Definition with_sMod (t : tmodel T) (m : smodel T) : tmodel T :=
    mkTM m (tm_rayParams t) (tm_P t) (tm_S t) (tm_mohoBranch t) (tm_cmbBranch t) (tm_iocbBranch t)
         (tm_mohoDepth t) (tm_cmbDepth t) (tm_iocbDepth t) (tm_sourceDepth t) (tm_sourceBranch t)
         (tm_radius t).

  (** taupy/TauP_Pierce.py:33-69.  Where TauP_Time.depthCorrect is called with tModDepth None
      (line 68), it always corrects the model (taupy/TauP_Time.py:87-91). *)
  Definition pp_depthCorrect (fuel : nat) (w : list T) (s : ttime T) (adds : list T) (depth : T)
    : result (list T * ttime T) :=
    let! must := mustRecalc (tt_tModDepth s) adds depth in
    if negb must then tt_depthCorrect show fuel w s depth
    else
      let! '(w, orig, shared, t) := split_all fuel w (tm_sMod (tt_tMod s)) true (tt_tMod s) adds in
      let! '(w, self, d) := tm_depthCorrect fuel w t depth in
      let orig := if shared then tm_sMod self else orig in
      let! s' := recalcPhases show w (mkTT self d (tt_nextId s) (tt_nextId s + 1) (tt_names s)
                                           (tt_phases s) (tt_depth s) (tt_sourceDepth s) []) in
      Ok (w, mkTT (with_sMod (tt_tMod s) orig) (tt_tModDepth s') (tt_depthId s') (tt_nextId s')
                  (tt_names s') (tt_phases s') (tt_depth s') depth (tt_arrivals s')).

  (** -- runs ---------------------------------------------------------------------------- *)

  (** taupy/TauP_Pierce.py:80-88 and taupy/TauP_Path.py:43-52 after the list was emptied (lines 77 and 40);
      [calc] is calcPierce or calcPath of the phases *)
  Definition view_calc (calc : phase T -> T -> result (list (arrival T))) (s : ttime T) (degrees : T)
    : result (ttime T) :=
    let! ls := mapM (fun ph => calc ph degrees) (tt_phases s) in
    Ok (mkTT (tt_tMod s) (tt_tModDepth s) (tt_depthId s) (tt_nextId s) (tt_names s)
             (tt_phases s) (tt_depth s) (tt_sourceDepth s) (List.concat ls)).

  (** taupy/TauP_Pierce.py:71-78 and taupy/TauP_Path.py:34-41 *)
  Definition view_calculate (calc : phase T -> T -> result (list (arrival T))) (fuel : nat) (w : list T)
             (s : ttime T) (adds : list T) (degrees : T) : result (list T * ttime T) :=
    let! '(w, s) := pp_depthCorrect fuel w s adds (tt_sourceDepth s) in
    let! s := recalcPhases show w s in
    let! s := view_calc calc s degrees in
    Ok (w, s).

  (** taupy/TauP_Time.py:56-80 (inherited, without output) *)
  Definition view_run (calc : phase T -> T -> result (list (arrival T))) (fuel : nat)
             (order : list string -> list string) (w : list T) (s : ttime T) (adds : list T)
             (phaseList : list string) (depth : T) (degrees : option T)
             (coords : option (list (option T))) : result (list T * ttime T) :=
    let! deg := query_degrees degrees coords in
    let s := mkTT (tt_tMod s) (tt_tModDepth s) (tt_depthId s) (tt_nextId s)
                  (parsePhaseList order phaseList) (tt_phases s) depth (tt_sourceDepth s)
                  (tt_arrivals s) in
    let! '(w, s) := pp_depthCorrect fuel w s adds depth in
    view_calculate calc fuel w s adds deg.

  (** -- printing -------------------------------------------------------------------------- *)

  (** taupy/TauP_Pierce.py:121-130; [show] is the str() of numbers *)
  Definition getCommentLine (modelName : string) (a : arrival T) : result string :=
    let outName := if negb (seq_ (ar_name a) (ar_purist a))
                   then (ar_name a ++ "(" ++ ar_purist a ++ ")")%string else ar_name a in
    let! deg := ar_distDeg a in
    let! p := rayParam_sec_degree a in
    Ok ("> " ++ outName ++ " at "
        ++ " " ++ fixed 2 (ar_time a) ++ " seconds at "
        ++ " " ++ fixed 2 deg ++ " degrees for a "
        ++ " " ++ show (ar_sourceDepth a) ++ " km deep source in the "
        ++ " " ++ modelName ++ " model with rayParam " ++ fixed 3 p ++ " s/deg.")%string.

  (** taupy/TauP_Pierce.py:93-95 and taupy/TauP_Path.py:58-60 *)
  Definition longWayRound (a : arrival T) : result bool :=
    let! deg := ar_distDeg a in
    let! x := m_mod deg (n_int 360) in
    Ok (x >? n_int 180).

  (** taupy/TauP_Pierce.py:99-100 and taupy/TauP_Path.py:94-95 *)
  Definition other_way (long : bool) (x : T) : T :=
    if long && (x <>? n_0) then x * n_int (-1) else x.

  (** taupy/TauP_Pierce.py:23-27: the attributes that select pierce points *)
  Record choice := mkChoice {
    only_turn : bool; only_rev : bool; only_under : bool; only_add : bool; add_depths : list T }.

  (** taupy/TauP_Pierce.py:107-115 for pierce point number [j] at depth [capd] *)
  Definition chosen (c : choice) (j : nat) (prevDepth capd nextDepth : T) : bool :=
    negb (only_turn c || only_rev c || only_under c || only_add c)
    || (only_add c && existsb (fun x => capd =? x) (add_depths c))
    || (only_rev c && ((prevDepth - capd) * (capd - nextDepth) <? n_0))
    || (only_turn c && negb (Nat.eqb j 0)
        && (((prevDepth - capd) <=? n_0) && (n_0 <=? (capd - nextDepth))))
    || (only_under c && (((prevDepth - capd) >=? n_0) && (n_0 >=? (capd - nextDepth)))).

  (** taupy/TauP_Pierce.py:116-118 *)
  Definition pierce_line (dist depth time : T) : string :=
    (rjust 7 (fixed 2 dist) ++ " " ++ rjust 7 (fixed 1 depth) ++ " " ++ rjust 7 (fixed 1 time))%string.

  (** taupy/TauP_Pierce.py:97-118: the loop over the points; [prevDepth] is never changed *)
  Fixpoint print_pierce (c : choice) (long : bool) (prevDepth : T) (j : nat) (l : list (timedist T))
    : out unit :=
    match l with
    | [] => quiet (Ok tt)
    | p :: l =>
        obind (quiet (td_distDeg p)) (fun deg =>
        let calcDist := other_way long deg in
        let nextDepth := match l with n :: _ => td_depth n | [] => td_depth p end in
        obind (if chosen c j prevDepth (td_depth p) nextDepth
               then say (pierce_line calcDist (td_depth p) (td_time p)) else quiet (Ok tt)) (fun _ =>
        print_pierce c long prevDepth (S j) l))
    end.

  (** taupy/TauP_Pierce.py:92-118: one arrival *)
  Definition print_pierced (c : choice) (modelName : string) (a : arrival T) : out unit :=
    obind (quiet (getCommentLine modelName a)) (fun s =>
    obind (say s) (fun _ =>
    obind (quiet (longWayRound a)) (fun long =>
    obind (quiet (py_index (ar_pierce a) 0)) (fun first =>
    print_pierce c long (td_depth first) 0 (ar_pierce a))))).

  (** for all arrivals of a list, in order *)
  Fixpoint for_all_of (f : arrival T -> out unit) (l : list (arrival T)) : out unit :=
    match l with
    | [] => quiet (Ok tt)
    | a :: l => obind (f a) (fun _ => for_all_of f l)
    end.

  (** taupy/TauP_Pierce.py:90-118 *)
  Definition pierce_printResult (c : choice) (modelName : string) (s : ttime T) : out unit :=
    for_all_of (print_pierced c modelName) (tt_arrivals s).

  (** taupy/TauP_Path.py:126-127 *)
  Definition printDistRadius (calcDist radius : T) : out unit :=
    say (rjust 4 (fixed 2 calcDist) ++ "  " ++ rjust 4 (fixed 1 radius))%string.

  (** [np.interp(x, (x0, x1), (y0, y1))] for [x0 < x < x1] (library code) *)
  Definition np_interp (x x0 x1 y0 y1 : T) : T := n_div (y1 - y0) (x1 - x0) * (x - x0) + y0.

  (** taupy/TauP_Path.py:106-124: the rest of the loop over interpNum *)
  Fixpoint print_between (radius maxPathTime : T) (long : bool) (cur next : timedist T) (num : Z)
           (l : list Z) (calcTime calcDist : T) : out unit :=
    match l with
    | [] => quiet (Ok tt)
    | k :: l =>
        obind (quiet ((td_time next - td_time cur) / n_int num)) (fun dt =>
        let calcTime := calcTime + dt in
        if calcTime >? maxPathTime then quiet (Ok tt)
        else
          obind (quiet (td_distDeg next)) (fun nd =>
          obind (quiet (td_distDeg cur)) (fun cd =>
          obind (quiet ((nd - cd) / n_int num)) (fun dd =>
          let calcDist := if long then calcDist - dd else calcDist + dd in
          obind (quiet ((n_int k * (td_depth next - td_depth cur)) / n_int num)) (fun dz =>
          let calcDepth := td_depth cur + dz in
          obind (printDistRadius calcDist (radius - calcDepth)) (fun _ =>
          print_between radius maxPathTime long cur next num l calcTime calcDist)))))
        )
    end.

  (** taupy/TauP_Path.py:62-124: the loop over the points of a path.  [prev] is the point before,
      prevTimeDist stays TimeDist(0, 0, 0, 0).  Line 109 is only reached if calcDepth was not
      interpolated (line 97 has left the loop otherwise), so that prevDepth is the depth of the
      current point. *)
  Fixpoint print_path (radius maxPathTime maxPathInc rayParam : T) (long : bool)
           (prev : option (timedist T)) (l : list (timedist T)) : out unit :=
    match l with
    | [] => quiet (Ok tt)
    | cur :: l =>
        if td_dist cur <? n_0 then quiet (Raise RuntimeError)
        else
          obind (quiet (td_distDeg cur)) (fun cd =>
          if td_time cur >? maxPathTime then
            match prev with
            | Some pv =>
                if td_time pv <? maxPathTime then
                  obind (quiet (td_distDeg pv)) (fun pd =>
                  let calcDist := np_interp maxPathTime (td_time pv) (td_time cur) pd cd in
                  let calcDepth := np_interp maxPathTime (td_time pv) (td_time cur)
                                             (td_depth pv) (td_depth cur) in
                  printDistRadius (other_way long calcDist) (radius - calcDepth))
                else quiet (Ok tt)
            | None => quiet (Ok tt)
            end
          else
            let calcDist := other_way long cd in
            obind (printDistRadius calcDist (radius - td_depth cur)) (fun _ =>
            if td_time cur >=? maxPathTime then quiet (Ok tt)
            else
              obind (match l with
                     | next :: _ =>
                         if rayParam <>? n_0 then
                           obind (quiet (td_distDeg next)) (fun nd =>
                           if nd - cd >? maxPathInc then
                             obind (quiet ((nd - cd) / maxPathInc)) (fun x =>
                             let num := n_ceil x in
                             print_between radius maxPathTime long cur next num (zrange 1 num)
                                           (td_time cur) calcDist)
                           else quiet (Ok tt))
                         else quiet (Ok tt)
                     | [] => quiet (Ok tt)
                     end) (fun _ =>
              print_path radius maxPathTime maxPathInc rayParam long (Some cur) l)))
    end.

  (** taupy/TauP_Path.py:56-124: one arrival *)
  Definition print_pathed (radius maxPathTime maxPathInc : T) (modelName : string) (a : arrival T)
    : out unit :=
    obind (quiet (getCommentLine modelName a)) (fun s =>
    obind (say s) (fun _ =>
    obind (quiet (longWayRound a)) (fun long =>
    print_path radius maxPathTime maxPathInc (ar_rayParam a) long None (ar_path a)))).

  (** taupy/TauP_Path.py:54-124 *)
  Definition path_printResult (maxPathTime maxPathInc : T) (modelName : string) (s : ttime T) : out unit :=
    for_all_of (print_pathed (tm_radius (tt_tModDepth s)) maxPathTime maxPathInc modelName)
               (tt_arrivals s).
End Views.
Arguments mkChoice {T}.

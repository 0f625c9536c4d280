(** Model of taupy/SeismicPhase.py (construction of a phase and its arrival times)
    and of taupy/Arrival.py. *)
From Coq Require Import ZArith Bool List String Ascii Lia.
From Verif Require Import Base Num PyStr VelocityModel SlownessLayer SlownessModel TauModel Legs.
Import ListNotations.
Local Open Scope num_scope.

(** taupy/SeismicPhase.py:26-41 *)
Inductive action := TURN | REFLECTTOP | REFLECTBOT | TRANSUP | TRANSDOWN.

(** taupy/SeismicPhase.py:92-108, 576-586: one entry of the four parallel lists
    branchSeq, downGoing, waveType, legAction (they are always appended together;
    the extra [downGoing.append(True)] of line 612 is unreachable). *)
Record seg := mkSeg { sg_branch : Z; sg_down : bool; sg_isP : bool; sg_action : action }.

(** taupy/SeismicPhase.py:53-69, 92-108: the attributes changed by [parseName] *)
Record pstate (T : Type) := mkPS {
  ps_max : T; ps_min : T; ps_curr : Z; ps_end : action; ps_seq : list seg }.
Arguments mkPS {T}. Arguments ps_max {T}. Arguments ps_min {T}. Arguments ps_curr {T}.
Arguments ps_end {T}. Arguments ps_seq {T}.

(** taupy/SeismicPhase.py:51-114: a constructed phase.  [ph_tModId] is the identity
    of the TauModel object it was built from. *)
Record phase (T : Type) := mkPhase {
  ph_name : string; ph_purist : string; ph_legs : list string;
  ph_min : T; ph_max : T; ph_minIdx : Z; ph_maxIdx : Z;
  ph_sourceDepth : T; ph_tMod : tmodel T; ph_tModId : Z;
  ph_dist : list T; ph_time : list T; ph_rayParams : list T;
  ph_minDist : T; ph_maxDist : T; ph_seq : list seg }.
Arguments mkPhase {T}. Arguments ph_name {T}. Arguments ph_purist {T}. Arguments ph_legs {T}.
Arguments ph_min {T}. Arguments ph_max {T}. Arguments ph_minIdx {T}. Arguments ph_maxIdx {T}.
Arguments ph_sourceDepth {T}. Arguments ph_tMod {T}. Arguments ph_tModId {T}.
Arguments ph_dist {T}. Arguments ph_time {T}. Arguments ph_rayParams {T}.
Arguments ph_minDist {T}. Arguments ph_maxDist {T}. Arguments ph_seq {T}.

(** taupy/Arrival.py:14-34 (without the back reference to the phase) *)
Record arrival (T : Type) := mkArr {
  ar_time : T; ar_dist : T; ar_rayParam : T; ar_index : Z;
  ar_name : string; ar_purist : string; ar_sourceDepth : T;
  ar_takeoff : T; ar_incident : T;
  ar_pierce : list (timedist T); ar_path : list (timedist T) }.
Arguments mkArr {T}. Arguments ar_time {T}. Arguments ar_dist {T}. Arguments ar_rayParam {T}.
Arguments ar_index {T}. Arguments ar_name {T}. Arguments ar_purist {T}.
Arguments ar_sourceDepth {T}. Arguments ar_takeoff {T}. Arguments ar_incident {T}.
Arguments ar_pierce {T}. Arguments ar_path {T}.

(** taupy/SeismicPhase.py:45, 49 *)
Definition maxRefraction : Z := 20.
Definition maxDiffraction : Z := 60.

(** string comparisons used throughout [parseName] *)
Definition seq_ (a b : string) : bool := (a =? b)%string.
(** [s.startswith(p)]; [s in (l1, l2, ...)] *)
Definition sw (s p : string) : bool := str_startswith p s.
Definition one_of (s : string) (l : list string) : bool := existsb (seq_ s) l.

(** comparison of end actions (taupy/SeismicPhase.py:284 etc.) *)
Definition act_eqb (a b : action) : bool :=
  match a, b with
  | TURN, TURN | REFLECTTOP, REFLECTTOP | REFLECTBOT, REFLECTBOT
  | TRANSUP, TRANSUP | TRANSDOWN, TRANSDOWN => true
  | _, _ => false
  end.

Section Parse.
  Context {T : Type} {N : Num T} {L : Libm T}.
  (** [str(x)] of a float *)
  Variable show : T -> string.

  (** [float(leg)] (taupy/SeismicPhase.py:135, 222, 1078).  Legs produced by
      [legPuller] are one character, two characters ending in g, b or n, Pdiff,
      Sdiff or END: among those exactly the single digits are numbers. *)
  Definition leg_float (s : string) : option T :=
    match s with
    | String c EmptyString =>
        if is_digit c then Some (n_int (Z.of_nat (nat_of_ascii c) - 48)) else None
    | _ => None
    end.

  (** taupy/SeismicPhase.py:1079-1083; [w] is TauModel.noDisconDepths *)
  Fixpoint closest_discon (w : list T) (depth : T) (i : Z) (l : list (tbranch T))
           (best : Z) (max : T) : Z :=
    match l with
    | [] => best
    | b :: l =>
        if (n_abs (depth - tb_top b) <? max)
           && negb (existsb (fun ndc => ndc =? tb_top b) w)
        then closest_discon w depth (i + 1) l i (n_abs (depth - tb_top b))
        else closest_discon w depth (i + 1) l best max
    end.

  (** taupy/SeismicPhase.py:1064-1084 *)
  Definition closestBranchToDepth (w : list T) (t : tmodel T) (s : string) : result Z :=
    if seq_ s "m" then Ok (tm_mohoBranch t)
    else if seq_ s "c" then Ok (tm_cmbBranch t)
    else if seq_ s "i" then Ok (tm_iocbBranch t)
    else match leg_float s with
         | None => Raise ValueError
         | Some d => Ok (closest_discon w d 0 (tm_P t) (-1) (n_lit 1 300))
         end.

  (** [leg[1]] as a one character string *)
  Definition second_char (s : string) : result string :=
    let! c := str_get s 1 in Ok (str1 c).

  (** taupy/SeismicPhase.py:125-142: one leg of the purist name *)
  Definition purist_leg (w : list T) (t : tmodel T) (leg : string) : result string :=
    if sw leg "v" || sw leg "^" then
      let! d := second_char leg in
      let! i := closestBranchToDepth w t d in
      let! b := py_index (tm_P t) i in
      let! c := str_get leg 0 in
      Ok (String c (show (tb_top b)))
    else
      match leg_float leg with
      | Some _ => let! i := closestBranchToDepth w t leg in
                  let! b := py_index (tm_P t) i in Ok (show (tb_top b))
      | None => Ok leg
      end.

  (** taupy/SeismicPhase.py:116-143 *)
  Definition createPuristName (w : list T) (t : tmodel T) (name : string) (legs : list string)
    : result string :=
    let! first := py_index legs 0 in
    if (List.length legs =? 2)%nat && str_endswith "kmps" first then Ok name
    else let! l := mapM (purist_leg w t) (removelast legs) in Ok (str_concat l).

  (** taupy/SeismicPhase.py:533-587; startBranch is self.currBranch in every call *)
  Definition addToBranch (t : tmodel T) (s : pstate T) (endB : Z) (isP : bool) (act : action)
    : result (pstate T) :=
    let! b := getTauBranch t endB isP in
    let '(off, down, mx, mn) :=
      match act with
      | TURN => (0%Z, true, ps_max s, py_max (ps_min s) (tb_minTurnRP b))
      | REFLECTTOP => (0%Z, false, py_min (ps_max s) (tb_maxRP b), ps_min s)
      | REFLECTBOT => (0%Z, true, py_min (ps_max s) (tb_minTurnRP b), ps_min s)
      | TRANSUP => ((-1)%Z, false, py_min (ps_max s) (tb_maxRP b), ps_min s)
      | TRANSDOWN => (1%Z, true, py_min (ps_max s) (tb_minRP b), ps_min s)
      end in
    let nums := if down then zrange (ps_curr s) (endB + 1) else zrange_down (ps_curr s) (endB - 1) in
    Ok (mkPS mx mn (endB + off) act
             (ps_seq s ++ map (fun i => mkSeg i down isP act) nums)).

  (** taupy/SeismicPhase.py:499-531 *)
  Definition phaseConversion (t : tmodel T) (s : pstate T) (from : Z) (isPtoS : bool)
    : result (pstate T) :=
    let put a b := Ok (mkPS (py_min (py_min (ps_max s) a) b) (ps_min s) (ps_curr s) (ps_end s)
                            (ps_seq s)) in
    match ps_end s with
    | TURN => Raise TauModelError
    | REFLECTTOP => let! a := getTauBranch t from isPtoS in
                    let! b := getTauBranch t from (negb isPtoS) in
                    put (tb_maxRP a) (tb_maxRP b)
    | REFLECTBOT => let! a := getTauBranch t from isPtoS in
                    let! b := getTauBranch t from (negb isPtoS) in
                    put (tb_minTurnRP a) (tb_minTurnRP b)
    | TRANSUP => let! a := getTauBranch t from isPtoS in
                 let! b := getTauBranch t (from - 1) (negb isPtoS) in
                 put (tb_maxRP a) (tb_minTurnRP b)
    | TRANSDOWN => let! a := getTauBranch t from isPtoS in
                   let! b := getTauBranch t (from + 1) (negb isPtoS) in
                   put (tb_minRP a) (tb_maxRP b)
    end.

  (** Result of one leg: go on with the loop, or [return] from [parseName]. *)
  Inductive legres := Next (s : pstate T) | Return (s : pstate T).

  (** [self.maxRayParam = -1; return] (taupy/SeismicPhase.py:378-379, 408-409 ...) *)
  Definition no_phase (s : pstate T) : legres :=
    Return (mkPS (n_lit (-1) 0) (ps_min s) (ps_curr s) (ps_end s) (ps_seq s)).

  (** [let! s := ... in Ok (Next s)] *)
  Definition next (r : result (pstate T)) : result legres := let! s := r in Ok (Next s).

  (** taupy/SeismicPhase.py:248-280: leg p, s or k *)
  Definition leg_up (w : list T) (t : tmodel T) (s : pstate T) (isP : bool)
             (curr nxt : string) (nextDepth : bool) : result legres :=
    if sw nxt "v" then Raise TauModelError
    else if sw nxt "^" then
      let! d := second_char nxt in
      let! i := closestBranchToDepth w t d in
      if (i <=? ps_curr s)%Z then next (addToBranch t s i isP REFLECTTOP) else Raise TauModelError
    else if seq_ nxt "m" && (tm_mohoBranch t <=? ps_curr s)%Z then
      next (addToBranch t s (tm_mohoBranch t) isP TRANSUP)
    else if sw nxt "P" || sw nxt "S" || seq_ nxt "K" || seq_ nxt "END" then
      let i := if seq_ nxt "K" then tm_cmbBranch t else 0%Z in
      next (addToBranch t s i isP
              (if seq_ curr "k" && negb (seq_ nxt "K") then TRANSUP else REFLECTTOP))
    else if nextDepth then
      let! i := closestBranchToDepth w t nxt in next (addToBranch t s i isP TRANSUP)
    else Raise TauModelError.

  (** taupy/SeismicPhase.py:282-388: leg P or S.  [rest] = the legs after nextLeg. *)
  Definition leg_PS (w : list T) (t : tmodel T) (s : pstate T) (isP : bool)
             (prev nxt : string) (nextDepth : option T) (rest : list string) : result legres :=
    if one_of nxt ["P"; "S"; "Pn"; "Sn"; "END"]%string then
      let! s := if act_eqb (ps_end s) TRANSDOWN || act_eqb (ps_end s) REFLECTTOP
                then addToBranch t s (tm_cmbBranch t - 1) isP TURN else Ok s in
      next (addToBranch t s 0 isP REFLECTTOP)
    else if sw nxt "v" then
      let! d := second_char nxt in
      let! i := closestBranchToDepth w t d in
      if (ps_curr s <=? i - 1)%Z then next (addToBranch t s (i - 1) isP REFLECTBOT)
      else Raise TauModelError
    else if sw nxt "^" then
      let! d := second_char nxt in
      let! i := closestBranchToDepth w t d in
      if seq_ prev "K" then next (addToBranch t s i isP REFLECTTOP)
      else if sw prev "^" || one_of prev ["P"; "S"; "p"; "s"; "START"]%string then
        let! s := addToBranch t s (tm_cmbBranch t - 1) isP TURN in
        next (addToBranch t s i isP REFLECTTOP)
      else
        let! below :=
          if sw prev "v" then
            let! d := second_char prev in
            let! j := closestBranchToDepth w t d in Ok (i <? j)%Z
          else Ok ((seq_ prev "m" && (i <? tm_mohoBranch t)%Z)
                   || (seq_ prev "c" && (i <? tm_cmbBranch t)%Z)) in
        if below then next (addToBranch t s i isP REFLECTTOP) else Raise TauModelError
    else if seq_ nxt "c" then next (addToBranch t s (tm_cmbBranch t - 1) isP REFLECTBOT)
    else if seq_ nxt "K" then next (addToBranch t s (tm_cmbBranch t - 1) isP TRANSDOWN)
    else if seq_ nxt "m"
            || match nextDepth with Some d => d <? tm_cmbDepth t | None => false end then
      let! i := closestBranchToDepth w t nxt in
      if act_eqb (ps_end s) TURN || act_eqb (ps_end s) REFLECTBOT || act_eqb (ps_end s) TRANSUP
      then
        if (ps_curr s <? i)%Z then Raise TauModelError
        else next (addToBranch t s i isP TRANSUP)
      else
        let! nn := py_index rest 0 in
        if seq_ nn "p" || seq_ nn "s" then
          let! s := addToBranch t s (tm_cmbBranch t - 1) isP TURN in
          next (addToBranch t s i isP TRANSUP)
        else if seq_ nn "P" || seq_ nn "S" then
          if (ps_curr s <? i)%Z then next (addToBranch t s (i - 1) isP TRANSDOWN)
          else Ok (no_phase s)
        else Raise TauModelError
    else Raise TauModelError.

  (** taupy/SeismicPhase.py:389-451: longer legs starting with P or S *)
  Definition leg_long (t : tmodel T) (s : pstate T) (isP : bool) (curr nxt : string)
    : result legres :=
    let ends := seq_ nxt "END" || sw nxt "P" || sw nxt "S" in
    if seq_ curr "Pdiff" || seq_ curr "Sdiff" then
      let! b := getTauBranch t (tm_cmbBranch t - 1) isP in
      if (ps_max s >=? tb_minTurnRP b) && (tb_minTurnRP b >=? ps_min s) then
        let! s := addToBranch t s (tm_cmbBranch t - 1) isP TURN in
        let s := mkPS (ps_min s) (ps_min s) (ps_curr s) (ps_end s) (ps_seq s) in
        if ends then next (addToBranch t s 0 isP REFLECTTOP) else Ok (Next s)
      else Ok (no_phase s)
    else if one_of curr ["Pg"; "Sg"; "Pn"; "Sn"]%string then
      if (tm_mohoBranch t <=? ps_curr s)%Z then Ok (no_phase s)
      else if seq_ curr "Pg" || seq_ curr "Sg" then
        let! s := addToBranch t s (tm_mohoBranch t - 1) isP TURN in
        next (addToBranch t s 0 isP REFLECTTOP)
      else
        let! b := getTauBranch t (tm_mohoBranch t) isP in
        if (ps_max s >=? tb_maxRP b) && (tb_maxRP b >=? ps_min s) then
          let! s := addToBranch t s (tm_mohoBranch t) isP TURN in
          let! s := addToBranch t s (tm_mohoBranch t) isP TRANSUP in
          let s := mkPS (ps_max s) (ps_max s) (ps_curr s) (ps_end s) (ps_seq s) in
          if ends then next (addToBranch t s 0 isP REFLECTTOP) else Ok (Next s)
        else Ok (no_phase s)
    else Raise TauModelError.

  (** taupy/SeismicPhase.py:452-479: leg K *)
  Definition leg_K (t : tmodel T) (s : pstate T) (isP : bool) (prev nxt : string)
    : result legres :=
    let turn (l : list string) :=
      if one_of prev l then addToBranch t s (tm_iocbBranch t - 1) isP TURN else Ok s in
    if seq_ nxt "P" || seq_ nxt "S" then
      let! s := turn ["P"; "S"; "K"; "k"; "START"]%string in
      next (addToBranch t s (tm_cmbBranch t) isP TRANSUP)
    else if seq_ nxt "K" then
      let! s := turn ["P"; "S"; "K"]%string in
      next (addToBranch t s (tm_cmbBranch t) isP REFLECTTOP)
    else if seq_ nxt "I" || seq_ nxt "J" then
      next (addToBranch t s (tm_iocbBranch t - 1) isP TRANSDOWN)
    else if seq_ nxt "i" then
      next (addToBranch t s (tm_iocbBranch t - 1) isP REFLECTBOT)
    else Raise TauModelError.

  (** taupy/SeismicPhase.py:480-489: leg I or J *)
  Definition leg_IJ (t : tmodel T) (s : pstate T) (isP : bool) (nxt : string) : result legres :=
    let! s := addToBranch t s (Z.of_nat (List.length (tm_P t)) - 1) isP TURN in
    if seq_ nxt "I" || seq_ nxt "J" then next (addToBranch t s (tm_iocbBranch t) isP REFLECTTOP)
    else if seq_ nxt "K" then next (addToBranch t s (tm_iocbBranch t) isP TRANSUP)
    else Ok (Next s).

  (** taupy/SeismicPhase.py:229-242: wave type of a leg *)
  Definition leg_wave (isP : bool) (curr : string) : bool :=
    if seq_ curr "p" || sw curr "P" || seq_ curr "k" || seq_ curr "I" then true
    else if seq_ curr "s" || sw curr "S" || seq_ curr "J" then false
    else isP.

  (** taupy/SeismicPhase.py:243-497: the body of the loop over the legs.  The
      comparisons [currLeg.startswith == "^"] of lines 491-492 are always False. *)
  Definition parse_leg (w : list T) (t : tmodel T) (s : pstate T) (isPPrev isP legDepth : bool)
             (prev curr nxt : string) (rest : list string) : result legres :=
    let nextDepth := leg_float nxt in
    let! s := match rev (ps_seq s) with
              | last :: _ => if negb (Bool.eqb isPPrev isP)
                             then phaseConversion t s (sg_branch last) isPPrev else Ok s
              | [] => Ok s
              end in
    if seq_ curr "p" || seq_ curr "s" || seq_ curr "k"
    then leg_up w t s isP curr nxt (match nextDepth with Some _ => true | None => false end)
    else if seq_ curr "P" || seq_ curr "S" then leg_PS w t s isP prev nxt nextDepth rest
    else if sw curr "P" || sw curr "S" then leg_long t s isP curr nxt
    else if seq_ curr "K" then leg_K t s isP prev nxt
    else if seq_ curr "I" || seq_ curr "J" then leg_IJ t s isP nxt
    else if one_of curr ["m"; "c"; "i"]%string || legDepth then Ok (Next s)
    else Raise TauModelError.

  (** taupy/SeismicPhase.py:215-497: the loop; [rest] = legs after [curr] *)
  Fixpoint parse_go (w : list T) (t : tmodel T) (rest : list string) (prev curr : string)
           (isP legDepth : bool) (s : pstate T) : result (pstate T) :=
    match rest with
    | [] => Ok s
    | nxt :: rest =>
        let isP' := leg_wave isP curr in
        let! r := parse_leg w t s isP isP' legDepth prev curr nxt rest in
        match r with
        | Return s => Ok s
        | Next s => parse_go w t rest curr nxt isP'
                             (match leg_float nxt with Some _ => true | None => false end) s
        end
    end.

  (** taupy/SeismicPhase.py:161-165: wave type of the first leg *)
  Definition first_wave (curr : string) : bool :=
    if seq_ curr "p" || sw curr "P" || seq_ curr "K" || seq_ curr "k" then true
    else if seq_ curr "s" || sw curr "S" || seq_ curr "J" then false
    else true.

  (** taupy/SeismicPhase.py:145-497 ([expert] is False).  [None]: surface wave, the
      ray parameter attributes stay None. *)
  Definition parseName (w : list T) (t : tmodel T) (name : string) (legs : list string)
    : result (option (pstate T)) :=
    let! first := py_index legs 0 in
    if (List.length legs =? 2)%nat && str_endswith "kmps" first then Ok None
    else if str_in "J" name && negb (sm_allowInnerCoreS (tm_sMod t)) then Raise TauModelError
    else
      let isP := first_wave first in
      let m1 := n_lit (-1) 0 in
      let none := Ok (Some (mkPS m1 m1 0 REFLECTTOP [])) in
      if (sw first "s" || sw first "S")
         && (tm_cmbDepth t <? tm_sourceDepth t) && (tm_sourceDepth t <? tm_iocbDepth t)
      then none
      else
        let sb := tm_sourceBranch t in
        let start (curr : Z) :=
          let! mx := if (sb =? 0)%Z
                     then let! b := getTauBranch t sb isP in Ok (tb_maxRP b)
                     else let! a := getTauBranch t (sb - 1) isP in
                          let! b := getTauBranch t sb isP in
                          Ok (py_max (tb_minTurnRP a) (tb_maxRP b)) in
          let! s := parse_go w t (List.tl legs) "START" first isP false
                             (mkPS mx n_0 curr TRANSDOWN []) in
          Ok (Some s) in
        if sw first "P" || sw first "S" then start sb
        else if seq_ first "p" || seq_ first "s" then
          if (sb =? 0)%Z then none else start (sb - 1)%Z
        else Raise TauModelError.

  (** taupy/SeismicPhase.py:616-620: index of the last sample >= p, or -1 *)
  Fixpoint last_ge (p : T) (i : Z) (l : list T) (found : Z) : Z :=
    match l with
    | [] => found
    | r :: l => last_ge p (i + 1) l (if r >=? p then i else found)
    end.

  (** taupy/SeismicPhase.py:642-650 *)
  Definition count_branches (n : nat) (isP : bool) (l : list seg) : result (list Z) :=
    foldM (fun acc s => if Bool.eqb (sg_isP s) isP
                        then let! c := py_index acc (sg_branch s) in
                             py_setitem acc (sg_branch s) (c + 1)%Z
                        else Ok acc)
          l (repeat 0%Z n).

  (** taupy/SeismicPhase.py:656-659 for one of dist, time: add [k] times a branch *)
  Definition add_times (k : Z) (src : list T) (lo hi : Z) (acc : list T) : result (list T) :=
    if (k =? 0)%Z then Ok acc
    else foldM (fun acc i =>
                  let! a := py_index acc (i - lo) in
                  let! b := py_index src i in
                  py_setitem acc (i - lo) (a + n_int k * b))
               (zrange lo (hi + 1)) acc.

  (** taupy/SeismicPhase.py:652-664; [f] selects dist or time.  (The source updates
      dist and time in the same loop.) *)
  Definition sum_branch_list (f : tbranch T -> list T) (lo hi : Z)
             (l : list ((Z * Z) * (tbranch T * tbranch T))) (acc : list T) : result (list T) :=
    foldM (fun acc '((k, ks), (b, bs)) =>
             let! acc := add_times k (f b) lo hi acc in
             add_times ks (f bs) lo hi acc) l acc.

  (** [min(l)] / [max(l)] *)
  Definition list_min (l : list T) : result T :=
    match l with [] => Raise ValueError | a :: l => Ok (fold_left py_min l a) end.
  Definition list_max (l : list T) : result T :=
    match l with [] => Raise ValueError | a :: l => Ok (fold_left py_max l a) end.

  (** [l.index(x)] *)
  Fixpoint list_index (x : T) (i : Z) (l : list T) : result Z :=
    match l with
    | [] => Raise ValueError
    | a :: l => if a =? x then Ok i else list_index x (i + 1) l
    end.

  (** taupy/SeismicPhase.py:706-717: does a downgoing leg of this wave type cross
      the top of branch [n]?  (Index -1 is the last leg.) *)
  Definition crosses (l : list seg) (n : Z) (isP : bool) : bool :=
    let hit (s : seg) (n : Z) :=
      (sg_branch s =? n)%Z && Bool.eqb (sg_isP s) isP && sg_down s in
    match rev l with
    | [] => false
    | last :: _ => existsb (fun '(prev, s) => hit s n && hit prev (n - 1)%Z)
                           (combine (last :: l) l)
    end.

  (** taupy/SeismicPhase.py:725-744 for one of dist, time: value just above the
      zone; [k] = maxRayParamIndex + hszIndex - indexOffset *)
  Definition above_zone (f : tbranch T -> list T) (top : T) (k : Z)
             (l : list ((Z * Z) * (tbranch T * tbranch T))) : result T :=
    foldM (fun acc '((n, ns), (b, bs)) =>
             let! acc := if negb (n =? 0)%Z && (tb_top b <? top)
                         then let! x := py_index (f b) k in Ok (acc + n_int n * x)
                         else Ok acc in
             if negb (ns =? 0)%Z && (tb_top bs <? top)
             then let! x := py_index (f bs) k in Ok (acc + n_int ns * x)
             else Ok acc) l n_0.

  (** the arrays being extended and indexOffset (taupy/SeismicPhase.py:698) *)
  Record shstate := mkSh { sh_dist : list T; sh_time : list T; sh_rp : list T; sh_off : Z }.

  (** taupy/SeismicPhase.py:700-751: one high slowness zone *)
  Definition shadow_step (t : tmodel T) (s : pstate T) (maxIdx : Z) (isP : bool)
             (l : list ((Z * Z) * (tbranch T * tbranch T)))
             (st : shstate) (z : drange T) : result shstate :=
    if (ps_max s >? dr_rayParam z) && (dr_rayParam z >? ps_min s) then
      let! n := findBranch t (dr_top z) in
      if crosses (ps_seq s) n isP then
        let! k := list_index (dr_rayParam z) 0 (sh_rp st) in
        let ins (l : list T) (x : T) :=
          (py_slice l 0 k ++ x :: py_slice l k (Z.of_nat (List.length l)))%list in
        let j := (maxIdx + k - sh_off st)%Z in
        let! d := above_zone tb_dist (dr_top z) j l in
        let! tm := above_zone tb_time (dr_top z) j l in
        Ok (mkSh (ins (sh_dist st) d) (ins (sh_time st) tm) (ins (sh_rp st) (dr_rayParam z))
                 (sh_off st + 1))
      else Ok st
    else Ok st.

  (** taupy/SeismicPhase.py:665-687: diffracted and head waves.  [None]: no phase. *)
  Definition sum_special (t : tmodel T) (name : string) (s : pstate T) (maxIdx minIdx : Z)
             (dist time : list T) : result (option (list T * list T)) :=
    if str_in "Sdiff" name || str_in "Pdiff" name then
      let! c := str_get name 0 in
      if depthInHighSlowness (tm_sMod t) (tm_cmbDepth t - n_lit 1 (-10)) (ps_min s)
                             (Ascii.eqb c "P")
      then Ok None
      else
        let! e := (n_int maxDiffraction * m_pi) / n_int 180 in
        let! d0 := py_index dist 0 in
        let! dist := py_setitem dist 1 (d0 + e) in
        let! t0 := py_index time 0 in
        let! time := py_setitem time 1 (t0 + e * ps_min s) in
        Ok (Some (dist, time))
    else if str_in "Pn" name || str_in "Sn" name then
      let! e := (n_int maxRefraction * m_pi) / n_int 180 in
      let! d0 := py_index dist 0 in
      let! dist := py_setitem dist 1 (d0 + e) in
      let! t0 := py_index time 0 in
      let! time := py_setitem time 1 (t0 + e) in
      Ok (Some (dist, time))
    else if (maxIdx =? minIdx)%Z then
      let! d0 := py_index dist 0 in
      let! dist := py_setitem dist 1 d0 in
      let! t0 := py_index time 0 in
      let! time := py_setitem time 1 t0 in
      Ok (Some (dist, time))
    else Ok (Some (dist, time)).

  (** taupy/SeismicPhase.py:621-638 *)
  Definition phase_rayParams (t : tmodel T) (s : pstate T) (maxIdx minIdx : Z) : list T :=
    if (maxIdx =? 0)%Z && (minIdx =? Z.of_nat (List.length (tm_rayParams t)) - 1)%Z
    then tm_rayParams t
    else if (maxIdx =? minIdx)%Z then [ps_min s; ps_min s]
    else py_slice (tm_rayParams t) maxIdx (minIdx + 1).

  (** taupy/SeismicPhase.py:51-114 and 589-751.  For a surface wave ("kmps")
      maxRayParam is None and the comparison of line 591 raises TypeError (Python 3);
      lines 601-613, 630-631 are therefore unreachable. *)
  Definition newPhase (w : list T) (t : tmodel T) (tid : Z) (name : string) : result (phase T) :=
    let! legs := legPuller name in
    let! purist := createPuristName w t name legs in
    let! o := parseName w t name legs in
    match o with
    | None => Raise TypeError
    | Some s =>
        let m1 := n_lit (-1) 0 in
        let none minI maxI mind :=
          Ok (mkPhase name purist legs m1 m1 minI maxI (tm_sourceDepth t) t tid
                      [] [] [] mind m1 (ps_seq s)) in
        if (ps_max s <? n_0) || (ps_min s >? ps_max s)
        then none (-1)%Z (-1)%Z n_0
        else
          let minIdx := last_ge (ps_min s) 0 (tm_rayParams t) (-1) in
          let maxIdx := last_ge (ps_max s) 0 (tm_rayParams t) (-1) in
          let rps := phase_rayParams t s maxIdx minIdx in
          let zero := repeat n_0 (List.length rps) in
          let! nP := count_branches (List.length (tm_P t)) true (ps_seq s) in
          let! nS := count_branches (List.length (tm_P t)) false (ps_seq s) in
          let l := combine (combine nP nS) (combine (tm_P t) (tm_S t)) in
          let! dist := sum_branch_list tb_dist maxIdx minIdx l zero in
          let! time := sum_branch_list tb_time maxIdx minIdx l zero in
          let! sp := sum_special t name s maxIdx minIdx dist time in
          match sp with
          | None => none minIdx maxIdx n_0
          | Some (dist, time) =>
              let! mind := list_min dist in
              let! maxd := list_max dist in
              let! st := foldM (shadow_step t s maxIdx true l) (sm_hiP (tm_sMod t))
                               (mkSh dist time rps 0) in
              let! st := foldM (shadow_step t s maxIdx false l) (sm_hiS (tm_sMod t))
                               (mkSh (sh_dist st) (sh_time st) (sh_rp st) 0) in
              Ok (mkPhase name purist legs (ps_min s) (ps_max s) minIdx maxIdx
                          (tm_sourceDepth t) t tid
                          (sh_dist st) (sh_time st) (sh_rp st) mind maxd (ps_seq s))
          end
    end.
End Parse.

Section Times.
  Context {T : Type} {N : Num T} {L : Libm T}.

  (** taupy/SeismicPhase.py:762-763 *)
  Definition wrap360 (fuel : nat) (x : T) : result T :=
    while fuel (fun x => if x >? n_int 360 then Ok (inl (x - n_int 360)) else Ok (inr x)) x.

  (** taupy/SeismicPhase.py:760-765 *)
  Definition foldDegrees (fuel : nat) (degrees : T) : result T :=
    let! x := wrap360 fuel (n_abs degrees) in
    Ok (if x >? n_int 180 then n_int 360 - x else x).

  (** taupy/SeismicPhase.py:1026-1057 *)
  Definition linearInterpArrival (ph : phase T) (search : T) (rayNum : Z) : result (arrival T) :=
    let! d0 := py_index (ph_dist ph) rayNum in
    let! d1 := py_index (ph_dist ph) (rayNum + 1) in
    let! t0 := py_index (ph_time ph) rayNum in
    let! t1 := py_index (ph_time ph) (rayNum + 1) in
    let! p0 := py_index (ph_rayParams ph) rayNum in
    let! p1 := py_index (ph_rayParams ph) (rayNum + 1) in
    let! ratio := (search - d0) / (d1 - d0) in
    let time := ratio * (t1 - t0) + t0 in
    let! q := ((search - d1) * (p0 - p1)) / (d0 - d1) in
    let rp := q + p1 in
    let! '(takeoff, incident) :=
      if str_endswith "kmps" (ph_name ph) then Ok (n_0, n_0)
      else
        let vMod := sm_vMod (tm_sMod (ph_tMod ph)) in
        let! c := str_get (ph_name ph) 0 in
        let! first := py_index (ph_seq ph) 0 in
        let! v := if sg_down first
                  then evaluateBelow vMod (ph_sourceDepth ph) (str1 c)
                  else let! v := evaluateAbove vMod (ph_sourceDepth ph) (str1 c) in
                       Ok (n_int (-1) * v) in
        let! k := n_int 180 / m_pi in
        let! x := (v * rp) / (tm_radius (ph_tMod ph) - ph_sourceDepth ph) in
        let! a := m_asin x in
        let! leg := py_index (ph_legs ph) (-2) in
        let! lc := str_get leg 0 in
        let! v := evaluateBelow vMod n_0 (str1 lc) in
        let! y := (v * rp) / tm_radius (ph_tMod ph) in
        let! b := m_asin y in
        Ok (k * a, k * b) in
    Ok (mkArr time search rp rayNum (ph_name ph) (ph_purist ph) (ph_sourceDepth ph)
              takeoff incident [] []).

  (** taupy/SeismicPhase.py:780-794 (and 800-814): is there an arrival between
      samples rayNum and rayNum + 1 ? *)
  Definition ray_hits (ph : phase T) (search : T) (rayNum : Z) : result bool :=
    let n := Z.of_nat (List.length (ph_dist ph)) in
    let! d0 := py_index (ph_dist ph) rayNum in
    let! d1 := py_index (ph_dist ph) (rayNum + 1) in
    if (search =? d1) && negb (rayNum + 1 =? n - 1)%Z then Ok false
    else if (d0 - search) * (search - d1) >=? n_0 then
      let! p0 := py_index (ph_rayParams ph) rayNum in
      let! p1 := py_index (ph_rayParams ph) (rayNum + 1) in
      Ok (negb ((p0 =? p1) && (2 <? Z.of_nat (List.length (ph_rayParams ph)))%Z))
    else Ok false.

  (** taupy/SeismicPhase.py:779-794: all arrivals at one search distance *)
  Definition search_dist (ph : phase T) (search : T) (acc : list (arrival T))
    : result (list (arrival T)) :=
    foldM (fun acc rayNum =>
             let! hit := ray_hits ph search rayNum in
             if hit then let! a := linearInterpArrival ph search rayNum in Ok (acc ++ [a])%list
             else Ok acc)
          (zrange 0 (Z.of_nat (List.length (ph_dist ph)) - 1)) acc.

  (** taupy/SeismicPhase.py:775-815: one lap; [skip] = (tempDeg == 180) *)
  Definition lap (ph : phase T) (rad : T) (skip : bool) (st : Z * list (arrival T))
    : result ((Z * list (arrival T)) + list (arrival T)) :=
    let '(n, acc) := st in
    let s1 := n_int (n * 2) * m_pi + rad in
    if s1 <=? ph_maxDist ph then
      let! acc := search_dist ph s1 acc in
      let s2 := n_int ((n + 1) * 2) * m_pi - rad in
      let! acc := if skip then Ok acc else search_dist ph s2 acc in
      Ok (inl ((n + 1)%Z, acc))
    else Ok (inr acc).

  (** taupy/SeismicPhase.py:753-817 *)
  Definition ph_calcTime (fuel : nat) (ph : phase T) (degrees : T) : result (list (arrival T)) :=
    let! x := foldDegrees fuel degrees in
    let! rad := (x * m_pi) / n_int 180 in
    while fuel (lap ph rad (x =? n_int 180)) (0%Z, []).

  (** taupy/Arrival.py:77-78 *)
  Definition ar_distDeg (a : arrival T) : result T := (ar_dist a * n_int 180) / m_pi.

  (** taupy/Arrival.py:67-75 *)
  Definition ar_moduloDistDeg (a : arrival T) : result T :=
    let! k := n_int 180 / m_pi in
    let! x := m_mod (k * ar_dist a) (n_int 360) in
    Ok (if x >? n_int 180 then n_int 360 - x else x).

  (** taupy/Arrival.py:40-45 *)
  Definition rayParam_sec_degree (a : arrival T) : result T :=
    (ar_rayParam a * m_pi) / n_int 180.

  (** taupy/Arrival.py:47-49 *)
  Definition purist_distance (a : arrival T) : result T := (ar_dist a * n_int 180) / m_pi.
End Times.

(** Model of the pierce point and ray path part of taupy/SeismicPhase.py and of
    taupy/Arrival.py getters. *)
From Coq Require Import ZArith Bool List String Ascii Lia.
From Verif Require Import Base Num PyStr VelocityModel SlownessLayer SlownessModel TauModel Legs
  SeismicPhase.
Import ListNotations.
Local Open Scope num_scope.

Section Pierce.
  Context {T : Type} {N : Num T} {L : Libm T}.

  (** taupy/SeismicPhase.py:887, 909 *)
  Definition is_head_or_diff (name : string) : bool :=
    str_in "Pdiff" name || str_in "Pn" name || str_in "Sdiff" name || str_in "Sn" name.

  (** taupy/SeismicPhase.py:840-845: last index before the first sample < p *)
  Fixpoint first_run_ge (p : T) (i : Z) (l : list T) (found : Z) : Z :=
    match l with
    | [] => found
    | r :: l => if r >=? p then first_run_ge p (i + 1) l i else found
    end.

  (** taupy/SeismicPhase.py:870-886 *)
  Definition turnDepth_of (t : tmodel T) (b : tbranch T) (isP : bool) (p : T) : result T :=
    if p >? tb_maxRP b then Ok (tb_top b)
    else if p <=? tb_minRP b then Ok (tb_bot b)
    else
      let! fluid := if isP then Ok true
                    else let! mid := (tb_top b + tb_bot b) / n_2 in
                         Ok (depthInFluid (tm_sMod t) mid) in
      findDepth_from_depths (tm_sMod t) p (tb_top b) (tb_bot b) (if fluid then true else isP).

  (** state of the loop of taupy/SeismicPhase.py:857-908 *)
  Record pcstate := mkPC { pc_dist : T; pc_time : T; pc_out : list (timedist T) }.

  (** taupy/SeismicPhase.py:863-908: one branch of the sequence *)
  Definition pierce_step (t : tmodel T) (headdiff : bool) (rayNum : Z) (ratio p : T)
             (st : pcstate) (s : seg) : result pcstate :=
    let! b := getTauBranch t (sg_branch s) (sg_isP s) in
    let! turn := turnDepth_of t b (sg_isP s) p in
    let! dA := py_index (tb_dist b) rayNum in
    let! tA := py_index (tb_time b) rayNum in
    let! '(dB, tB) := if headdiff then Ok (dA, tA)
                      else let! dB := py_index (tb_dist b) (rayNum + 1) in
                           let! tB := py_index (tb_time b) (rayNum + 1) in Ok (dB, tB) in
    let dist := pc_dist st + (ratio * (dB - dA) + dA) in
    let time := pc_time st + (ratio * (tB - tA) + tA) in
    let depth := if sg_down s then py_min (tb_bot b) turn else py_min (tb_top b) turn in
    Ok (mkPC dist time
             (if n_abs (pc_time st - time) >? n_lit 1 (-10)
              then pc_out st ++ [mkTD p time dist depth] else pc_out st)).

  (** taupy/SeismicPhase.py:996-1006 *)
  Definition head_segment (name : string) : result string :=
    match find (fun ps => str_in ps name) ["Pn"; "Sn"; "Pdiff"; "Sdiff"]%string with
    | Some ps => Ok ps
    | None => Raise TauModelError
    end.

  (** taupy/SeismicPhase.py:1009-1024; state = (j, out) *)
  Definition head_step (headDepth refractTime refractDist : T) (n : Z)
             (st : Z * list (timedist T)) (td : timedist T) : result (Z * list (timedist T)) :=
    let '(j, out) := st in
    let at_j (j : Z) :=
      let! a := (n_int j * refractTime) / n_int n in
      let! b := (n_int j * refractDist) / n_int n in
      Ok (mkTD (td_p td) (td_time td + a) (td_dist td + b) (td_depth td)) in
    let! x := at_j j in
    if td_depth td =? headDepth then
      let! y := at_j (j + 1)%Z in Ok ((j + 1)%Z, (out ++ [x; y])%list)
    else Ok (j, (out ++ [x])%list).

  (** taupy/SeismicPhase.py:989-1024 *)
  Definition handleHeadOrDiffractedWave (ph : phase T) (a : arrival T) (orig : list (timedist T))
    : result (list (timedist T)) :=
    let! ps := head_segment (ph_name ph) in
    let headDepth := if one_of ps ["Pn"; "Sn"]%string then tm_mohoDepth (ph_tMod ph)
                     else tm_cmbDepth (ph_tMod ph) in
    let n := Z.of_nat (str_count ps (ph_name ph)) in
    let! d0 := py_index (ph_dist ph) 0 in
    let refractDist := ar_dist a - d0 in
    let refractTime := refractDist * ar_rayParam a in
    let! r := foldM (head_step headDepth refractTime refractDist n) orig (0%Z, []) in
    Ok (snd r).

  (** taupy/SeismicPhase.py:830-916 *)
  Definition calcPierceFromArrival (ph : phase T) (a : arrival T) : result (arrival T) :=
    let t := ph_tMod ph in
    let rayNum := first_run_ge (ar_rayParam a) 0 (removelast (tm_rayParams t)) 0 in
    let! pA := py_index (ph_rayParams ph) (ar_index a) in
    let! pB := py_index (ph_rayParams ph) (ar_index a + 1) in
    let! dA := py_index (ph_dist ph) (ar_index a) in
    let! dB := py_index (ph_dist ph) (ar_index a + 1) in
    let! ratio := (ar_dist a - dA) / (dB - dA) in
    let p := ratio * (pB - pA) + pA in
    let hd := is_head_or_diff (ph_name ph) in
    let! st := foldM (pierce_step t hd rayNum ratio p) (ph_seq ph)
                     (mkPC n_0 n_0 [mkTD p n_0 n_0 (tm_sourceDepth t)]) in
    let! out := if hd then handleHeadOrDiffractedWave ph a (pc_out st)
                else if str_in "kmps" (ph_name ph)
                     then Ok (pc_out st ++ [mkTD p (ar_time a) (ar_dist a) n_0])%list
                     else Ok (pc_out st) in
    Ok (mkArr (ar_time a) (ar_dist a) (ar_rayParam a) (ar_index a) (ar_name a) (ar_purist a)
              (ar_sourceDepth a) (ar_takeoff a) (ar_incident a) out (ar_path a)).

  (** taupy/SeismicPhase.py:819-828 *)
  Definition calcPierce (fuel : nat) (ph : phase T) (degrees : T) : result (list (arrival T)) :=
    let! l := ph_calcTime fuel ph degrees in mapM (calcPierceFromArrival ph) l.

  (** taupy/SeismicPhase.py:949-971: extra piece for head and diffracted waves;
      [nxt] = the next branch of the sequence, if any *)
  Definition path_extra (ph : phase T) (a : arrival T) (s : seg) (nxt : option seg)
    : result (list (timedist T)) :=
    let t := ph_tMod ph in
    let name := ph_name ph in
    let both (k : Z) :=
      (sg_branch s =? k)%Z && match nxt with Some n => (sg_branch n =? k)%Z | None => false end in
    if both (tm_cmbBranch t - 1)%Z && (str_in "Pdiff" name || str_in "Sdiff" name) then
      let! d0 := py_index (ph_dist ph) 0 in
      let d := ar_dist a - d0 in
      Ok [mkTD (ar_rayParam a) (d * ar_rayParam a) d (tm_cmbDepth t)]
    else if both (tm_mohoBranch t - 1)%Z && (str_in "Pn" name || str_in "Sn" name) then
      let n := Z.max (Z.of_nat (str_count "Pn" name)) (Z.of_nat (str_count "Sn" name)) in
      let! d0 := py_index (ph_dist ph) 0 in
      let! d := (ar_dist a - d0) / n_int n in
      Ok [mkTD (ar_rayParam a) (d * ar_rayParam a) d (tm_mohoDepth t)]
    else Ok [].

  (** taupy/SeismicPhase.py:938-971: the pieces of path, concatenated *)
  Fixpoint path_pieces (fuel : nat) (ph : phase T) (a : arrival T) (l : list seg)
    : result (list (timedist T)) :=
    match l with
    | [] => Ok []
    | s :: l =>
        let! b := getTauBranch (ph_tMod ph) (sg_branch s) (sg_isP s) in
        let! o := tb_path fuel b (ar_rayParam a) (sg_down s) (tm_sMod (ph_tMod ph)) in
        let own := match o with Some p => p | None => [] end in
        let! _ := mapM (fun td => let! x := td_distDeg td in
                                  guard (negb (x <? n_0)) RuntimeError) own in
        let! extra := path_extra ph a s (match l with n :: _ => Some n | [] => None end) in
        let! rest := path_pieces fuel ph a l in
        Ok (own ++ extra ++ rest)%list
    end.

  (** taupy/SeismicPhase.py:980-986: running sums *)
  Fixpoint cumulate (c : timedist T) (l : list (timedist T)) : list (timedist T) :=
    match l with
    | [] => []
    | x :: l =>
        let c := td_at (td_add c x) (td_depth x) in
        c :: cumulate c l
    end.

  (** taupy/SeismicPhase.py:928-987 *)
  Definition calcPathFromArrival (fuel : nat) (ph : phase T) (a : arrival T) : result (arrival T) :=
    let t := ph_tMod ph in
    let first := mkTD (ar_rayParam a) n_0 n_0 (tm_sourceDepth t) in
    let! l := path_pieces fuel ph a (ph_seq ph) in
    let last := if str_in "kmps" (ph_name ph)
                then [mkTD (ar_rayParam a) (ar_dist a * ar_rayParam a) (ar_dist a) n_0] else [] in
    let path := cumulate (mkTD (ar_rayParam a) n_0 n_0 (ar_sourceDepth a)) (first :: l ++ last) in
    Ok (mkArr (ar_time a) (ar_dist a) (ar_rayParam a) (ar_index a) (ar_name a) (ar_purist a)
              (ar_sourceDepth a) (ar_takeoff a) (ar_incident a) (ar_pierce a) path).

  (** taupy/SeismicPhase.py:918-926 *)
  Definition calcPath (fuel : nat) (ph : phase T) (degrees : T) : result (list (arrival T)) :=
    let! l := ph_calcTime fuel ph degrees in mapM (calcPathFromArrival fuel ph) l.

  (** taupy/Arrival.py:51-57.  With no stored points the code calls
      [phase.calcPierce(arrival)], i.e. [abs(arrival)]: TypeError. *)
  Definition ar_getPierce (a : arrival T) : result (list (timedist T)) :=
    match ar_pierce a with [] => Raise TypeError | l => Ok l end.

  (** taupy/Arrival.py:59-65 *)
  Definition ar_getPath (a : arrival T) : result (list (timedist T)) :=
    match ar_path a with [] => Raise TypeError | l => Ok l end.
End Pierce.

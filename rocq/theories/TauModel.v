(** Model of taupy/TauBranch.py and taupy/TauModel.py. *)
From Coq Require Import ZArith Bool List String Lia.
From Verif Require Import Base Num PyStr VelocityModel SlownessLayer SlownessModel.
Import ListNotations.
Local Open Scope num_scope.

(** taupy/TauBranch.py:11-22, 68-79: a branch after [createBranch] *)
Record tbranch (T : Type) := mkTB {
  tb_top : T; tb_bot : T; tb_isP : bool;
  tb_maxRP : T; tb_minTurnRP : T; tb_minRP : T;
  tb_dist : list T; tb_time : list T; tb_tau : list T }.
Arguments mkTB {T}. Arguments tb_top {T}. Arguments tb_bot {T}. Arguments tb_isP {T}.
Arguments tb_maxRP {T}. Arguments tb_minTurnRP {T}. Arguments tb_minRP {T}.
Arguments tb_dist {T}. Arguments tb_time {T}. Arguments tb_tau {T}.

(** taupy/TauModel.py:15-53, 158-160: attributes of a TauModel.  The class
    attribute [noDisconDepths] (line 32), shared by all models, is not here: it is
    an explicit world state (a list) in [splitBranch] and its callers. *)
Record tmodel (T : Type) := mkTM {
  tm_sMod : smodel T;
  tm_rayParams : list T;
  tm_P : list (tbranch T); tm_S : list (tbranch T);
  tm_mohoBranch : Z; tm_cmbBranch : Z; tm_iocbBranch : Z;
  tm_mohoDepth : T; tm_cmbDepth : T; tm_iocbDepth : T;
  tm_sourceDepth : T; tm_sourceBranch : Z;
  tm_radius : T }.
Arguments mkTM {T}. Arguments tm_sMod {T}. Arguments tm_rayParams {T}. Arguments tm_P {T}.
Arguments tm_S {T}. Arguments tm_mohoBranch {T}. Arguments tm_cmbBranch {T}.
Arguments tm_iocbBranch {T}. Arguments tm_mohoDepth {T}. Arguments tm_cmbDepth {T}.
Arguments tm_iocbDepth {T}. Arguments tm_sourceDepth {T}. Arguments tm_sourceBranch {T}.
Arguments tm_radius {T}.

Section TauBranch.
  Context {T : Type} {N : Num T} {L : Libm T}.

  (** taupy/TauBranch.py:86-92: the summation loop of [calcTimeDist]; [n] =
      botLayerNum + 1 - layerNum layers remain.  Returns the sum and the layer at
      which the loop stopped. *)
  Fixpoint ctd_go (m : smodel T) (isP : bool) (p : T) (n : nat) (num : Z)
           (y : slayer T) (td : timedist T) : result (timedist T * slayer T) :=
    match n with
    | O => Ok (td, y)
    | S n =>
        if (p <=? sl_topP y) && (p <=? sl_botP y) then
          let! x := layerTimeDist m p num isP in
          let td := td_add td x in
          match n with
          | O => Ok (td, y)
          | S _ => let! y := getSlownessLayer m (num + 1) isP in
                   ctd_go m isP p n (num + 1)%Z y td
          end
        else Ok (td, y)
    end.

  (** taupy/TauBranch.py:81-96 *)
  Definition calcTimeDist (m : smodel T) (isP : bool) (maxRP : T) (topNum botNum : Z) (p : T)
    : result (timedist T) :=
    if p <=? maxRP then
      let! y := getSlownessLayer m topNum isP in
      let! '(td, y) := ctd_go m isP p (Z.to_nat (botNum + 1 - topNum)) topNum y (td_new p) in
      if strictly_contains y p then Raise SlownessModelError else Ok td
    else Ok (td_new p).

  (** taupy/TauBranch.py:45-62: final top and bottom depths *)
  Definition branch_ends (top bot : T) (topS botS : slayer T) : result (T * T) :=
    if (sl_topDepth topS <>? top) || (sl_botDepth botS <>? bot) then
      if (sl_topDepth topS <>? top) && (n_abs (sl_topDepth topS - top) <? n_lit 1 (-6))
      then Ok (sl_topDepth topS, bot)
      else if (sl_botDepth botS <>? bot) && (n_abs (sl_botDepth botS - bot) <? n_lit 1 (-6))
      then Ok (top, sl_botDepth botS)
      else Raise TauModelError
    else Ok (top, bot).

  (** taupy/TauBranch.py:19-22 and 36-79: [TauBranch(top, bot, isP)] followed by
      [createBranch(sMod, minPSoFar, rayParams)] *)
  Definition createBranch (fuel : nat) (m : smodel T) (top bot : T) (isP : bool) (minPSoFar : T)
             (rayParams : list T) : result (tbranch T) :=
    let! topNum := layerNumberBelow fuel m top isP in
    let! botNum := layerNumberAbove fuel m bot isP in
    let! topS := getSlownessLayer m topNum isP in
    let! botS := getSlownessLayer m botNum isP in
    let! '(top, bot) := branch_ends top bot topS botS in
    let! minTurn := getMinTurnRayParam fuel m bot isP in
    let! minRP := getMinRayParam fuel m bot isP in
    let! tds := mapM (calcTimeDist m isP minPSoFar topNum botNum) rayParams in
    let dist := map td_dist tds in
    let time := map td_time tds in
    let tau := map (fun '(t, d, p) => t - p * d) (combine (combine time dist) rayParams) in
    Ok (mkTB top bot isP minPSoFar minTurn minRP dist time tau).

  (** taupy/TauBranch.py:127-139 *)
  Definition shift_list (l : list T) (i : Z) : list T :=
    (py_slice l 0 i ++ [n_0] ++ py_slice l i (Z.of_nat (List.length l)))%list.

  (** taupy/TauBranch.py:114-121: sum from the first layer of the model *)
  Fixpoint insert_sum (m : smodel T) (isP : bool) (rp : T) (nums : list Z) (td : timedist T)
    : result (timedist T) :=
    match nums with
    | [] => Ok td
    | i :: nums =>
        let! y := getSlownessLayer m i isP in
        if sl_botP y <? rp then Ok td
        else let! x := layerTimeDist m rp i isP in insert_sum m isP rp nums (td_add td x)
    end.

  (** taupy/TauBranch.py:98-125 *)
  Definition tb_insert (fuel : nat) (b : tbranch T) (rp : T) (m : smodel T) (index : Z)
    : result (tbranch T) :=
    let! topNum := layerNumberBelow fuel m (tb_top b) (tb_isP b) in
    let! botNum := layerNumberAbove fuel m (tb_bot b) (tb_isP b) in
    let! topS := getSlownessLayer m topNum (tb_isP b) in
    let! botS := getSlownessLayer m botNum (tb_isP b) in
    if (sl_topDepth topS <>? tb_top b) || (sl_botDepth botS <>? tb_bot b)
    then Raise TauModelError
    else
      let! td := if (sl_botP topS >=? rp) && (sl_topP topS >=? rp)
                 then insert_sum m (tb_isP b) rp (zrange 0 (botNum + 1)) (td_new rp)
                 else Ok (td_new rp) in
      let! dist := py_setitem (shift_list (tb_dist b) index) index (td_dist td) in
      let! time := py_setitem (shift_list (tb_time b) index) index (td_time td) in
      let! tau := py_setitem (shift_list (tb_tau b) index) index (td_time td - rp * td_dist td) in
      Ok (mkTB (tb_top b) (tb_bot b) (tb_isP b) (tb_maxRP b) (tb_minTurnRP b) (tb_minRP b)
               dist time tau).

  (** [[a-b for a, b in zip(l, l')]] *)
  Definition list_sub (l l' : list T) : list T :=
    map (fun ab => fst ab - snd ab) (combine l l').

  (** taupy/TauBranch.py:248-275 for one of the three arrays: both indices given; [len] is
      arrayLength, that is len(self.dist) + 2 *)
  Definition diff_both (own top : list T) (len indexP indexS : Z) (vP vS : T) : result (list T) :=
    let put (off1 : Z) (arr : list T) (i : Z) : result (list T) :=
      let! a := py_index own i in
      let! b := py_index top (i + off1) in
      py_setitem arr (i + off1) (a - b) in
    let arr := repeat n_0 (Z.to_nat len) in
    let! arr := foldM (put 0%Z) (zrange 0 indexS) arr in
    let! arr := py_setitem arr indexS vS in
    let! arr := foldM (put 1%Z) (zrange indexS indexP) arr in
    let! arr := py_setitem arr (indexP + 1) vP in
    foldM (put 2%Z) (zrange indexP (len - 2)) arr.

  (** taupy/TauBranch.py:154-165, 171-190: compatibility checks *)
  Definition diff_checks (fuel : nat) (self top : tbranch T) (indexP indexS : Z) (m : smodel T)
             (rayParams : list T) : result (Z * Z) :=
    let isP := tb_isP self in
    let! selfTop :=
      if (tb_top top <>? tb_top self) || (tb_bot top >? tb_bot self) then
        if (tb_top top <>? tb_top self) && (n_abs (tb_top top - tb_top self) <? n_lit 1 (-6))
        then Ok (tb_top top) else Raise TauModelError
      else Ok (tb_top self) in
    if negb (Bool.eqb (tb_isP top) isP) then Raise TauModelError
    else
      let! topNum := layerNumberBelow fuel m (tb_bot top) isP in
      let! botNum := layerNumberBelow fuel m (tb_bot self) isP in
      let! topS := getSlownessLayer m topNum isP in
      let! botS := getSlownessLayer m botNum isP in
      let! '(botNum, botS) :=
        if (sl_topDepth botS =? tb_bot self) && (sl_botDepth botS >? tb_bot self)
        then let! y := getSlownessLayer m (botNum - 1) isP in Ok ((botNum - 1)%Z, y)
        else Ok (botNum, botS) in
      if (sl_topDepth topS <>? tb_bot top) || (sl_botDepth botS <>? tb_bot self)
      then Raise TauModelError
      else
        let! nP := layerNumberBelow fuel m (tb_bot top) true in
        let! yP := getSlownessLayer m nP true in
        let! badP := if (indexP >=? 0)%Z
                     then let! r := py_index rayParams indexP in Ok (sl_topP yP <>? r)
                     else Ok false in
        if badP then Raise TauModelError
        else
          let! nS := layerNumberBelow fuel m (tb_bot top) false in
          let! yS := getSlownessLayer m nS false in
          let! badS := if (indexS >=? 0)%Z
                       then let! r := py_index rayParams indexS in Ok (sl_topP yS <>? r)
                       else Ok false in
          if badS then Raise TauModelError else Ok (topNum, botNum).

  (** taupy/TauBranch.py:141-276.  The assignment [self.topDepth = ...] at line 159
      (only reached when [createBranch] had to move the top) is not propagated to
      the receiver. *)
  Definition tb_difference (fuel : nat) (self top : tbranch T) (indexP indexS : Z) (m : smodel T)
             (rayParams : list T) : result (tbranch T) :=
    let isP := tb_isP self in
    let! '(topNum, botNum) := diff_checks fuel self top indexP indexS m rayParams in
    let maxRP := tb_minRP top in
    let mk d t u := Ok (mkTB (tb_bot top) (tb_bot self) isP maxRP (tb_minTurnRP self)
                             (tb_minRP self) d t u) in
    let len := Z.of_nat (List.length (tb_dist self)) in
    let! tdP := if negb (indexP =? -1)%Z
                then let! r := py_index rayParams indexP in
                     let! td := calcTimeDist m isP maxRP topNum botNum r in Ok (Some (r, td))
                else Ok None in
    let! tdS := if negb (indexS =? -1)%Z && negb (indexS =? indexP)%Z
                then let! r := py_index rayParams indexS in
                     let! td := calcTimeDist m isP maxRP topNum botNum r in Ok (Some (r, td))
                else Ok None in
    match tdP, tdS with
    | None, _ =>
        mk (list_sub (tb_dist self) (tb_dist top)) (list_sub (tb_time self) (tb_time top))
           (list_sub (tb_tau self) (tb_tau top))
    | Some (rP, tP), None =>
        (* lines 227-242: the dist array is completed (three times), time and tau stop
           at the new sample *)
        let n := Z.of_nat (List.length (tb_dist self)) in
        let d := list_sub (py_slice (tb_dist self) 0 indexP) (tb_dist top) in
        let t := list_sub (py_slice (tb_time self) 0 indexP) (tb_time top) in
        let u := list_sub (py_slice (tb_tau self) 0 indexP) (tb_tau top) in
        let d := (d ++ [td_dist tP])%list in
        let d := (py_slice d 0 indexP
                  ++ list_sub (py_slice (tb_dist self) indexP n)
                       (py_slice (tb_dist top) (indexP + 1) (Z.of_nat (List.length (tb_dist top)))))%list in
        mk d (t ++ [td_time tP])%list (u ++ [td_time tP - rP * td_dist tP])%list
    | Some (rP, tP), Some (rS, tS) =>
        let! d := diff_both (tb_dist self) (tb_dist top) (len + 2) indexP indexS (td_dist tP) (td_dist tS) in
        let! t := diff_both (tb_time self) (tb_time top) (len + 2) indexP indexS (td_time tP) (td_time tS) in
        let! u := diff_both (tb_tau self) (tb_tau top) (len + 2) indexP indexS
                            (td_time tP - rP * td_dist tP) (td_time tS - rS * td_dist tS) in
        mk d t u
    end.

  (** taupy/SlownessLayer.py:201-205 *)
  Definition hasZeroThickness (y : slayer T) : bool := sl_topDepth y =? sl_botDepth y.

  (** set the depth of a TimeDist (taupy/TauBranch.py:316, 327, 343, 353) *)
  Definition td_at (td : timedist T) (d : T) : timedist T :=
    mkTD (td_p td) (td_time td) (td_dist td) d.

  (** [thePath[pathIndex] = x; pathIndex += 1] on a list of [cap] slots
      (taupy/TauBranch.py:296, 313-317) *)
  Definition path_push (cap : nat) (acc : list (timedist T)) (x : timedist T)
    : result (list (timedist T)) :=
    if (List.length acc <? cap)%nat then Ok (acc ++ [x])%list else Raise IndexError.

  (** taupy/TauBranch.py:322-328 and 338-344: the part of a layer above the turning
      point *)
  Definition turn_td (m : smodel T) (y : slayer T) (rp : T) : result (timedist T * T) :=
    let! turnDepth := bullenDepthFor y rp (sm_radius m) in
    let! ty := new_slayer (-1) (sl_topP y) (sl_topDepth y) rp turnDepth in
    let! td := bullenRadialSlowness ty rp (sm_radius m) in
    Ok (td, turnDepth).

  (** taupy/TauBranch.py:311-320: downgoing loop; [n] layers remain.  Returns the
      path and, if layers are left, the layer in which the ray turns. *)
  Fixpoint path_down (m : smodel T) (isP : bool) (rp : T) (cap n : nat) (num : Z)
           (y : slayer T) (acc : list (timedist T))
    : result (list (timedist T) * option (slayer T)) :=
    match n with
    | O => Ok (acc, None)
    | S n =>
        if sl_botP y >=? rp then
          let! acc := if negb (hasZeroThickness y) then
                        let! td := layerTimeDist m rp num isP in
                        path_push cap acc (td_at td (sl_botDepth y))
                      else Ok acc in
          match n with
          | O => Ok (acc, None)
          | S _ => let! y := getSlownessLayer m (num + 1) isP in
                   path_down m isP rp cap n (num + 1)%Z y acc
          end
        else Ok (acc, Some y)
    end.

  (** taupy/TauBranch.py:333-336: skip layers below the turning point; [k] =
      sLayerNum - topLayerNum.  Returns k and the layer. *)
  Fixpoint path_up_skip (m : smodel T) (isP : bool) (rp : T) (topNum : Z) (k : nat) (y : slayer T)
    : result (nat * slayer T) :=
    match k with
    | O => Ok (O, y)
    | S k' =>
        if (sl_topP y <=? rp) || hasZeroThickness y then
          let! y := getSlownessLayer m (topNum + Z.of_nat k') isP in
          path_up_skip m isP rp topNum k' y
        else Ok (k, y)
    end.

  (** taupy/TauBranch.py:348-357: upgoing loop from layer topNum + k up to topNum *)
  Fixpoint path_up (m : smodel T) (isP : bool) (rp : T) (topNum : Z) (cap : nat) (k : nat)
           (y : slayer T) (acc : list (timedist T)) : result (list (timedist T)) :=
    let! acc := if negb (hasZeroThickness y) then
                  let! td := layerTimeDist m rp (topNum + Z.of_nat k) isP in
                  path_push cap acc (td_at td (sl_topDepth y))
                else Ok acc in
    match k with
    | O => Ok acc
    | S k' => let! y := getSlownessLayer m (topNum + Z.of_nat k') isP in
              path_up m isP rp topNum cap k' y acc
    end.

  (** taupy/TauBranch.py:278-359.  [None] is Python's None (ray cannot enter).  For
      an upgoing ray with botLayerNum < topLayerNum the loops do not run (only the
      turning part of lines 337-344, which then indexes an empty list). *)
  Definition tb_path (fuel : nat) (b : tbranch T) (rp : T) (downgoing : bool) (m : smodel T)
    : result (option (list (timedist T))) :=
    let isP := tb_isP b in
    if rp >? tb_maxRP b then Ok None
    else
      let! _ := guard (rp >=? n_0) AssertionError in
      let! topNum := layerNumberBelow fuel m (tb_top b) isP in
      let! botNum := layerNumberAbove fuel m (tb_bot b) isP in
      let cap := Z.to_nat (botNum - topNum + 1) in
      let! topS := getSlownessLayer m topNum isP in
      if sl_topDepth topS <>? tb_top b then Raise SlownessModelError
      else
        let! botS := getSlownessLayer m botNum isP in
        if sl_botDepth botS <>? tb_bot b then Raise SlownessModelError
        else if downgoing then
          let! '(acc, turn) := path_down m isP rp cap (Z.to_nat (botNum + 1 - topNum)) topNum topS [] in
          match turn with
          | Some y =>
              if negb (hasZeroThickness y) then
                let! '(td, d) := turn_td m y rp in
                let! acc := path_push cap acc (td_at td d) in
                Ok (Some acc)
              else Ok (Some acc)
          | None => Ok (Some acc)
          end
        else
          if (botNum <? topNum)%Z then
            if sl_botP botS <? rp then
              let! _ := turn_td m botS rp in Raise IndexError
            else Ok (Some [])
          else
            let! '(k, y) := path_up_skip m isP rp topNum (Z.to_nat (botNum - topNum)) botS in
            if sl_botP y <? rp then
              let! '(td, _) := turn_td m y rp in
              let! acc := path_push cap [] (td_at td (sl_topDepth y)) in
              match k with
              | O => Ok (Some acc)
              | S k' =>
                  let! y := getSlownessLayer m (topNum + Z.of_nat k') isP in
                  let! acc := path_up m isP rp topNum cap k' y acc in
                  Ok (Some acc)
              end
            else
              let! acc := path_up m isP rp topNum cap k y [] in
              Ok (Some acc).
End TauBranch.

Section TauModel.
  Context {T : Type} {N : Num T} {L : Libm T}.

  (** taupy/TauModel.py:87-101: running minima of the S slownesses *)
  Fixpoint rayParams_go (minP : T) (l : list (slayer T)) : list T :=
    match l with
    | [] => []
    | y :: l =>
        let '(out1, minP) := if sl_topP y <? minP then ([sl_topP y], sl_topP y) else ([], minP) in
        let '(out2, minP) := if sl_botP y <? minP then ([sl_botP y], sl_botP y) else ([], minP) in
        (out1 ++ out2 ++ rayParams_go minP l)%list
    end.

  (** taupy/TauModel.py:81-106 *)
  Definition tauRayParams (m : smodel T) : result (list T) :=
    let! first := py_index (sm_S m) 0 in
    Ok (sl_topP first :: rayParams_go (sl_topP first) (sm_S m)).

  (** taupy/TauModel.py:118-139: one branch; state = (branches so far, minPSoFar) *)
  Definition branch_step (fuel : nat) (m : smodel T) (isP : bool) (rayParams : list T)
             (st : list (tbranch T) * T) (tb : critdepth T * critdepth T)
    : result (list (tbranch T) * T) :=
    let '(acc, minP) := st in
    let '(topC, botC) := tb in
    let topNum := if isP then cd_pNum topC else cd_sNum topC in
    let botNum := ((if isP then cd_pNum botC else cd_sNum botC) - 1)%Z in
    let! b := createBranch fuel m (cd_depth topC) (cd_depth botC) isP minP rayParams in
    let! topS := getSlownessLayer m topNum isP in
    let! botS := getSlownessLayer m botNum isP in
    let minP := py_min minP (py_min (sl_topP topS) (sl_botP botS)) in
    let! n := layerNumberAbove fuel m (cd_depth botC) isP in
    let! botS := getSlownessLayer m n isP in
    Ok ((acc ++ [b])%list, py_min minP (sl_botP botS)).

  (** taupy/TauModel.py:109-139 for one wave type *)
  Definition make_branches (fuel : nat) (m : smodel T) (isP : bool) (rayParams : list T)
    : result (list (tbranch T)) :=
    let! first := getSlownessLayer m 0 isP in
    let! r := foldM (branch_step fuel m isP rayParams) (adjacent (sm_crit m)) ([], sl_topP first) in
    Ok (fst r).

  (** taupy/TauModel.py:143-156 for one discontinuity.  [strict] = comparison with
      [<] (CMB, IOCB) rather than [<=] (Moho). *)
  Fixpoint closest_go (strict : bool) (target : T) (i : Z) (l : list (tbranch T))
           (best : T) (found : option (Z * T)) : option (Z * T) :=
    match l with
    | [] => found
    | b :: l =>
        let d := n_abs (tb_top b - target) in
        if (if strict then d <? best else d <=? best)
        then closest_go strict target (i + 1)%Z l d (Some (i, tb_top b))
        else closest_go strict target (i + 1)%Z l best found
    end.

  (** taupy/TauModel.py:140-160; reading an attribute that was never assigned
      raises AttributeError.  Returns branch number and depth. *)
  Definition closestBranch (strict : bool) (target : T) (l : list (tbranch T)) : result (Z * T) :=
    match closest_go strict target 0 l (n_lit 1 300) None with
    | Some r => Ok r
    | None => Raise AttributeError
    end.

  (** taupy/TauModel.py:34-53 and 55-162 (constructor); [TauModel.validate] (line
      182) always returns True. *)
  Definition newTauModel (fuel : nat) (m : smodel T) : result (tmodel T) :=
    if (sm_numLayers m true =? 0)%Z || (sm_numLayers m false =? 0)%Z
    then Raise SlownessModelError
    else
      let! ok := sm_validate m in
      if negb ok then Raise SlownessModelError
      else
        let! rp := tauRayParams m in
        let! P := make_branches fuel m true rp in
        let! Sb := make_branches fuel m false rp in
        let! '(mb, md) := closestBranch false (vm_moho (sm_vMod m)) P in
        let! '(cb, cd) := closestBranch true (vm_cmb (sm_vMod m)) P in
        let! '(ib, id) := closestBranch true (vm_iocb (sm_vMod m)) P in
        Ok (mkTM m rp P Sb mb cb ib md cd id n_0 0 (n_lit 6371 0)).

  (** taupy/TauModel.py:338-340 *)
  Fixpoint findBranch_go (i : Z) (depth : T) (l : list (tbranch T)) : option Z :=
    match l with
    | [] => None
    | b :: l => if (tb_top b <=? depth) && (depth <? tb_bot b) then Some i
                else findBranch_go (i + 1)%Z depth l
    end.

  (** taupy/TauModel.py:333-345.  [len(self.tauBranches) - 1] is 1: tauBranches is
      the pair of P and S branch lists. *)
  Definition findBranch (t : tmodel T) (depth : T) : result Z :=
    match findBranch_go 0 depth (tm_P t) with
    | Some i => Ok i
    | None =>
        let! b := py_index (tm_P t) (Z.of_nat (List.length (tm_P t)) - 1) in
        if tb_bot b =? depth then Ok 1%Z else Raise TauModelError
    end.

  (** taupy/TauModel.py:347-351 *)
  Definition getTauBranch (t : tmodel T) (i : Z) (isP : bool) : result (tbranch T) :=
    py_index (if isP then tm_P t else tm_S t) i.

  (** taupy/TauModel.py:353-361 *)
  Definition getBranchDepths (t : tmodel T) : result (list T) :=
    let! b0 := getTauBranch t 0 true in
    let! rest := mapM (fun i => let! b := getTauBranch t (i - 1) true in Ok (tb_bot b))
                      (zrange 1 (Z.of_nat (List.length (tm_P t)))) in
    Ok (tb_top b0 :: rest).

  (** taupy/TauModel.py:246-258: find the place of a new ray parameter *)
  Fixpoint find_rp_index (i : Z) (rp : T) (l : list T) : option Z :=
    match l with
    | t :: ((b :: _) as l') => if (t <? rp) && (rp <? b) then Some i
                               else find_rp_index (i + 1)%Z rp l'
    | _ => None
    end.

  (** taupy/TauModel.py:239-258 for one wave type: returns the new outRayParams and
      the index (or None) *)
  Definition insert_rp (info : splitinfo) (old out : list T) : list T * option Z :=
    if si_needed info && negb (si_moved info) then
      match find_rp_index 0 (si_rayParam info) old with
      | Some i => ((py_slice old 0 i ++ [si_rayParam info]
                    ++ py_slice old i (Z.of_nat (List.length old)))%list, Some i)
      | None => (out, None)
      end
    else (out, None).

  (** taupy/TauModel.py:270-275, 292-303: add the new samples to an unchanged
      branch.  [swapped] = line 303 passes indexS for the P sample. *)
  Definition insert_new (fuel : nat) (m : smodel T) (swapped : bool) (iS iP : option Z) (rpS rpP : T)
             (b : tbranch T) : result (tbranch T) :=
    let! b := match iS with Some i => tb_insert fuel b rpS m i | None => Ok b end in
    match iP with
    | Some i => tb_insert fuel b rpP m
                  (if swapped then match iS with Some j => j | None => (-1)%Z end else i)
    | None => Ok b
    end.

  (** [indexP], [indexS] with -1 for none (taupy/TauModel.py:230-232) *)
  Definition idx_or (o : option Z) : Z := match o with Some i => i | None => (-1)%Z end.

  (** taupy/TauModel.py:264-303 for one wave type: the new branch list.  (In the
      source the kept branches are shared with the receiver; [insert_new] changes
      them only if a ray parameter is added.) *)
  Definition split_branches (fuel : nat) (m : smodel T) (isP : bool) (n : nat) (depth : T)
             (rayParams : list T) (iS iP : option Z) (rpS rpP : T) (l : list (tbranch T))
    : result (list (tbranch T)) :=
    let! above := mapM (insert_new fuel m false iS iP rpS rpP) (firstn n l) in
    let! b := py_index l (Z.of_nat n) in
    let! top := createBranch fuel m (tb_top b) depth isP (tb_maxRP b) rayParams in
    let! bot := tb_difference fuel b top (idx_or iP) (idx_or iS) m rayParams in
    let! below := mapM (insert_new fuel m true iS iP rpS rpP) (skipn (S n) l) in
    Ok (above ++ top :: bot :: below)%list.

  (** taupy/TauModel.py:218-331.  Arguments: world state (the shared list
      noDisconDepths) and the receiver.  Returns (world', receiver', new model): the
      receiver's slowness model is changed when [splitLayer] mutates it. *)
  Definition splitBranch (fuel : nat) (w : list T) (t : tmodel T) (depth : T)
    : result (list T * tmodel T * tmodel T) :=
    if existsb (fun b => (tb_top b =? depth) || (tb_bot b =? depth)) (tm_P t)
    then Ok (w, t, t)
    else
      let! '(self1, infoS) := splitLayer fuel (tm_sMod t) depth false in
      let '(rp1, iS) := insert_rp infoS (tm_rayParams t) (tm_rayParams t) in
      let! '(recv2, infoP) := splitLayer fuel (si_sMod infoS) depth true in
      let self2 := if si_needed infoS then self1 else recv2 in
      let '(rp2, iP) := insert_rp infoP (tm_rayParams t) rp1 in
      let outS := si_sMod infoP in
      let! nb := findBranch t depth in
      let! P := split_branches fuel outS true (Z.to_nat nb) depth rp2 iS iP
                               (si_rayParam infoS) (si_rayParam infoP) (tm_P t) in
      let! Sb := split_branches fuel outS false (Z.to_nat nb) depth rp2 iS iP
                               (si_rayParam infoS) (si_rayParam infoP) (tm_S t) in
      let shift (d : T) (b : Z) : Z := if d >? depth then (b + 1)%Z else b in
      Ok ((w ++ [depth])%list,
          mkTM self2 (tm_rayParams t) (tm_P t) (tm_S t)
               (tm_mohoBranch t) (tm_cmbBranch t) (tm_iocbBranch t)
               (tm_mohoDepth t) (tm_cmbDepth t) (tm_iocbDepth t)
               (tm_sourceDepth t) (tm_sourceBranch t) (tm_radius t),
          mkTM outS rp2 P Sb
               (shift (tm_mohoDepth t) (tm_mohoBranch t))
               (shift (tm_cmbDepth t) (tm_cmbBranch t))
               (shift (tm_iocbDepth t) (tm_iocbBranch t))
               (tm_mohoDepth t) (tm_cmbDepth t) (tm_iocbDepth t)
               (tm_sourceDepth t) (shift (tm_sourceDepth t) (tm_sourceBranch t)) (tm_radius t)).

  (** taupy/TauModel.py:186-211 *)
  Definition tm_depthCorrect (fuel : nat) (w : list T) (t : tmodel T) (depth : T)
    : result (list T * tmodel T * tmodel T) :=
    if tm_sourceDepth t <>? n_0 then Raise TauModelError
    else if depth >? tm_radius t then Raise TauModelError
    else
      let! '(w, self, d) := splitBranch fuel w t depth in
      let! sb := findBranch d depth in
      Ok (w, self,
          mkTM (tm_sMod d) (tm_rayParams d) (tm_P d) (tm_S d)
               (tm_mohoBranch d) (tm_cmbBranch d) (tm_iocbBranch d)
               (tm_mohoDepth d) (tm_cmbDepth d) (tm_iocbDepth d)
               depth sb (tm_radius d)).
End TauModel.

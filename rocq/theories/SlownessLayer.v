(** Model of taupy/SlownessLayer.py and taupy/helper_classes.py. *)
From Coq Require Import ZArith Bool List String.
From Verif Require Import Base Num PyStr VelocityModel.
Import ListNotations.
Local Open Scope num_scope.

(** taupy/helper_classes.py:21-34 (TimeDist) *)
Record timedist (T : Type) := mkTD { td_p : T; td_time : T; td_dist : T; td_depth : T }.
Arguments mkTD {T}. Arguments td_p {T}. Arguments td_time {T}.
Arguments td_dist {T}. Arguments td_depth {T}.

(** taupy/helper_classes.py:44-53 (CriticalDepth) *)
Record critdepth (T : Type) := mkCD {
  cd_depth : T; cd_vel : Z; cd_pNum : Z; cd_sNum : Z }.
Arguments mkCD {T}. Arguments cd_depth {T}. Arguments cd_vel {T}.
Arguments cd_pNum {T}. Arguments cd_sNum {T}.

(** taupy/helper_classes.py:56-64 (DepthRange), once its bottom is known *)
Record drange (T : Type) := mkDR { dr_top : T; dr_bot : T; dr_rayParam : T }.
Arguments mkDR {T}. Arguments dr_top {T}. Arguments dr_bot {T}. Arguments dr_rayParam {T}.

(** taupy/SlownessLayer.py:15-27.  [sl_id] is the identity of the Python object
    (layers are compared with [==]/[list.index], i.e. by identity); the other
    fields are never assigned after construction. *)
Record slayer (T : Type) := mkSL {
  sl_id : Z; sl_topP : T; sl_topDepth : T; sl_botP : T; sl_botDepth : T }.
Arguments mkSL {T}. Arguments sl_id {T}. Arguments sl_topP {T}. Arguments sl_topDepth {T}.
Arguments sl_botP {T}. Arguments sl_botDepth {T}.

Section TimeDist.
  Context {T : Type} {N : Num T}.
  (** taupy/helper_classes.py:28-34: [TimeDist(p)] with default arguments *)
  Definition td_new (p : T) : timedist T := mkTD p n_0 n_0 n_0.
  (** taupy/helper_classes.py:36-38 *)
  Definition td_add (a b : timedist T) : timedist T :=
    mkTD (td_p a) (td_time a + td_time b) (td_dist a + td_dist b) (td_depth a).
  (** taupy/helper_classes.py:40-41 *)
  Definition td_distDeg {L : Libm T} (a : timedist T) : result T :=
    td_dist a * n_lit 180 0 / m_pi.
End TimeDist.

Section SlownessLayer.
  Context {T : Type} {N : Num T} {L : Libm T}.

  (** taupy/SlownessLayer.py:17-27 (__init__) *)
  Definition new_slayer (id : Z) (topP topDepth botP botDepth : T) : result (slayer T) :=
    if topDepth >=? n_0 then
      if botDepth >=? n_0 then Ok (mkSL id topP topDepth botP botDepth)
      else Raise ValueError
    else Raise ValueError.

  (** taupy/SlownessLayer.py:35-45 *)
  Definition sl_validate (l : slayer T) : result bool :=
    if n_isnan (sl_topDepth l) || n_isnan (sl_botDepth l)
       || n_isnan (sl_topP l) || n_isnan (sl_botP l) then Raise SlownessModelError
    else if (sl_topP l <? n_0) || (sl_botP l <? n_0) then Raise SlownessModelError
    else if sl_topDepth l >? sl_botDepth l then Raise SlownessModelError
    else Ok true.

  (** taupy/SlownessLayer.py:47-75 *)
  Definition bullenRadialSlowness (l : slayer T) (p radius : T) : result (timedist T) :=
    if sl_botDepth l =? sl_topDepth l then Ok (td_new p)
    else if sl_botDepth l - sl_topDepth l <? n_lit 1 (-9) then Ok (td_new p)
    else
      let! ratioP := sl_topP l / sl_botP l in
      let! logP := m_log ratioP in
      let! ratioR := (radius - sl_topDepth l) / (radius - sl_botDepth l) in
      let! logR := m_log ratioR in
      let! B := logP / logR in
      let! sqrtTop := m_sqrt (sl_topP l * sl_topP l - p * p) in
      let! sqrtBot := m_sqrt (sl_botP l * sl_botP l - p * p) in
      let! aBot := m_atan2 p sqrtBot in
      let! aTop := m_atan2 p sqrtTop in
      let! dist := (aBot - aTop) / B in
      let! time := (sqrtTop - sqrtBot) / B in
      if (dist <? n_0) || (time <? n_0) || n_isnan dist || n_isnan time
      then Raise SlownessModelError
      else Ok (mkTD p time dist n_0).

  (** taupy/SlownessLayer.py:94-105, 142-145: helper for the power-law part of
      [bullenDepthFor]; [np.divide] is IEEE division; the OverflowError of
      [math.pow] is turned into infinity (line 98-101), which the exact-real
      instance never needs.  [inf] is that value. *)
  Definition bullen_tempDepth (inf : result T) (l : slayer T) (rayParam radius : T) : result T :=
    let! ratioP := sl_topP l / sl_botP l in
    let! logP := m_log ratioP in
    let! ratioR := (radius - sl_topDepth l) / (radius - sl_botDepth l) in
    let! logR := m_log ratioR in
    let! B := np_div logP logR in
    let! denom := match m_pow (radius - sl_topDepth l) B with
                  | Raise OverflowError => inf
                  | r => r
                  end in
    let! A := np_div (sl_topP l) denom in
    let! invB := np_div n_1 B in
    let! q := np_div rayParam A in
    let! lq := m_log q in
    let! e := m_exp (invB * lq) in
    Ok (radius - e).

  (** IEEE infinity as 1e300 * 1e300 (SlownessLayer.py:101 [np.inf]) *)
  Definition np_inf : result T := Ok (n_lit 1 300 * n_lit 1 300).

  (** taupy/SlownessLayer.py:77-151 *)
  Definition bullenDepthFor (l : slayer T) (rayParam radius : T) : result T :=
    if (sl_topP l - rayParam) * (rayParam - sl_botP l) >=? n_0 then
      if sl_topDepth l =? sl_botDepth l then Ok (sl_botDepth l)
      else if sl_topP l =? rayParam then Ok (sl_topDepth l)
      else if sl_botP l =? rayParam then Ok (sl_botDepth l)
      else if (sl_botP l <>? n_0) && (sl_botDepth l <>? radius) then
        let! temp := bullen_tempDepth np_inf l rayParam radius in
        let temp := if (sl_topDepth l >? temp) && (temp >? sl_topDepth l - n_lit 1 (-6))
                    then sl_topDepth l else temp in
        let temp := if (sl_botDepth l <? temp) && (temp <? sl_botDepth l + n_lit 1 (-6))
                    then sl_botDepth l else temp in
        if (temp <? n_0) || n_isnan temp || n_isinf temp
           || (temp <? sl_topDepth l) || (temp >? sl_botDepth l) then
          if sl_botDepth l - sl_topDepth l <? n_lit 5 0 then
            let! slope := (sl_botDepth l - sl_topDepth l) / (sl_botP l - sl_topP l) in
            let linear := slope * (rayParam - sl_topP l) + sl_topDepth l in
            if (linear >=? n_0) && negb (n_isnan linear) && negb (n_isinf linear)
            then Ok linear
            else Raise SlownessModelError
          else Raise SlownessModelError
        else if (temp <? sl_topDepth l) && (sl_topDepth l - temp <? n_lit 1 (-10))
        then Ok (sl_topDepth l)
        else if (temp >? sl_botDepth l) && (temp - sl_botDepth l <? n_lit 1 (-10))
        then Ok (sl_botDepth l)
        else Ok temp
      else
        if sl_topP l <>? sl_botP l then
          let! q := (rayParam - sl_botP l) * (sl_topDepth l - sl_botDepth l)
                    / (sl_topP l - sl_botP l) in
          Ok (sl_botDepth l + q)
        else Ok (sl_botDepth l)
    else Raise SlownessModelError.

  (** taupy/SlownessLayer.py:153-199 *)
  Definition evaluateAtBullen (l : slayer T) (depth radius : T) : result T :=
    let topP := sl_topP l in
    let botP := sl_botP l in
    let topDepth := sl_topDepth l in
    let botDepth := sl_botDepth l in
    let! _ := guard (negb (botDepth >? radius)) AssertionError in
    let! _ := guard (negb ((topDepth - depth) * (depth - botDepth) <? n_0)) AssertionError in
    if depth =? topDepth then Ok topP
    else if depth =? botDepth then Ok botP
    else
      let! ratioP := np_div topP botP in
      let! logP := m_log ratioP in
      let! ratioR := np_div (radius - topDepth) (radius - botDepth) in
      let! logR := m_log ratioR in
      let! B := np_div logP logR in
      let! ADenominator := m_nppow (radius - topDepth) B in
      let! A := np_div topP ADenominator in
      let! pw := m_nppow (radius - depth) B in
      let answer := A * pw in
      if (answer <? n_0) || n_isnan answer || n_isinf answer then
        if (botDepth - topDepth <? n_2) || n_isinf ADenominator || (botP =? n_0) then
          let! slope := (botP - topP) / (botDepth - topDepth) in
          let linear := slope * (depth - topDepth) + topP in
          if (linear <? n_0) || n_isinf linear || n_isnan linear
          then Raise SlownessModelError
          else Ok linear
        else Raise SlownessModelError
      else Ok answer.

  (** taupy/SlownessLayer.py:208-223.  All callers use the default radius 6371
      and isSpherical=True.  [id] is the identity of the new object. *)
  Definition create_from_vlayer (id : Z) (v : vlayer T) (isPWave : bool) : result (slayer T) :=
    let topDepth := vl_topDepth v in
    let botDepth := vl_botDepth v in
    let waveType := if isPWave then "p"%string else "s"%string in
    let! tv := evaluateAtTop v waveType in
    let! topP := (n_lit 6371 0 - topDepth) / tv in
    let! bv := evaluateAtBottom v waveType in
    let! botP := (n_lit 6371 0 - botDepth) / bv in
    new_slayer id topP topDepth botP botDepth.
End SlownessLayer.

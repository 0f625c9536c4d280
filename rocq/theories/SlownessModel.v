(** Model of taupy/SlownessModel.py. *)
From Coq Require Import ZArith Bool List String Lia.
From Verif Require Import Base Num PyStr VelocityModel SlownessLayer.
Import ListNotations.
Local Open Scope num_scope.

(** taupy/SlownessModel.py:17-60: attributes of a SlownessModel.  [sm_next] is the
    next unused object identity (see [sl_id]). *)
Record smodel (T : Type) := mkSM {
  sm_vMod : vmodel T;
  sm_minDeltaP : T; sm_maxDeltaP : T; sm_maxDepthInterval : T;
  sm_maxRangeInterval : T; sm_maxInterpError : T;
  sm_allowInnerCoreS : bool; sm_tolerance : T;
  sm_radius : T;
  sm_crit : list (critdepth T);
  sm_hiP : list (drange T); sm_hiS : list (drange T); sm_fluid : list (drange T);
  sm_P : list (slayer T); sm_S : list (slayer T);
  sm_next : Z
}.
Arguments mkSM {T}.
Arguments sm_vMod {T}. Arguments sm_minDeltaP {T}. Arguments sm_maxDeltaP {T}.
Arguments sm_maxDepthInterval {T}. Arguments sm_maxRangeInterval {T}. Arguments sm_maxInterpError {T}.
Arguments sm_allowInnerCoreS {T}. Arguments sm_tolerance {T}. Arguments sm_radius {T}.
Arguments sm_crit {T}. Arguments sm_hiP {T}. Arguments sm_hiS {T}. Arguments sm_fluid {T}.
Arguments sm_P {T}. Arguments sm_S {T}. Arguments sm_next {T}.

Section Setters.
  Context {T : Type}.
  (** assignments to [self.PLayers] and [self.SLayers] (taupy/SlownessModel.py:556-557, 1344-1347 and the list updates in
      place); [next] is the first unused object identity *)
  Definition sm_set_layers (m : smodel T) (P S : list (slayer T)) (next : Z) : smodel T :=
    mkSM (sm_vMod m) (sm_minDeltaP m) (sm_maxDeltaP m) (sm_maxDepthInterval m)
         (sm_maxRangeInterval m) (sm_maxInterpError m) (sm_allowInnerCoreS m) (sm_tolerance m)
         (sm_radius m) (sm_crit m) (sm_hiP m) (sm_hiS m) (sm_fluid m) P S next.
  (** assignments to [self.criticalDepths] (taupy/SlownessModel.py:173, 1345) *)
  Definition sm_set_crit (m : smodel T) (c : list (critdepth T)) : smodel T :=
    mkSM (sm_vMod m) (sm_minDeltaP m) (sm_maxDeltaP m) (sm_maxDepthInterval m)
         (sm_maxRangeInterval m) (sm_maxInterpError m) (sm_allowInnerCoreS m) (sm_tolerance m)
         (sm_radius m) c (sm_hiP m) (sm_hiS m) (sm_fluid m) (sm_P m) (sm_S m) (sm_next m).
  (** assignments to the critical depths and to the lists of zones (taupy/SlownessModel.py:173-176) *)
  Definition sm_set_zones (m : smodel T) (c : list (critdepth T)) (hP hS fl : list (drange T))
             (next : Z) : smodel T :=
    mkSM (sm_vMod m) (sm_minDeltaP m) (sm_maxDeltaP m) (sm_maxDepthInterval m)
         (sm_maxRangeInterval m) (sm_maxInterpError m) (sm_allowInnerCoreS m) (sm_tolerance m)
         (sm_radius m) c hP hS fl (sm_P m) (sm_S m) next.
  (** taupy/SlownessModel.py:122 *)
  Definition sm_set_radius (m : smodel T) (r : T) : smodel T :=
    mkSM (sm_vMod m) (sm_minDeltaP m) (sm_maxDeltaP m) (sm_maxDepthInterval m)
         (sm_maxRangeInterval m) (sm_maxInterpError m) (sm_allowInnerCoreS m) (sm_tolerance m)
         r (sm_crit m) (sm_hiP m) (sm_hiS m) (sm_fluid m) (sm_P m) (sm_S m) (sm_next m).

  (** the list chosen by [isPWave] (SlownessModel.py:681-683, 692-694, ...) *)
  Definition sm_layers (m : smodel T) (isPWave : bool) : list (slayer T) :=
    if isPWave then sm_P m else sm_S m.
End Setters.

Section SlownessModel.
  Context {T : Type} {N : Num T} {L : Libm T}.

  (** taupy/SlownessModel.py:388-401 *)
  Definition sm_numLayers (m : smodel T) (isPWave : bool) : Z :=
    Z.of_nat (List.length (sm_layers m isPWave)).

  (** taupy/SlownessModel.py:723-731 *)
  Definition getSlownessLayer (m : smodel T) (i : Z) (isPWave : bool) : result (slayer T) :=
    py_index (sm_layers m isPWave) i.

  (** taupy/SlownessModel.py:515-521 *)
  Definition toSlowness (radius velocity depth : T) : result T :=
    if velocity =? n_0 then Raise SlownessModelError
    else (radius - depth) / velocity.

  (** taupy/SlownessModel.py:523-533 *)
  Definition interpolate (radius p topVelocity topDepth slope : T) : result T :=
    let denominator := p * slope + n_1 in
    if denominator =? n_0 then Raise SlownessModelError
    else (radius + p * (topDepth * slope - topVelocity)) / denominator.

  (** taupy/SlownessModel.py:535-546, on the list of fluid zones *)
  Definition in_fluid (fluid : list (drange T)) (depth : T) : bool :=
    existsb (fun z => (dr_top z <=? depth) && (depth <? dr_bot z)) fluid.
  (** taupy/SlownessModel.py:535-546 *)
  Definition depthInFluid (m : smodel T) (depth : T) : bool := in_fluid (sm_fluid m) depth.

  (** taupy/SlownessModel.py:454-497: the loop of [findDepth]; [num] runs over the
      remaining layer numbers, [lastBotP] is the value of [botP] after the last
      executed iteration. *)
  Fixpoint findDepth_go (vm : vmodel T) (radius tol : T) (fluid : list (drange T))
           (p : T) (top : Z) (isPWave : bool) (nums : list Z) (lastBotP : option T) : result T :=
    let waveType := if isPWave then "P"%string else "S"%string in
    match nums with
    | [] =>
        match lastBotP with
        | None => Raise UnboundLocalError
        | Some botP =>
            (* lines 500-507: [velLayer.getBotDepth] does not exist *)
            if n_abs (p - botP) <? tol then Raise AttributeError
            else Raise SlownessModelError
        end
    | layerNum :: nums =>
        let! velLayer := py_index (vm_layers vm) layerNum in
        let! topVelocity := evaluateAtTop velLayer waveType in
        let! botVelocity := evaluateAtBottom velLayer waveType in
        let! topP := toSlowness radius topVelocity (vl_topDepth velLayer) in
        let! botP := toSlowness radius botVelocity (vl_botDepth velLayer) in
        if n_abs (topP - p) <? tol then Ok (vl_topDepth velLayer)
        else if n_abs (p - botP) <? tol then Ok (vl_botDepth velLayer)
        else if (topP - p) * (p - botP) >=? n_0 then
          let! slope := (botVelocity - topVelocity)
                        / (vl_botDepth velLayer - vl_topDepth velLayer) in
          interpolate radius p topVelocity (vl_topDepth velLayer) slope
        else if (layerNum =? top)%Z && (n_abs (p - topP) <? tol) then Ok (vl_topDepth velLayer)
        else
          if (layerNum <? getNumLayers vm - 1)%Z then
            let! velLayer := py_index (vm_layers vm) (layerNum + 1) in
            let! tv := evaluateAtTop velLayer waveType in
            let! topVelocity :=
              if negb isPWave && in_fluid fluid (vl_topDepth velLayer)
              then evaluateAtTop velLayer "P"%string else Ok tv in
            let! topP := toSlowness radius topVelocity (vl_topDepth velLayer) in
            if (botP >=? p) && (p >=? topP) then Ok (vl_topDepth velLayer)
            else findDepth_go vm radius tol fluid p top isPWave nums (Some botP)
          else findDepth_go vm radius tol fluid p top isPWave nums (Some botP)
    end.

  (** taupy/SlownessModel.py:414-513, called with layer numbers *)
  Definition findDepth (m : smodel T) (fluid : list (drange T)) (p : T) (top bot : Z)
             (isPWave : bool) : result T :=
    if (top >? bot)%Z then Raise SlownessModelError
    else findDepth_go (sm_vMod m) (sm_radius m) (sm_tolerance m) fluid p top isPWave
                      (zrange top (bot + 1)) None.

  (** taupy/SlownessModel.py:403-412 (and 442-449) *)
  Definition findDepth_from_depths (m : smodel T) (p topDepth botDepth : T) (isPWave : bool)
    : result T :=
    let! topNum := v_layerNumberBelow (sm_vMod m) topDepth in
    let! l := py_index (vm_layers (sm_vMod m)) topNum in
    let topNum := if vl_botDepth l =? topDepth then (topNum + 1)%Z else topNum in
    let! botNum := v_layerNumberAbove (sm_vMod m) botDepth in
    findDepth m (sm_fluid m) p topNum botNum isPWave.

  (** A zero-thickness copy of the top of a velocity layer
      (taupy/SlownessModel.py:181-186, 559-565) *)
  Definition vl_surface (v : vlayer T) : vlayer T :=
    mkVLayer 0 (vl_topDepth v) (vl_topDepth v) (vl_topP v) (vl_topP v)
             (vl_topS v) (vl_topS v) (vl_topD v) (vl_topD v).

  (** Loop state of findCriticalPoints.  [fc_hiP = Some (top, rayParam)] iff
      inHighSlownessZoneP; [fc_fluid = Some top] iff inFluidZone. *)
  Record fcstate := mkFC {
    fc_prevBot : T;                  (* currVLayer.botDepth of the previous layer *)
    fc_P : slayer T; fc_S : slayer T; (* currPLayer, currSLayer *)
    fc_fluid : option T; fc_below : bool;
    fc_hiP : option (T * T); fc_hiS : option (T * T);
    fc_minP : T; fc_minS : T;
    fc_crit : list (critdepth T);    (* results so far, in order *)
    fc_zonesP : list (drange T); fc_zonesS : list (drange T); fc_zonesF : list (drange T);
    fc_next : Z
  }.

  (** [inHighSlownessZoneP], [inFluidZone] etc. (taupy/SlownessModel.py:160-166): here an open zone is [Some] *)
  Definition opt_is {A} (o : option A) : bool := match o with Some _ => true | None => false end.

  (** [if a > b then b else a] (e.g. taupy/SlownessModel.py:196-200, 347-354) *)
  Definition lower_to (a b : T) : T := if a >? b then b else a.

  (** close a zone (taupy/SlownessModel.py:249-251 and similar) *)
  Definition close_zone (z : option (T * T)) (bot : T) (zs : list (drange T)) : list (drange T) :=
    match z with
    | Some (top, rp) => zs ++ [mkDR top bot rp]
    | None => zs
    end.

  (** taupy/SlownessModel.py:202-354: one iteration of the loop over velocity
      layers in [findCriticalPoints] *)
  Definition fc_step (m : smodel T) (s : fcstate) (nl : Z * vlayer T) : result fcstate :=
    let '(layerNum, cv) := nl in
    let prevS := fc_S s in
    let prevP := fc_P s in
    (* 213-215 *)
    let fluid := if negb (opt_is (fc_fluid s)) && (vl_topS cv =? n_0)
                 then Some (vl_topDepth cv) else fc_fluid s in
    (* 217-222 *)
    let leave := opt_is fluid && (vl_topS cv <>? n_0) in
    let below := if leave && (fc_prevBot s >? vm_iocb (sm_vMod m)) then true else fc_below s in
    let zonesF := match fluid with
                  | Some ft => if leave then fc_zonesF s ++ [mkDR ft (fc_prevBot s) (- n_1)]
                               else fc_zonesF s
                  | None => fc_zonesF s
                  end in
    let fluid := if leave then None else fluid in
    (* 224-234 *)
    let! cP := create_from_vlayer (fc_next s) cv true in
    let! cS := if opt_is fluid || (below && negb (sm_allowInnerCoreS m))
               then Ok cP
               else create_from_vlayer (fc_next s + 1)%Z cv false in
    let isDiscon := (sl_botP prevS <>? sl_topP cS) || (sl_botP prevP <>? sl_topP cP) in
    let isExtremum :=
      ((sl_topP prevS - sl_botP prevS) * (sl_botP prevS - sl_botP cS) <? n_0)
      || ((sl_topP prevP - sl_botP prevP) * (sl_botP prevP - sl_botP cP) <? n_0) in
    let here := mkCD (sl_topDepth cS) layerNum (-1) (-1) in
    (* 236-319 *)
    let '(crit, hiP, hiS, zonesP, zonesS, minP, minS) :=
      if isDiscon then
        let outS := opt_is (fc_hiS s) && (sl_topP cS <? fc_minS s) in
        let zonesS := if outS then close_zone (fc_hiS s) (sl_topDepth cS) (fc_zonesS s)
                      else fc_zonesS s in
        let hiS := if outS then None else fc_hiS s in
        let outP := opt_is (fc_hiP s) && (sl_topP cP <? fc_minP s) in
        let zonesP := if outP then close_zone (fc_hiP s) (sl_topDepth cS) (fc_zonesP s)
                      else fc_zonesP s in
        let hiP := if outP then None else fc_hiP s in
        let minP := lower_to (fc_minP s) (sl_topP cP) in
        let minS := lower_to (fc_minS s) (sl_topP cS) in
        let hiS := if negb (opt_is hiS)
                      && ((sl_botP prevS <? sl_topP cS) || (sl_topP cS <? sl_botP cS))
                   then Some (sl_topDepth cS, minS) else hiS in
        let hiP := if negb (opt_is hiP)
                      && ((sl_botP prevP <? sl_topP cP) || (sl_topP cP <? sl_botP cP))
                   then Some (sl_topDepth cP, minP) else hiP in
        (fc_crit s ++ [here], hiP, hiS, zonesP, zonesS, minP, minS)
      else if isExtremum then
        let hiP := if negb (opt_is (fc_hiP s)) && (sl_topP cP <? sl_botP cP)
                   then Some (sl_topDepth cP, fc_minP s) else fc_hiP s in
        let hiS := if negb (opt_is (fc_hiS s)) && (sl_topP cS <? sl_botP cS)
                   then Some (sl_topDepth cS, fc_minS s) else fc_hiS s in
        (fc_crit s ++ [here], hiP, hiS, fc_zonesP s, fc_zonesS s, fc_minP s, fc_minS s)
      else (fc_crit s, fc_hiP s, fc_hiS s, fc_zonesP s, fc_zonesS s, fc_minP s, fc_minS s) in
    (* 321-331 *)
    let! '(hiP, zonesP) :=
      if opt_is hiP && (sl_botP cP <? minP) then
        let! d := findDepth m zonesF minP layerNum layerNum true in
        Ok (None, close_zone hiP d zonesP)
      else Ok (hiP, zonesP) in
    (* 333-346 *)
    let! '(hiS, zonesS) :=
      if opt_is hiS && (sl_botP cS <? minS) then
        let! d := findDepth m zonesF minS layerNum layerNum (sl_id cS =? sl_id cP)%Z in
        Ok (None, close_zone hiS d zonesS)
      else Ok (hiS, zonesS) in
    (* 347-354 *)
    let minP := lower_to (lower_to minP (sl_botP cP)) (sl_topP cP) in
    let minS := lower_to (lower_to minS (sl_botP cS)) (sl_topP cS) in
    Ok (mkFC (vl_botDepth cv) cP cS fluid below hiP hiS minP minS
             crit zonesP zonesS zonesF (fc_next s + 2)%Z).

  (** taupy/SlownessModel.py:1180-1186, 1190-1195: ordering of depth zones *)
  Fixpoint zones_ok (prev : T) (zs : list (drange T)) : bool :=
    match zs with
    | [] => true
    | z :: zs =>
        if dr_top z >=? dr_bot z then false
        else if dr_top z <=? prev then false
        else zones_ok (dr_bot z) zs
    end.

  (** taupy/SlownessModel.py:1204-1226: the loop over slowness layers *)
  Fixpoint slayers_validate (radius prevDepth prevBotP : T) (l : list (slayer T)) : result unit :=
    match l with
    | [] => Ok tt
    | y :: l =>
        let! _ := sl_validate y in
        if sl_topDepth y >? prevDepth then Raise SlownessModelError
        else if sl_topDepth y <? prevDepth then Raise SlownessModelError
        else if sl_topP y <>? prevBotP then Raise SlownessModelError
        else if n_isnan (sl_topDepth y) || n_isnan (sl_botDepth y) then Raise SlownessModelError
        else if sl_botDepth y >? radius then Raise SlownessModelError
        else slayers_validate radius (sl_botDepth y) (sl_botP y) l
    end.

  (** taupy/SlownessModel.py:1198-1204: start values of that loop *)
  Definition slayers_check (radius : T) (l : list (slayer T)) : result unit :=
    match l with
    | [] => Ok tt
    | y :: _ => slayers_validate radius n_0 (sl_topP y) l
    end.

  (** taupy/SlownessModel.py:1157-1228.  (Raises or returns True.) *)
  Definition sm_validate (m : smodel T) : result bool :=
    if sm_radius m <=? n_0 then Raise SlownessModelError
    else if sm_maxDepthInterval m <=? n_0 then Raise SlownessModelError
    else if negb (zones_ok (- n_lit 1 300) (sm_hiP m)) then Raise SlownessModelError
    else if negb (zones_ok (- n_lit 1 300) (sm_hiS m)) then Raise SlownessModelError
    else if negb (zones_ok (- n_lit 1 300) (sm_fluid m)) then Raise SlownessModelError
    else
      let! _ := slayers_check (sm_radius m) (sm_P m) in
      let! _ := slayers_check (sm_radius m) (sm_S m) in
      Ok true.

  (** taupy/SlownessModel.py:151-386 *)
  Definition findCriticalPoints (m : smodel T) : result (smodel T) :=
    let vm := sm_vMod m in
    let! first := py_index (vm_layers vm) 0 in
    let surf := vl_surface first in
    let! cS := create_from_vlayer (sm_next m) surf false in
    let! cP := create_from_vlayer (sm_next m + 1)%Z surf true in
    let startFluid := vl_topS surf =? n_0 in
    let fluid := if startFluid then Some (vl_topDepth surf) else None in
    let cS := if startFluid then cP else cS in
    let minS := lower_to (n_lit 11 299) (sl_topP cS) in
    let minP := lower_to (n_lit 11 299) (sl_topP cP) in
    let s0 := mkFC (vl_botDepth surf) cP cS fluid false None None minP minS
                   [mkCD n_0 0 0 0] [] [] [] (sm_next m + 2)%Z in
    let! s := foldM (fc_step m) (enumerate (vm_layers vm)) s0 in
    let crit := fc_crit s ++ [mkCD (sm_radius m) (getNumLayers vm) (-1) (-1)] in
    let zonesS := close_zone (fc_hiS s) (fc_prevBot s) (fc_zonesS s) in
    let zonesP := close_zone (fc_hiP s) (fc_prevBot s) (fc_zonesP s) in
    let zonesF := match fc_fluid s with
                  | Some ft => fc_zonesF s ++ [mkDR ft (fc_prevBot s) (- n_1)]
                  | None => fc_zonesF s
                  end in
    let m' := sm_set_zones m crit zonesP zonesS zonesF (fc_next s) in
    let! ok := sm_validate m' in
    if ok then Ok m' else Raise SlownessModelError.

  (** taupy/SlownessModel.py:704-708: the scan at the end of the binary search;
      [None] = not found *)
  Fixpoint scan_layers (m : smodel T) (isPWave : bool) (depth : T) (n : nat) (cur : Z)
    : result (option Z) :=
    match n with
    | O => Ok None
    | S n =>
        let! t := getSlownessLayer m cur isPWave in
        if (sl_topDepth t <=? depth) && (depth <=? sl_botDepth t) then Ok (Some cur)
        else scan_layers m isPWave depth n (cur + 1)%Z
    end.

  (** Decimal(x/2.0).to_integral_value(ROUND_HALF_EVEN), taupy/SlownessModel.py:710-711 *)
  Definition half_even (s : Z) : Z :=
    let q := (s / 2)%Z in
    if Z.even s then q else if Z.even q then q else (q + 1)%Z.

  (** taupy/SlownessModel.py:712-721: the step after choosing [cur] *)
  Definition lnfd_step (m : smodel T) (isPWave : bool) (depth : T) (small large cur : Z)
    : result ((Z * Z) + Z) :=
    let! t := getSlownessLayer m cur isPWave in
    let upd (small large : Z) : result ((Z * Z) + Z) :=
      if (small >? large)%Z then Raise ArithmeticError else Ok (inl (small, large)) in
    if sl_topDepth t >? depth then upd small (cur - 1)%Z
    else if sl_botDepth t <? depth then upd (cur + 1)%Z large
    else Ok (inr cur).

  (** taupy/SlownessModel.py:700-721: body of the [while True] loop *)
  Definition lnfd_body (m : smodel T) (isPWave : bool) (depth : T) (st : Z * Z)
    : result ((Z * Z) + Z) :=
    let '(small, large) := st in
    if (large - small <? 3)%Z then
      let! found := scan_layers m isPWave depth (Z.to_nat (large + 1 - small)) small in
      match found with
      | Some c => Ok (inr c)
      | None => lnfd_step m isPWave depth small large (Z.max small (large + 1))
      end
    else lnfd_step m isPWave depth small large (half_even (small + large)).

  (** taupy/SlownessModel.py:690-721 *)
  Definition layerNumForDepth (fuel : nat) (m : smodel T) (depth : T) (isPWave : bool) : result Z :=
    let layers := sm_layers m isPWave in
    let! first := py_index layers 0 in
    let! below := if depth <? sl_topDepth first then Ok true
                  else let! lst := py_index layers (-1) in Ok (depth >? sl_botDepth lst) in
    if below then Raise SlownessModelError
    else while fuel (lnfd_body m isPWave depth) (0%Z, (Z.of_nat (List.length layers) - 1)%Z).

  (** taupy/SlownessModel.py:666-668: walking up *)
  Fixpoint walk_up (m : smodel T) (isPWave : bool) (depth : T) (n : nat) (t : slayer T)
    : result nat :=
    if sl_topDepth t =? depth then
      match n with
      | O => Ok O
      | S n => let! t := getSlownessLayer m (Z.of_nat n) isPWave in walk_up m isPWave depth n t
      end
    else Ok n.

  (** taupy/SlownessModel.py:655-669.  (The index found is never negative.) *)
  Definition layerNumberAbove (fuel : nat) (m : smodel T) (depth : T) (isPWave : bool) : result Z :=
    let! found := layerNumForDepth fuel m depth isPWave in
    let! t := getSlownessLayer m found isPWave in
    let! n := walk_up m isPWave depth (Z.to_nat found) t in
    Ok (Z.of_nat n).

  (** taupy/SlownessModel.py:685-687: walking down; [k] = layers left below *)
  Fixpoint walk_down (m : smodel T) (isPWave : bool) (depth : T) (k : nat) (cur : Z) (t : slayer T)
    : result Z :=
    match k with
    | O => Ok cur
    | S k =>
        if sl_botDepth t =? depth then
          let! t := getSlownessLayer m (cur + 1) isPWave in
          walk_down m isPWave depth k (cur + 1)%Z t
        else Ok cur
    end.

  (** taupy/SlownessModel.py:671-688 *)
  Definition layerNumberBelow (fuel : nat) (m : smodel T) (depth : T) (isPWave : bool) : result Z :=
    let! found := layerNumForDepth fuel m depth isPWave in
    let! t := getSlownessLayer m found isPWave in
    walk_down m isPWave depth (List.length (sm_layers m isPWave) - 1 - Z.to_nat found) found t.

  (** taupy/SlownessModel.py:791-798: replace the layer with identity [id] in the
      other list, if it is there *)
  Fixpoint replace_shared (id : Z) (top bot : slayer T) (l : list (slayer T)) : list (slayer T) :=
    match l with
    | [] => []
    | y :: l => if (sl_id y =? id)%Z then top :: bot :: l else y :: replace_shared id top bot l
    end.

  (** taupy/SlownessModel.py:750-761: the two velocities looked up for a layer *)
  Definition layer_velocities (vm : vmodel T) (isPWave : bool) (s : slayer T) : result (T * T) :=
    let w := if isPWave then "P"%string else "S"%string in
    if sl_topDepth s <>? sl_botDepth s then
      let! tv := evaluateBelow vm (sl_topDepth s) w in
      let! bv := evaluateAbove vm (sl_botDepth s) w in
      Ok (tv, bv)
    else
      let! tv := evaluateAbove vm (sl_botDepth s) w in
      let! bv := evaluateBelow vm (sl_topDepth s) w in
      Ok (tv, bv).

  (** taupy/SlownessModel.py:770: does the layer strictly contain p? *)
  Definition strictly_contains (s : slayer T) (p : T) : bool :=
    (sl_topP s - p) * (p - sl_botP s) >? n_0.

  (** taupy/SlownessModel.py:771-782: the two layers replacing [s] *)
  Definition split_pair (radius p tv bv : T) (s : slayer T) (next : Z)
    : result (slayer T * slayer T) :=
    let! botDepth :=
      if sl_botDepth s <>? sl_topDepth s then
        let! slope := (bv - tv) / (sl_botDepth s - sl_topDepth s) in
        interpolate radius p tv (sl_topDepth s) slope
      else Ok (sl_botDepth s) in
    let! botLayer := new_slayer next p botDepth (sl_botP s) (sl_botDepth s) in
    let! topLayer := new_slayer (next + 1)%Z (sl_topP s) (sl_topDepth s) p botDepth in
    Ok (topLayer, botLayer).

  (** taupy/SlownessModel.py:749-798: the loop of [addSlowness] over the (changing)
      list; [done] are the layers already passed, in reverse order. *)
  Fixpoint addS_go (fuel : nat) (vm : vmodel T) (radius : T) (innerS : bool) (p : T) (isPWave : bool)
           (done todo other : list (slayer T)) (next : Z)
    : result (list (slayer T) * list (slayer T) * Z) :=
    match fuel with
    | O => Diverge
    | S fuel =>
        match todo with
        | [] => Ok (rev done, other, next)
        | s :: rest =>
            let! '(tv, bv) := layer_velocities vm isPWave s in
            if negb isPWave && (negb innerS && (sl_botDepth s >? vm_iocb vm))
            then Ok (rev_append done todo, other, next)
            else if negb isPWave && (tv =? n_0)
            then addS_go fuel vm radius innerS p isPWave (s :: done) rest other next
            else if strictly_contains s p then
              let! '(top, bot) := split_pair radius p tv bv s next in
              addS_go fuel vm radius innerS p isPWave (top :: done) (bot :: rest)
                      (replace_shared (sl_id s) top bot other) (next + 2)%Z
            else addS_go fuel vm radius innerS p isPWave (s :: done) rest other next
        end
    end.

  (** taupy/SlownessModel.py:733-798 *)
  Definition addSlowness (m : smodel T) (p : T) (isPWave : bool) : result (smodel T) :=
    let layers := sm_layers m isPWave in
    let other := sm_layers m (negb isPWave) in
    let! '(layers, other, next) :=
      addS_go (S (2 * List.length layers)) (sm_vMod m) (sm_radius m) (sm_allowInnerCoreS m)
              p isPWave [] layers other (sm_next m) in
    Ok (if isPWave then sm_set_layers m layers other next
        else sm_set_layers m other layers next).

  (** taupy/SlownessModel.py:566-616: one iteration of the layer loop of
      [coarseSample]; state: P layers, S layers, next identity, previous layer *)
  Definition coarse_step (m : smodel T) (st : list (slayer T) * list (slayer T) * Z * vlayer T)
             (layer : vlayer T) : result (list (slayer T) * list (slayer T) * Z * vlayer T) :=
    let '(Ps, Ss, next, prev) := st in
    let vm := sm_vMod m in
    let innerS := sm_allowInnerCoreS m in
    let! '(Ps, Ss, next) :=
      if (vl_botP prev <>? vl_topP layer)
         || ((vl_botS prev <>? vl_topS layer)
             && (innerS || (vl_topDepth layer <? vm_iocb vm)))
      then
        let topSVel := if vl_botS prev =? n_0 then vl_botP prev else vl_botS prev in
        let botSVel := if vl_topS layer =? n_0 then vl_topP layer else vl_topS layer in
        let cv := mkVLayer (vl_num layer) (vl_botDepth prev) (vl_botDepth prev)
                           (vl_botP prev) (vl_topP layer) topSVel botSVel
                           (n_lit 26 (-1)) (n_lit 26 (-1)) in
        let! cP := create_from_vlayer next cv true in
        let! cS := if ((vl_botS prev =? n_0) && (vl_topS layer =? n_0))
                      || (negb innerS && (vl_topDepth cv >=? vm_iocb vm))
                   then Ok cP else create_from_vlayer (next + 1)%Z cv false in
        Ok (Ps ++ [cP], Ss ++ [cS], (next + 2)%Z)
      else Ok (Ps, Ss, next) in
    let! cP := create_from_vlayer next layer true in
    let! cS := if depthInFluid m (vl_topDepth layer)
                  || (negb innerS && (vl_topDepth layer >=? vm_iocb vm))
               then Ok cP else create_from_vlayer (next + 1)%Z layer false in
    Ok (Ps ++ [cP], Ss ++ [cS], (next + 2)%Z, layer).

  (** taupy/SlownessModel.py:622-626: skip zero-thickness layers that do not
      contain the ray parameter *)
  Fixpoint skip_zero (fuel : nat) (m : smodel T) (isPWave : bool) (rp : T) (num : Z) (y : slayer T)
    : result (slayer T) :=
    match fuel with
    | O => Diverge
    | S fuel =>
        if (sl_topDepth y =? sl_botDepth y) && ((sl_topP y - rp) * (rp - sl_botP y) <? n_0)
        then let! y := getSlownessLayer m (num + 1) isPWave in
             skip_zero fuel m isPWave rp (num + 1)%Z y
        else Ok y
    end.

  (** taupy/SlownessModel.py:619-628 (isPWave = false) and 629-638 (true) *)
  Definition sample_high_zone (fuel : nat) (isPWave : bool) (m : smodel T) (z : drange T)
    : result (smodel T) :=
    let! num := layerNumberAbove fuel m (dr_bot z) isPWave in
    let! y := getSlownessLayer m num isPWave in
    let! y := skip_zero (S (List.length (sm_layers m isPWave))) m isPWave (dr_rayParam z) num y in
    if dr_rayParam z <>? sl_botP y then addSlowness m (dr_rayParam z) isPWave else Ok m.

  (** taupy/SlownessModel.py:640-646 (from the P list into S, isPWave = true) and
      647-653 (from S into P): state carries [botP] *)
  Definition sync_layers (fuel : nat) (isPWave : bool) (m : smodel T) : result (smodel T) :=
    let! r := for_idx fuel (fun st => sm_layers (fst st) isPWave) 0
      (fun st y =>
         let '(m, botP) := st in
         let! m := if sl_topP y <>? botP then addSlowness m (sl_topP y) (negb isPWave) else Ok m in
         let! m := addSlowness m (sl_botP y) (negb isPWave) in
         Ok (m, sl_botP y))
      (m, (- n_1)) in
    Ok (fst r).

  (** taupy/SlownessModel.py:549-653 *)
  Definition coarseSample (fuel : nat) (m : smodel T) : result (smodel T) :=
    let! first := py_index (vm_layers (sm_vMod m)) 0 in
    let! '(Ps, Ss, next, _) :=
      foldM (coarse_step m) (vm_layers (sm_vMod m)) ([], [], sm_next m, vl_surface first) in
    let m := sm_set_layers m Ps Ss next in
    let! m := foldM (sample_high_zone fuel false) (sm_hiS m) m in
    let! m := foldM (sample_high_zone fuel true) (sm_hiP m) m in
    let! m := sync_layers fuel true m in
    sync_layers fuel false m.

  (** add the same sample to P, then to S (taupy/SlownessModel.py:812-815 etc.) *)
  Definition addBoth (m : smodel T) (p : T) : result (smodel T) :=
    let! m := addSlowness m p true in addSlowness m p false.

  (** taupy/SlownessModel.py:806-816: body of the loop of [rayParamIncCheck] *)
  Definition rayInc_body (m : smodel T) (y : slayer T) : result (smodel T) :=
    if n_abs (sl_topP y - sl_botP y) >? sm_maxDeltaP m then
      let! q := n_abs (sl_topP y - sl_botP y) / sm_maxDeltaP m in
      let numNewP := n_ceil q in
      let! deltaP := (sl_topP y - sl_botP y) / n_int numNewP in
      foldM (fun m rayNum => addBoth m (sl_topP y + n_int rayNum * deltaP))
            (zrange 1 numNewP) m
    else Ok m.

  (** taupy/SlownessModel.py:800-816 *)
  Definition rayParamIncCheck (fuel : nat) (m : smodel T) : result (smodel T) :=
    let! m := for_idx fuel sm_S 0 rayInc_body m in
    for_idx fuel sm_P 0 rayInc_body m.

  (** taupy/SlownessModel.py:835-851: slowness at an intermediate depth *)
  Definition depthInc_p (m : smodel T) (firstBlock : bool) (d : T) : result T :=
    let vm := sm_vMod m in
    if firstBlock then
      let! v := evaluateAbove vm d "S"%string in
      let! v := if (v =? n_0) || (negb (sm_allowInnerCoreS m) && (d >=? vm_iocb vm))
                then evaluateAbove vm d "P"%string else Ok v in
      toSlowness (sm_radius m) v d
    else
      let! v := evaluateAbove vm d "P"%string in
      toSlowness (sm_radius m) v d.

  (** taupy/SlownessModel.py:824-854 *)
  Definition depthInc_body (firstBlock : bool) (m : smodel T) (y : slayer T) : result (smodel T) :=
    if sl_botDepth y - sl_topDepth y >? sm_maxDepthInterval m then
      let! q := (sl_botDepth y - sl_topDepth y) / sm_maxDepthInterval m in
      let num := n_ceil q in
      let! delta := (sl_botDepth y - sl_topDepth y) / n_int num in
      foldM (fun m k =>
               let! p := depthInc_p m firstBlock (sl_topDepth y + n_int k * delta) in
               addBoth m p)
            (zrange 1 num) m
    else Ok m.

  (** taupy/SlownessModel.py:818-854 *)
  Definition depthIncCheck (fuel : nat) (m : smodel T) : result (smodel T) :=
    let! m := for_idx fuel sm_S 0 (depthInc_body true) m in
    for_idx fuel sm_P 0 (depthInc_body false) m.

  (** taupy/SlownessModel.py:981-1006 *)
  Definition depthInHighSlowness (m : smodel T) (depth rayParam : T) (isPWave : bool) : bool :=
    existsb (fun z => (dr_top z <=? depth) && (depth <=? dr_bot z)
                      && ((rayParam >? dr_rayParam z)
                          || ((rayParam =? dr_rayParam z) && (depth =? dr_top z))))
            (if isPWave then sm_hiP m else sm_hiS m).

  (** taupy/SlownessModel.py:1091-1133: constant velocity layer *)
  Definition constVelTimeDist (tol p topRadius botRadius botP : T) : result (timedist T) :=
    let! vel := botRadius / botP in
    let topTerm := topRadius * topRadius - p * p * vel * vel in
    let topTerm := if n_abs topTerm <? tol then n_0 else topTerm in
    let botTerm := if p =? botP then n_0 else botRadius * botRadius - p * p * vel * vel in
    let! st := m_sqrt topTerm in
    let! sb := m_sqrt botTerm in
    let b := st - sb in
    let! time := b / vel in
    let! q := b * p * vel / (topRadius * botRadius) in
    let! dist := m_asin q in
    if (dist <? n_0) || (time <? n_0) || n_isnan time || n_isnan dist
    then Raise SlownessModelError
    else Ok (mkTD p time dist n_0).

  (** taupy/SlownessModel.py:1031-1137 *)
  Definition layerTimeDist (m : smodel T) (p : T) (layerNum : Z) (isPWave : bool)
    : result (timedist T) :=
    let! y := getSlownessLayer m layerNum isPWave in
    let topRadius := sm_radius m - sl_topDepth y in
    let botRadius := sm_radius m - sl_botDepth y in
    if p >? py_max (sl_topP y) (sl_botP y) then Raise SlownessModelError
    else if p <? n_0 then Raise SlownessModelError
    else if p >? py_min (sl_topP y) (sl_botP y) then Raise SlownessModelError
    else if sl_topDepth y =? sl_botDepth y then Ok (td_new p)
    else if (p =? n_0) && (sl_botDepth y =? sm_radius m) then
      if negb (layerNum =? sm_numLayers m isPWave - 1)%Z then Raise SlownessModelError
      else
        let! dist := m_pi / n_2 in
        let time := sl_topP y in
        if (dist <? n_0) || (time <? n_0) || n_isnan time || n_isnan dist
        then Raise SlownessModelError
        else Ok (mkTD p time dist n_0)
    else
      let! v1 := topRadius / sl_topP y in
      let! v2 := botRadius / sl_botP y in
      if n_abs (v1 - v2) <? sm_tolerance m
      then constVelTimeDist (sm_tolerance m) p topRadius botRadius (sl_botP y)
      else bullenRadialSlowness y p (sm_radius m).

  (** taupy/SlownessModel.py:1008-1029 *)
  Definition approxDistance (m : smodel T) (turn : Z) (p : T) (isPWave : bool)
    : result (timedist T) :=
    if (turn >=? sm_numLayers m isPWave)%Z then Raise SlownessModelError
    else if p <? n_0 then Raise SlownessModelError
    else
      let! td := foldM (fun td n => let! x := layerTimeDist m p n isPWave in Ok (td_add td x))
                       (zrange 0 (turn + 1)) (td_new p) in
      Ok (mkTD (td_p td) (td_time td * n_2) (td_dist td * n_2) (td_depth td)).

  (** Loop state of distanceCheck (taupy/SlownessModel.py:863-870) *)
  Record dcstate := mkDC {
    dc_m : smodel T; dc_currOK : bool; dc_prevOK : bool;
    dc_prevPrev : option (timedist T); dc_prev : option (timedist T); dc_curr : option (timedist T);
    dc_j : Z; dc_sLayer : slayer T }.

  (** attribute access on a variable that may be None *)
  Definition not_none {A} (o : option A) : result A :=
    match o with Some a => Ok a | None => Raise AttributeError end.

  (** taupy/SlownessModel.py:931-939: [abs(diff) > maxInterpError], where [num / den] is an
      IEEE quotient.  Over the reals a zero denominator is treated as IEEE does: 0/0 is nan,
      which is not above the limit; otherwise the quotient is infinite, and above the limit
      unless it is multiplied by 0. *)
  Definition interp_far (cT sT pT num den lim : T) : result bool :=
    match np_div num den with
    | Ok q => Ok (n_abs (cT - ((sT - pT) * q + pT)) >? lim)
    | Raise NonFinite => Ok ((num <>? n_0) && (sT - pT <>? n_0))
    | Raise e => Raise e
    | Diverge => Diverge
    end.

  (** taupy/SlownessModel.py:870-976: body of the [while] loop *)
  Definition dc_body (w : bool) (s : dcstate) : result (dcstate + smodel T) :=
    let m := dc_m s in
    let j := dc_j s in
    if negb (j <? sm_numLayers m w)%Z then Ok (inr m)
    else
      let prevS := dc_sLayer s in
      let! y := getSlownessLayer m j w in
      if negb (depthInHighSlowness m (sl_botDepth y) (sl_botP y) w)
         && negb (depthInHighSlowness m (sl_topDepth y) (sl_topP y) w)
      then
        let! '(prevPrev, prev) :=
          if dc_currOK s
          then Ok (if dc_prevOK s then dc_prev s else None, dc_curr s)
          else let! p := approxDistance m (j - 1) (sl_topP y) w in
               Ok (dc_prevPrev s, Some p) in
        let! curr := approxDistance m j (sl_botP y) w in
        let! pv := not_none prev in
        if (n_abs (td_dist pv - td_dist curr) >? sm_maxRangeInterval m)
           && (n_abs (sl_topP y - sl_botP y) >? n_2 * sm_minDeltaP m)
        then
          let! half := (sl_topP y + sl_botP y) / n_2 in
          let! m := addBoth m half in
          Ok (inl (mkDC m true true prevPrev prevPrev prev j y))
        else
          let! splitRP := (sl_topP y + sl_botP y) / n_2 in
          let! allBut := approxDistance m (j - 1) splitRP w in
          let! dpt := bullenDepthFor y splitRP (sm_radius m) in
          let! spl := new_slayer (-1) (sl_topP y) (sl_topDepth y) splitRP dpt in
          let! just := bullenRadialSlowness spl splitRP (sm_radius m) in
          let sTime := td_time allBut + n_2 * td_time just in
          let sDist := td_dist allBut + n_2 * td_dist just in
          let! far := interp_far (td_time curr) sTime (td_time pv)
                                 (td_dist curr - td_dist pv) (sDist - td_dist pv) (sm_maxInterpError m) in
          if far then
            let! halfPrev := (sl_topP prevS + sl_botP prevS) / n_2 in
            let! m := addBoth m halfPrev in
            let! half := (sl_topP y + sl_botP y) / n_2 in
            let! m := addBoth m half in
            if (j >? 0)%Z then
              let j := (j - 1)%Z in
              let! y := getSlownessLayer m (if (j - 1 >=? 0)%Z then j - 1 else 0)%Z w in
              Ok (inl (mkDC m true false prevPrev prev prevPrev j y))
            else Ok (inl (mkDC m false false prevPrev prev prevPrev j y))
          else Ok (inl (mkDC m true true prevPrev prev (Some curr) (j + 1)%Z y))
      else Ok (inl (mkDC m false false None None None (j + 1)%Z y)).

  (** taupy/SlownessModel.py:862-979 *)
  Definition distanceCheck1 (fuel : nat) (w : bool) (m : smodel T) : result (smodel T) :=
    let! y := getSlownessLayer m 0 w in
    while fuel (dc_body w) (mkDC m false false None None None 0 y).

  (** taupy/SlownessModel.py:856-979 *)
  Definition distanceCheck (fuel : nat) (m : smodel T) : result (smodel T) :=
    let! m := distanceCheck1 fuel false m in distanceCheck1 fuel true m.

  (** taupy/SlownessModel.py:1144-1155: layer number for one wave type *)
  Definition fix_crit_num (fuel : nat) (m : smodel T) (depth : T) (w : bool) : result Z :=
    let! n := layerNumberBelow fuel m depth w in
    let! y := getSlownessLayer m n w in
    Ok (if (n =? Z.of_nat (List.length (sm_layers m w)) - 1)%Z && (sl_botDepth y =? depth)
        then (n + 1)%Z else n).

  (** taupy/SlownessModel.py:1139-1155 *)
  Definition fixCriticalPoints (fuel : nat) (m : smodel T) : result (smodel T) :=
    let! crit := mapM (fun cd =>
                         let! pn := fix_crit_num fuel m (cd_depth cd) true in
                         let! sn := fix_crit_num fuel m (cd_depth cd) false in
                         Ok (mkCD (cd_depth cd) (cd_vel cd) pn sn)) (sm_crit m) in
    Ok (sm_set_crit m crit).

  (** taupy/SlownessModel.py:101-149.  The two tests on layers after
      [vMod.validate()] keep their order. *)
  Definition createSample (fuel : nat) (m : smodel T) : result (smodel T) :=
    let vm := sm_vMod m in
    let! ok := v_validate vm in
    if negb ok then Raise SlownessModelError
    else if (getNumLayers vm =? 0)%Z then Raise SlownessModelError
    else
      let! first := py_index (vm_layers vm) 0 in
      if vl_topS first =? n_0 then Raise SlownessModelError
      else
        let m := sm_set_radius m (vm_radius vm) in
        let! m := findCriticalPoints m in
        let! m := coarseSample fuel m in
        let! m := rayParamIncCheck fuel m in
        let! m := depthIncCheck fuel m in
        let! m := distanceCheck fuel m in
        let! m := fixCriticalPoints fuel m in
        let! ok := sm_validate m in
        if ok then Ok m else Raise SlownessModelError.

  (** taupy/SlownessModel.py:33-60 (__init__): class attributes before createSample *)
  Definition sm_init (vm : vmodel T) (minDeltaP maxDeltaP maxDepthInterval maxRangeInterval
                                      maxInterpError : T) (innerS : bool) (tol : T) : smodel T :=
    mkSM vm minDeltaP maxDeltaP maxDepthInterval maxRangeInterval maxInterpError innerS tol
         (n_lit 6371 0) [] [] [] [] [] [] 0.

  (** taupy/SlownessModel.py:47-60 *)
  Definition newSlownessModel (fuel : nat) (vm : vmodel T)
             (minDeltaP maxDeltaP maxDepthInterval maxRangeInterval maxInterpError : T)
             (innerS : bool) (tol : T) : result (smodel T) :=
    createSample fuel (sm_init vm minDeltaP maxDeltaP maxDepthInterval maxRangeInterval
                               maxInterpError innerS tol).

  (** taupy/SlownessModel.py:1239-1248: loop over layers inside a high slowness zone *)
  Fixpoint minTurn_go (radius depth : T) (l : list (slayer T)) (minP : T) : result T :=
    match l with
    | [] => Ok minP
    | y :: l =>
        if sl_botDepth y =? depth then Ok (py_min minP (sl_botP y))
        else if sl_botDepth y >? depth then
          let! v := evaluateAtBullen y depth radius in Ok (py_min minP v)
        else minTurn_go radius depth l (py_min minP (sl_botP y))
    end.

  (** taupy/SlownessModel.py:1230-1256 *)
  Definition getMinTurnRayParam (fuel : nat) (m : smodel T) (depth : T) (isPWave : bool) : result T :=
    if depthInHighSlowness m depth (n_lit 1 300) isPWave
    then minTurn_go (sm_radius m) depth (sm_layers m isPWave) (n_lit 1 300)
    else
      let! n := layerNumberAbove fuel m depth isPWave in
      let! y := getSlownessLayer m n isPWave in
      if depth =? sl_botDepth y then Ok (sl_botP y)
      else evaluateAtBullen y depth (sm_radius m).

  (** taupy/SlownessModel.py:1258-1273 *)
  Definition getMinRayParam (fuel : nat) (m : smodel T) (depth : T) (isPWave : bool) : result T :=
    let! minP := getMinTurnRayParam fuel m depth isPWave in
    let! na := layerNumberAbove fuel m depth isPWave in
    let! above := getSlownessLayer m na isPWave in
    let! nb := layerNumberBelow fuel m depth isPWave in
    let! below := getSlownessLayer m nb isPWave in
    Ok (if sl_botDepth above =? depth
        then py_min (py_min minP (sl_botP above)) (sl_topP below) else minP).

  (** [deepcopy] of a list of layers: same contents, new identities *)
  Fixpoint fresh_copy (next : Z) (l : list (slayer T)) : list (slayer T) :=
    match l with
    | [] => []
    | y :: l => mkSL next (sl_topP y) (sl_topDepth y) (sl_botP y) (sl_botDepth y)
                :: fresh_copy (next + 1)%Z l
    end.

  (** taupy/SlownessModel.py:1350-1361 *)
  Definition fixCriticalDepths (crit : list (critdepth T)) (layerNum : Z) (isPWave : bool)
    : list (critdepth T) :=
    map (fun cd =>
           if ((if isPWave then cd_pNum cd else cd_sNum cd) >? layerNum)%Z then
             if isPWave then mkCD (cd_depth cd) (cd_vel cd) (cd_pNum cd + 1)%Z (cd_sNum cd)
             else mkCD (cd_depth cd) (cd_vel cd) (cd_pNum cd) (cd_sNum cd + 1)%Z
           else cd) crit.

  (** [l.index(x)] by identity *)
  Fixpoint index_of_id (id : Z) (l : list (slayer T)) : option nat :=
    match l with
    | [] => None
    | y :: l => if (sl_id y =? id)%Z then Some O
                else match index_of_id id l with Some n => Some (S n) | None => None end
    end.

  (** taupy/SlownessModel.py:1378-1391: one iteration of the loop over the
      snapshot [out[:]] *)
  Definition fixOther_step (radius p : T) (isPWave : bool)
             (st : list (slayer T) * list (critdepth T) * Z) (ny : Z * slayer T)
    : result (list (slayer T) * list (critdepth T) * Z) :=
    let '(out, crit, next) := st in
    let '(n, y) := ny in
    if strictly_contains y p then
      let! d := bullenDepthFor y p radius in
      let! top := new_slayer next (sl_topP y) (sl_topDepth y) p d in
      let! bot := new_slayer (next + 1)%Z p (sl_botDepth top) (sl_botP y) (sl_botDepth y) in
      Ok (list_split_at out (Z.to_nat n) top bot,
          fixCriticalDepths crit n (negb isPWave), (next + 2)%Z)
    else Ok (out, crit, next).

  (** taupy/SlownessModel.py:1363-1396.  Returns (out, mutated criticalDepths,
      next identity). *)
  Definition fixOtherLayers (radius : T) (otherLayers : list (slayer T)) (p : T)
             (changed newTop newBot : slayer T) (crit : list (critdepth T)) (isPWave : bool)
             (next : Z) : result (list (slayer T) * list (critdepth T) * Z) :=
    let out := fresh_copy next otherLayers in
    let next := (next + Z.of_nat (List.length otherLayers))%Z in
    let out := match index_of_id (sl_id changed) otherLayers with
               | Some i => list_split_at out i newTop newBot
               | None => out
               end in
    foldM (fixOther_step radius p isPWave) (enumerate out) (out, crit, next).

  (** taupy/helper_classes.py:67-72 (SplitLayerInfo) *)
  Record splitinfo := mkSplit {
    si_sMod : smodel T; si_needed : bool; si_moved : bool; si_rayParam : T }.

  (** taupy/SlownessModel.py:1275-1348.  Returns the receiver after the call (it is
      mutated in the two "very thin layer" cases) and the SplitLayerInfo. *)
  Definition splitLayer (fuel : nat) (m : smodel T) (depth : T) (isPWave : bool)
    : result (smodel T * splitinfo) :=
    let! layerNum := layerNumberAbove fuel m depth isPWave in
    let! y := getSlownessLayer m layerNum isPWave in
    let copy := fresh_copy (sm_next m) (sm_layers m isPWave) in
    let next := (sm_next m + Z.of_nat (List.length (sm_layers m isPWave)))%Z in
    if (sl_topDepth y =? depth) || (sl_botDepth y =? depth)
    then Ok (m, mkSplit m false false n_0)
    else if n_abs (sl_topDepth y - depth) <? n_lit 1 (-6) then
      let! l1 := new_slayer next (sl_topP y) depth (sl_botP y) (sl_botDepth y) in
      let! out := py_setitem copy layerNum l1 in
      let! z := getSlownessLayer m (layerNum - 1) isPWave in
      let! l2 := new_slayer (next + 1)%Z (sl_topP z) (sl_topDepth z) (sl_botP z) depth in
      let! out := py_setitem out (layerNum - 1) l2 in
      let m' := sm_set_layers m (if isPWave then out else sm_P m)
                              (if isPWave then out else sm_S m) (next + 2)%Z in
      Ok (m', mkSplit m' false true (sl_botP z))
    else if n_abs (depth - sl_botDepth y) <? n_lit 1 (-6) then
      let! l1 := new_slayer next (sl_topP y) (sl_topDepth y) (sl_botP y) depth in
      let! out := py_setitem copy layerNum l1 in
      let! z := getSlownessLayer m (layerNum + 1) isPWave in
      let! l2 := new_slayer (next + 1)%Z (sl_topP z) depth (sl_botP z) (sl_botDepth z) in
      let! out := py_setitem out (layerNum + 1) l2 in
      let m' := sm_set_layers m (if isPWave then out else sm_P m)
                              (if isPWave then out else sm_S m) (next + 2)%Z in
      Ok (m', mkSplit m' false true (sl_botP z))
    else
      let! p := evaluateAtBullen y depth (sm_radius m) in
      let! top := new_slayer next (sl_topP y) (sl_topDepth y) p depth in
      let! bot := new_slayer (next + 1)%Z p depth (sl_botP y) (sl_botDepth y) in
      let out := list_split_at copy (Z.to_nat layerNum) top bot in
      let crit := fixCriticalDepths (sm_crit m) layerNum isPWave in
      let! '(other, crit, next) :=
        fixOtherLayers (sm_radius m) (sm_layers m (negb isPWave)) p y top bot crit
                       (negb isPWave) (next + 2)%Z in
      let m' := sm_set_crit (sm_set_layers m (if isPWave then out else other)
                                           (if isPWave then other else out) next) crit in
      Ok (m, mkSplit m' true false p).
End SlownessModel.

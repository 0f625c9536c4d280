(** Model of taupy/VelocityLayer.py and taupy/VelocityModel.py. *)
From Coq Require Import ZArith Bool List String Ascii.
From Verif Require Import Base Num PyStr.
Import ListNotations.
Local Open Scope num_scope.

(** taupy/VelocityLayer.py:14-35 (VelocityLayer.__init__).  The attenuation
    fields Qp/Qs are omitted: they are stored and never read. *)
Record vlayer (T : Type) := mkVLayer {
  vl_num : Z;
  vl_topDepth : T; vl_botDepth : T;
  vl_topP : T; vl_botP : T;
  vl_topS : T; vl_botS : T;
  vl_topD : T; vl_botD : T
}.
Arguments mkVLayer {T}.
Arguments vl_num {T}. Arguments vl_topDepth {T}. Arguments vl_botDepth {T}.
Arguments vl_topP {T}. Arguments vl_botP {T}. Arguments vl_topS {T}. Arguments vl_botS {T}.
Arguments vl_topD {T}. Arguments vl_botD {T}.

(** taupy/VelocityModel.py:16-71 (VelocityModel.__init__) *)
Record vmodel (T : Type) := mkVModel {
  vm_name : string;
  vm_radius : T;
  vm_moho : T; vm_cmb : T; vm_iocb : T;
  vm_minRadius : T; vm_maxRadius : T;
  vm_spherical : bool;
  vm_layers : list (vlayer T)
}.
Arguments mkVModel {T}.
Arguments vm_name {T}. Arguments vm_radius {T}. Arguments vm_moho {T}. Arguments vm_cmb {T}.
Arguments vm_iocb {T}. Arguments vm_minRadius {T}. Arguments vm_maxRadius {T}.
Arguments vm_spherical {T}. Arguments vm_layers {T}.

Section VelocityLayer.
  Context {T : Type} {N : Num T}.

  (** taupy/VelocityLayer.py:37-39 *)
  Definition vl_thickness (l : vlayer T) : T := vl_botDepth l - vl_topDepth l.

  (** taupy/VelocityLayer.py:41-49.  [materialProperty in "rd"] is a substring
      test, so "", "r", "d" and "rd" all mean density. *)
  Definition evaluateAtBottom (l : vlayer T) (prop : string) : result T :=
    let prop := str_lower prop in
    if String.eqb prop "p" then Ok (vl_botP l)
    else if String.eqb prop "s" then Ok (vl_botS l)
    else if str_in prop "rd" then Ok (vl_botD l)
    else Raise TauPException.

  (** taupy/VelocityLayer.py:51-59 *)
  Definition evaluateAtTop (l : vlayer T) (prop : string) : result T :=
    let prop := str_lower prop in
    if String.eqb prop "p" then Ok (vl_topP l)
    else if String.eqb prop "s" then Ok (vl_topS l)
    else if str_in prop "rd" then Ok (vl_topD l)
    else Raise TauPException.

  (** taupy/VelocityLayer.py:61-73 *)
  Definition evaluateAt (l : vlayer T) (depth : T) (prop : string) : result T :=
    let thickness := vl_thickness l in
    let prop := str_lower prop in
    if String.eqb prop "p" then
      let! slope := (vl_botP l - vl_topP l) / thickness in
      Ok (slope * (depth - vl_topDepth l) + vl_topP l)
    else if String.eqb prop "s" then
      let! slope := (vl_botS l - vl_topS l) / thickness in
      Ok (slope * (depth - vl_topDepth l) + vl_topS l)
    else if str_in prop "rd" then
      let! slope := (vl_botD l - vl_topD l) / thickness in
      Ok (slope * (depth - vl_topDepth l) + vl_topD l)
    else Raise TauPException.
End VelocityLayer.

Section VelocityModel.
  Context {T : Type} {N : Num T}.

  (** taupy/VelocityModel.py:84-85, 419-420: is there a first order discontinuity
      between two neighbouring layers? *)
  Definition discon_between (a b : vlayer T) : bool :=
    (vl_botP a <>? vl_topP b) || (vl_botS a <>? vl_topS b).

  (** zip(layers[:-1], layers[1:]), VelocityModel.py:82-83 *)
  Fixpoint adjacent {A} (l : list A) : list (A * A) :=
    match l with
    | a :: ((b :: _) as t) => (a, b) :: adjacent t
    | _ => []
    end.

  (** taupy/VelocityModel.py:77-89 *)
  Definition getDisconDepths (m : vmodel T) : result (list T) :=
    let! first := py_index (vm_layers m) 0 in
    let! lst := py_index (vm_layers m) (-1) in
    Ok (vl_topDepth first
        :: map (fun ab => vl_botDepth (fst ab))
               (filter (fun ab => discon_between (fst ab) (snd ab)) (adjacent (vm_layers m)))
        ++ [vl_botDepth lst]).

  (** taupy/VelocityModel.py:91-93 *)
  Definition getNumLayers (m : vmodel T) : Z := Z.of_nat (List.length (vm_layers m)).

  (** taupy/VelocityModel.py:95-105; the [for] loop with [enumerate] *)
  Fixpoint v_above_go (i : Z) (l : list (vlayer T)) (depth : T) : result Z :=
    match l with
    | [] => Raise TauPException
    | y :: l => if (vl_topDepth y <? depth) && (depth <=? vl_botDepth y) then Ok i
                else v_above_go (i + 1)%Z l depth
    end.
  (** taupy/VelocityModel.py:95-105 *)
  Definition v_layerNumberAbove (m : vmodel T) (depth : T) : result Z :=
    v_above_go 0 (vm_layers m) depth.

  (** taupy/VelocityModel.py:107-117; the [for] loop *)
  Fixpoint v_below_go (i : Z) (l : list (vlayer T)) (depth : T) : result Z :=
    match l with
    | [] => Raise TauPException
    | y :: l => if (vl_topDepth y <=? depth) && (depth <? vl_botDepth y) then Ok i
                else v_below_go (i + 1)%Z l depth
    end.
  (** taupy/VelocityModel.py:107-117 *)
  Definition v_layerNumberBelow (m : vmodel T) (depth : T) : result Z :=
    v_below_go 0 (vm_layers m) depth.

  (** taupy/VelocityModel.py:119-127 *)
  Definition evaluateAbove (m : vmodel T) (depth : T) (prop : string) : result T :=
    let! i := v_layerNumberAbove m depth in
    let! l := py_index (vm_layers m) i in
    evaluateAt l depth prop.

  (** taupy/VelocityModel.py:129-136 *)
  Definition evaluateBelow (m : vmodel T) (depth : T) (prop : string) : result T :=
    let! i := v_layerNumberBelow m depth in
    let! l := py_index (vm_layers m) i in
    evaluateAt l depth prop.

  (** taupy/VelocityModel.py:138-141 *)
  Definition depthAtTop (m : vmodel T) (i : Z) : result T :=
    let! l := py_index (vm_layers m) i in Ok (vl_topDepth l).
  (** taupy/VelocityModel.py:143-146 *)
  Definition depthAtBottom (m : vmodel T) (i : Z) : result T :=
    let! l := py_index (vm_layers m) i in Ok (vl_botDepth l).

  (** taupy/VelocityModel.py:208-262: the loop over layers in [validate];
      [prevBot] is prevVelocityLayer.botDepth (the only field read). *)
  Fixpoint v_validate_layers (prevBot : T) (l : list (vlayer T)) : bool :=
    match l with
    | [] => true
    | c :: l =>
        if prevBot <>? vl_topDepth c then false
        else if vl_botDepth c =? vl_topDepth c then false
        else if (vl_topP c <=? n_0) || (vl_botP c <=? n_0) then false
        else if (vl_topS c <? n_0) || (vl_botS c <? n_0) then false
        else if ((vl_topP c <>? n_0) && (vl_botP c =? n_0))
                || ((vl_topP c =? n_0) && (vl_botP c <>? n_0)) then false
        else if ((vl_topS c <>? n_0) && (vl_botS c =? n_0))
                || ((vl_topS c =? n_0) && (vl_botS c <>? n_0)) then false
        else v_validate_layers (vl_botDepth c) l
    end.

  (** taupy/VelocityModel.py:148-262.  The messages printed are not modelled. *)
  Definition v_validate (m : vmodel T) : result bool :=
    if vm_radius m <=? n_0 then Ok false
    else if vm_moho m <? n_0 then Ok false
    else if vm_cmb m <? vm_moho m then Ok false
    else if vm_cmb m <=? n_0 then Ok false
    else if vm_iocb m <? vm_cmb m then Ok false
    else if vm_iocb m <=? n_0 then Ok false
    else if vm_minRadius m <? n_0 then Ok false
    else if vm_maxRadius m <=? n_0 then Ok false
    else if vm_maxRadius m <=? vm_minRadius m then Ok false
    else
      let! first := py_index (vm_layers m) 0 in
      Ok (v_validate_layers (vl_topDepth first) (vm_layers m)).

  (** Loop state of fixDisconDepths: (mohoMin, tempMoho), (cmbMin, tempCmb),
      (iocbMin, tempIocb). *)
  Record fix_state := mkFix {
    fx_mohoMin : T; fx_moho : T; fx_cmbMin : T; fx_cmb : T; fx_iocbMin : T; fx_iocb : T }.

  (** taupy/VelocityModel.py:416-433: one iteration of the loop body *)
  Definition fix_step (m : vmodel T) (s : fix_state) (ab : vlayer T * vlayer T) : fix_state :=
    let '(above, below) := ab in
    if discon_between above below then
      let d := vl_botDepth above in
      let dm := n_abs (vm_moho m - d) in
      let dc := n_abs (vm_cmb m - d) in
      let di := n_abs (vm_iocb m - d) in
      let '(mm, tm) := if dm <? fx_mohoMin s then (dm, d) else (fx_mohoMin s, fx_moho s) in
      let '(cm, tc) := if dc <? fx_cmbMin s then (dc, d) else (fx_cmbMin s, fx_cmb s) in
      let '(im, ti) := if (vl_botS above =? n_0) && (vl_topS below >? n_0) && (di <? fx_iocbMin s)
                       then (di, d) else (fx_iocbMin s, fx_iocb s) in
      mkFix mm tm cm tc im ti
    else s.

  (** taupy/VelocityModel.py:397-443.  Returns the mutated model and the return
      value.  The index loop [while layerNum < getNumLayers()-1] reading layers
      layerNum and layerNum+1 is the fold over [adjacent]. *)
  Definition fixDisconDepths (m : vmodel T) : vmodel T * bool :=
    let s0 := mkFix (n_lit 65 0) n_0
                    (vm_radius m) (vm_radius m)
                    (vm_radius m - n_lit 100 0) (vm_radius m) in
    let s := fold_left (fix_step m) (adjacent (vm_layers m)) s0 in
    let changeMade := (vm_moho m <>? fx_moho s) || (vm_cmb m <>? fx_cmb s)
                      || (vm_iocb m <>? fx_iocb s) in
    let iocb := if fx_cmb s <>? fx_iocb s then fx_iocb s else vm_radius m in
    (mkVModel (vm_name m) (vm_radius m) (fx_moho s) (fx_cmb s) iocb
              (vm_minRadius m) (vm_maxRadius m) (vm_spherical m) (vm_layers m),
     changeMade).
End VelocityModel.

Section Reading.
  Context {T : Type} {N : Num T}.
  (** Python's [float(str)]; [None] is ValueError.  A parameter: the decimal
      parser of CPython is not modelled. *)
  Variable py_float : string -> option T.

  (** [float(columns[i])] *)
  Definition float_col (cols : list string) (i : Z) : result T :=
    let! c := py_index cols i in
    match py_float c with Some x => Ok x | None => Raise ValueError end.

  (** taupy/VelocityModel.py:337-350 (first data line) and 354-372 (following
      lines): the columns (depth, P, S, density).  The [len(columns) > 4] test at
      370 is after the [!= 4] test and cannot fire. [rstrip] before [split] has no
      effect. *)
  Definition read_row (line : string) : result (T * T * T * T) :=
    let columns := str_split (before_hash line) in
    let! depth := float_col columns 0 in
    let! p := float_col columns 1 in
    let! s := float_col columns 2 in
    if s >? p then Raise TauPException
    else if negb (Nat.eqb (List.length columns) 4) then Raise ValueError
    else
      let! d := float_col columns 3 in
      Ok (depth, p, s, d).

  (** taupy/VelocityModel.py:353-386: the loop over the remaining lines.  State:
      layers so far, next layer number, current top row. *)
  Fixpoint read_rows (lines : list string) (num : Z) (top : T * T * T * T)
    : result (list (vlayer T) * (T * T * T * T)) :=
    match lines with
    | [] => Ok ([], top)
    | line :: lines =>
        let! bot := read_row line in
        let '(td, tp, ts, tr) := top in
        let '(bd, bp, bs, br) := bot in
        let layer := mkVLayer num td bd tp bp ts bs tr br in
        if td <>? bd then
          let! rest := read_rows lines (num + 1)%Z bot in
          Ok (layer :: fst rest, snd rest)
        else read_rows lines num bot
    end.

  (** taupy/VelocityModel.py:307-395.  The file is its list of lines (a missing
      line reads as ""); [basename] is [os.path.basename(filename)]. *)
  Definition readTVelFile (basename : string) (lines : list string) : result (vmodel T) :=
    let line := nth 2 lines EmptyString in
    let! top := read_row line in
    let! r := read_rows (skipn 3 lines) 0 top in
    let '(layers, (d, _, _, _)) := r in
    Ok (mkVModel (substring 0 (String.length basename - 5) basename)
                 d (n_lit 35 0) (n_lit 2889 0) (n_lit 51539 (-1))
                 n_0 d true layers).

  (** taupy/VelocityModel.py:275-305.  [lines] is the content of the file. *)
  Definition readVelocityFile (filename basename : string) (lines : list string)
    : result (vmodel T) :=
    if str_endswith ".nd" filename then Raise NotImplementedError
    else if str_endswith ".tvel" filename then
      let! m := readTVelFile basename lines in
      Ok (fst (fixDisconDepths m))
    else Raise TauPException.
End Reading.

(** Model of the creation of tau models: taupy/TauP_Create.py, [create_taup_model] in taupy/tau.py and
    [build_models] in setup.py. *)
From Coq Require Import ZArith Bool List String Ascii.
From Verif Require Import Base Num PyStr VelocityModel SlownessLayer SlownessModel TauModel TauPTime Api.
Import ListNotations.
Local Open Scope string_scope.

(** [p[:p.rfind(c) + 1]]: the text up to the last [c], inclusive *)
Fixpoint upto_last (c : ascii) (s : string) : string :=
  match s with
  | EmptyString => EmptyString
  | String x s' =>
      if str_in (String c EmptyString) s' then String x (upto_last c s')
      else if Ascii.eqb x c then String x EmptyString else EmptyString
  end.
(** [s.rstrip(c)] *)
Fixpoint strip_end (c : ascii) (s : string) : string :=
  match s with
  | EmptyString => EmptyString
  | String x s' =>
      match strip_end c s' with
      | EmptyString => if Ascii.eqb x c then EmptyString else String x EmptyString
      | r => String x r
      end
  end.
(** [os.path.dirname] (POSIX): the text before the last slash, without slashes at its end unless it consists of slashes only *)
Definition dirname (s : string) : string :=
  let head := upto_last "/" s in
  match strip_end "/" head with EmptyString => head | r => r end.

Section Create.
  Context {T : Type} {N : Num T} {L : Libm T}.
  Variable py_float : string -> option T.
  Local Open Scope num_scope.

  (** contents of files: lines of text, or a pickled model (a loaded model is the value itself) *)
  Inductive content := Text (lines : list string) | Pickled (t : tmodel T).
  (** The disk: files and directories by the text of their path, and the paths that the process may create or overwrite.
      [None] as a result stands for an OSError, which is IOError in Python 3. *)
  Record disk := mkDisk { d_file : string -> option content; d_dir : string -> bool; d_may : string -> bool }.

  (** [os.path.exists] *)
  Definition path_exists (d : disk) (p : string) : bool :=
    d_dir d p || match d_file d p with Some _ => true | None => false end.
  (** [q] is [p] or an ancestor of it *)
  Definition leads_to (q p : string) : bool := String.eqb q p || str_startswith (q ++ "/") p.
  (** [os.makedirs]: fails for the empty path; else makes the directory and its missing ancestors *)
  Definition makedirs (d : disk) (p : string) : option disk :=
    if String.eqb p "" then None
    else if d_may d p then Some (mkDisk (d_file d) (fun q => d_dir d q || leads_to q p) (d_may d))
    else None.
  (** taupy/TauModel.py:164-166: [open(outfile, 'w+b')] needs an existing directory ("" is the current one) *)
  Definition writeModel (d : disk) (t : tmodel T) (p : string) : option disk :=
    let q := dirname p in
    if (String.eqb q "" || d_dir d q) && negb (d_dir d p) && d_may d p
    then Some (mkDisk (fun s => if String.eqb s p then Some (Pickled t) else d_file d s) (d_dir d) (d_may d))
    else None.

  (** taupy/TauP_Create.py:24-36: the attributes assigned in __init__ *)
  Record creator := mkCreator {
    cr_in : string; cr_out : string; cr_minDeltaP : T; cr_maxDeltaP : T; cr_maxDepthInterval : T;
    cr_maxRangeInterval : T; cr_maxInterpError : T; cr_innerS : bool }.
  (** taupy/TauP_Create.py:24-36 with the default values *)
  Definition newCreate (input output : string) : creator :=
    mkCreator input output (n_lit 1 (-1)) (n_lit 110 (-1)) (n_lit 1150 (-1)) (n_lit 25 (-1)) (n_lit 5 (-2)) true.

  (** taupy/TauP_Create.py:38-66: the type of file is found from its name before it is opened (taupy/VelocityModel.py:285-300).
      [readVelocityFile] never returns None. *)
  Definition loadVMod (d : disk) (c : creator) : result (vmodel T) :=
    match d_file d (cr_in c) with
    | Some (Text lines) => readVelocityFile py_float (cr_in c) (basename (cr_in c)) lines
    | Some (Pickled _) => if str_endswith ".tvel" (cr_in c) then Raise ValueError (* not text *)
                          else readVelocityFile py_float (cr_in c) (basename (cr_in c)) []
    | None => if str_endswith ".tvel" (cr_in c) then Raise FileNotFoundError
              else readVelocityFile py_float (cr_in c) (basename (cr_in c)) []
    end.

  (** taupy/TauP_Create.py:68-107; the bare [Exception] of line 74 is shown as RuntimeError.  The range interval is
      converted to radians. *)
  Definition createTauModel (fuel : nat) (c : creator) (vm : vmodel T) : result (tmodel T) :=
    if negb (vm_spherical vm) then Raise RuntimeError
    else
      let! dx := cr_maxRangeInterval c * m_pi / n_lit 1800 (-1) in
      let! m := newSlownessModel fuel vm (cr_minDeltaP c) (cr_maxDeltaP c) (cr_maxDepthInterval c) dx
                                 (cr_maxInterpError c) (cr_innerS c) (n_lit 1 (-16)) in
      newTauModel fuel m.

  (** taupy/TauP_Create.py:109-136.  [vm] is the attribute vMod, which only [loadVMod] sets.  [createTauModel] does no input or
      output, so IOError comes from making the directory or from writing only; it is printed and forgotten.  No modelled
      operation raises KeyError. *)
  Definition create_run (fuel : nat) (c : creator) (vm : option (vmodel T)) (d : disk) : result disk :=
    match vm with
    | None => Raise AttributeError
    | Some vm =>
        let! t := createTauModel fuel c vm in
        let q := dirname (cr_out c) in
        match (if path_exists d q then Some d else makedirs d q) with
        | None => Ok d
        | Some d' => match writeModel d' t (cr_out c) with Some d'' => Ok d'' | None => Ok d' end
        end
    end.

  (** setup.py:25-46; [listing] = the paths that glob finds, [dir], [ver] as in [get_model_filename] *)
  Definition build_models (fuel : nat) (dir ver : string) (listing : list string) (d : disk) : result disk :=
    foldM (fun d model =>
             let c := newCreate model (get_model_filename dir ver model) in
             let! vm := loadVMod d c in
             create_run fuel c (Some vm) d) listing d.

  (** taupy/TauP_Create.py:24, 38, 68, 109: the names defined in the class *)
  Definition create_attrs : list string := ["__init__"; "loadVMod"; "createTauModel"; "run"].
  (** taupy/tau.py:129-139; [main] = what the method of that name would do *)
  Definition create_taup_model (main : string -> string -> string -> result disk) (model_name output_dir input_dir : string)
    : result disk :=
    let file := if str_in "." model_name then model_name else model_name ++ ".tvel" in
    let! _ := get_attr create_attrs "main" in
    main file output_dir input_dir.
End Create.
Arguments content T : clear implicits.
Arguments disk T : clear implicits.
Arguments creator T : clear implicits.

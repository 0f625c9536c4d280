(** Model of the high level interface in taupy/tau.py for pierce points and ray paths: attribute
    reads and the binding of call arguments. *)
From Coq Require Import ZArith Bool List String.
From Verif Require Import Base PyStr.
Import ListNotations.
Local Open Scope string_scope.

(** [o.name] for an object of which only the names of the attributes matter *)
Definition get_attr (attrs : list string) (name : string) : result unit :=
  if str_mem name attrs then Ok tt else Raise AttributeError.

(** Python's binding of a call with [npos] positional arguments (including [self]) and the keyword
    arguments [kws] to a function with parameters [params] = (name, has a default). *)
Definition bind_call (params : list (string * bool)) (npos : nat) (kws : list string) : result unit :=
  let names := map fst params in
  if (List.length params <? npos)%nat then Raise TypeError
  else if negb (forallb (fun k => str_mem k names) kws) then Raise TypeError
  else if existsb (fun k => str_mem k (firstn npos names)) kws then Raise TypeError
  else if existsb (fun p => negb (snd p) && negb (str_mem (fst p) kws)) (skipn npos params)
       then Raise TypeError
  else Ok tt.

(** taupy/TauP_Time.py:25-26: def __init__ *)
Definition params_time : list (string * bool) :=
  [("self", false); ("taupy_model", false); ("phaseList", true); ("depth", true); ("degrees", true);
   ("coordinate_list", true)].
(** taupy/TauP_Pierce.py:17-19 and taupy/TauP_Path.py:18-20: def __init__ *)
Definition params_pierce : list (string * bool) :=
  [("self", false); ("phaseList", true); ("modelName", true); ("depth", true); ("degrees", true);
   ("coordinate_list", true); ("taup_model_path", true)].

(** taupy/tau.py:34-72, 74, 104, 116: names that a TauPyModel has - those assigned in __init__ and the
    methods of the class.  Those every object has (__class__, ...) are left out. *)
Definition taupy_model_attrs : list string :=
  ["verbose"; "model"; "get_travel_times"; "get_pierce_points"; "get_ray_paths"].

Section Api.
  (** result of a query *)
  Context {A : Type}.

  (** taupy/TauP_Pierce.py:17-31: __init__ up to and including the call of TauP_Time.__init__;
      [rest] is everything after it, including run(). *)
  Definition pierce_init (npos : nat) (kws : list string) (rest : result A) : result A :=
    let! _ := bind_call params_pierce npos kws in
    let! _ := bind_call params_time 1 ["coordinate_list"; "taup_model_path"] in
    rest.

  (** taupy/TauP_Path.py:18-30: __init__ calls TauP_Pierce.__init__ first *)
  Definition path_init (npos : nat) (kws : list string) (rest : result A) : result A :=
    let! _ := bind_call params_pierce npos kws in
    pierce_init 1 ["coordinate_list"; "taup_model_path"] rest.

  (** taupy/tau.py:104-114.  [extra] are attributes a user has set on the object.  The reads of
      sMod, vMod and modelName of a loaded model succeed. *)
  Definition get_pierce_points (extra : list string) (rest : result A) : result A :=
    let self := (taupy_model_attrs ++ extra)%list in
    let! _ := get_attr self "model" in
    let! _ := get_attr self "taup_model_path" in
    pierce_init 7 [] rest.

  (** taupy/tau.py:116-126 *)
  Definition get_ray_paths (extra : list string) (rest : result A) : result A :=
    let self := (taupy_model_attrs ++ extra)%list in
    let! _ := get_attr self "model" in
    let! _ := get_attr self "taup_model_path" in
    path_init 7 [] rest.
End Api.

(** Specification of velocity models, independent of the functions of the model
    (only the record types and Python's comparisons are used). *)
From Coq Require Import ZArith Bool List String Ascii Reals.
From Verif Require Import Base Num VelocityModel NameSpec.
Import ListNotations.

Section Spec.
  Context {T : Type} {N : Num T}.
  Local Open Scope num_scope.

  (** [layer ls i l]: the i-th layer, counted from 0 *)
  Definition nth_layer (ls : list (vlayer T)) (i : Z) (l : vlayer T) : Prop :=
    (0 <= i)%Z /\ nth_error ls (Z.to_nat i) = Some l.

  (** neighbouring layers meet *)
  Definition contiguous (ls : list (vlayer T)) : Prop :=
    forall i a b, nth_layer ls i a -> nth_layer ls (i + 1) b ->
      vl_botDepth a =? vl_topDepth b = true.
  (** every layer has positive thickness *)
  Definition thick (ls : list (vlayer T)) : Prop :=
    forall l, In l ls -> vl_topDepth l <? vl_botDepth l = true.

  (** between layers [i] and [i+1] velocities jump, at depth [x] *)
  Definition discon (ls : list (vlayer T)) (i : Z) (x : T) : Prop :=
    exists a b, nth_layer ls i a /\ nth_layer ls (i + 1) b /\ x = vl_botDepth a /\
      ~ (vl_botP a =? vl_topP b = true /\ vl_botS a =? vl_topS b = true).
  (** fluid above, solid below *)
  Definition discon_fluid_solid (ls : list (vlayer T)) (i : Z) (x : T) : Prop :=
    discon ls i x /\ exists a b, nth_layer ls i a /\ nth_layer ls (i + 1) b /\
      vl_botS a =? n_0 = true /\ n_0 <? vl_topS b = true.

  (** [r] is the first of the candidates [cand] nearest to [d0] among those closer than
      [lim], and [dflt] if there is none *)
  Definition nearest_within (cand : Z -> T -> Prop) (d0 lim dflt r : T) : Prop :=
    (r = dflt /\ forall i x, cand i x -> n_abs (d0 - x) <? lim = false)
    \/ exists i, cand i r /\ n_abs (d0 - r) <? lim = true /\
         forall j x, cand j x ->
           ((j < i)%Z -> n_abs (d0 - x) <=? n_abs (d0 - r) = false) /\
           ((i < j)%Z -> n_abs (d0 - x) <? n_abs (d0 - r) = false).

  (** what [validate] promises *)
  Definition header_ok (m : vmodel T) : Prop :=
    n_0 <? vm_radius m = true /\
    n_0 <=? vm_moho m = true /\ vm_moho m <=? vm_cmb m = true /\ vm_cmb m <=? vm_iocb m = true /\
    n_0 <? vm_cmb m = true /\
    n_0 <=? vm_minRadius m = true /\ vm_minRadius m <? vm_maxRadius m = true.
  Definition layer_ok (l : vlayer T) : Prop :=
    ~ vl_topDepth l =? vl_botDepth l = true /\
    n_0 <? vl_topP l = true /\ n_0 <? vl_botP l = true /\
    n_0 <=? vl_topS l = true /\ n_0 <=? vl_botS l = true /\
    (vl_topS l =? n_0 = true <-> vl_botS l =? n_0 = true).

  (** no NaN anywhere *)
  Definition model_numbers (m : vmodel T) : Prop :=
    n_ok (vm_radius m) /\ n_ok (vm_moho m) /\ n_ok (vm_cmb m) /\ n_ok (vm_iocb m) /\
    n_ok (vm_minRadius m) /\ n_ok (vm_maxRadius m) /\
    forall l, In l (vm_layers m) ->
      n_ok (vl_topDepth l) /\ n_ok (vl_botDepth l) /\ n_ok (vl_topP l) /\ n_ok (vl_botP l) /\
      n_ok (vl_topS l) /\ n_ok (vl_botS l).
End Spec.

(** [values l prop tv bv]: the property called [prop] is [tv] at the top and [bv] at the
    bottom of [l]; P, S and density, in upper or lower case (any substring of "rd" is
    accepted for density) *)
Definition density_words : list string := [""; "r"; "d"; "rd"]%string.
Definition values {T} (l : vlayer T) (prop : string) (tv bv : T) : Prop :=
  (same_word prop "p" /\ tv = vl_topP l /\ bv = vl_botP l)
  \/ (same_word prop "s" /\ tv = vl_topS l /\ bv = vl_botS l)
  \/ ((exists w, In w density_words /\ same_word prop w) /\ tv = vl_topD l /\ bv = vl_botD l).
Definition known_property (prop : string) : Prop :=
  exists w, In w ("p" :: "s" :: density_words)%string /\ same_word prop w.

(** the straight line through (x0, y0) and (x1, y1) *)
Definition line (x0 y0 x1 y1 x : R) : R := (y0 + (y1 - y0) * ((x - x0) / (x1 - x0)))%R.

(** ** .tvel files *)

(** white space *)
Definition space (c : ascii) : Prop :=
  (9 <= nat_of_ascii c <= 13)%nat \/ (28 <= nat_of_ascii c <= 32)%nat.
Definition all_chars (P : ascii -> Prop) (s : string) : Prop :=
  Forall P (list_ascii_of_string s).

(** [words s l]: [l] are the maximal runs of non-space characters of [s] *)
Inductive words : string -> list string -> Prop :=
| words_nil : words "" []
| words_space : forall c s l, space c -> words s l -> words (String c s) l
| words_end : forall w, w <> ""%string -> all_chars (fun c => ~ space c) w -> words w [w]
| words_word : forall w c s l, w <> ""%string -> all_chars (fun c => ~ space c) w -> space c ->
    words s l -> words (w ++ String c s) (w :: l).

(** [content line s]: [s] is the part before a comment *)
Definition content (line s : string) : Prop :=
  ~ has_char "#" s /\ (line = s \/ exists rest, line = (s ++ String "#" rest)%string).

Section Tvel.
  Context {T : Type} {N : Num T}.
  Local Open Scope num_scope.
  Variable py_float : string -> option T.

  (** a good data line: depth, P, S, density *)
  Definition row_of (line : string) (r : T * T * T * T) : Prop :=
    exists s c0 c1 c2 c3 d p v rho,
      content line s /\ words s [c0; c1; c2; c3] /\ r = (d, p, v, rho) /\
      py_float c0 = Some d /\ py_float c1 = Some p /\ py_float c2 = Some v /\
      py_float c3 = Some rho /\ v >? p = false.

  (** the exception for a bad data line *)
  Definition bad_row (line : string) (e : exn) : Prop :=
    exists s cols, content line s /\ words s cols /\
    ((* fewer than three columns, those present being numbers *)
     ((List.length cols < 3)%nat /\ (forall c, In c cols -> py_float c <> None) /\ e = IndexError)
     \/ (* one of the first three is not a number *)
     ((exists i c, (i < 3)%nat /\ nth_error cols i = Some c /\ py_float c = None) /\ e = ValueError)
     \/ exists c0 c1 c2 rest d p v,
          cols = c0 :: c1 :: c2 :: rest /\ py_float c0 = Some d /\ py_float c1 = Some p /\
          py_float c2 = Some v /\
          ((v >? p = true /\ e = TauPException)
           \/ (v >? p = false /\ List.length cols <> 4%nat /\ e = ValueError)
           \/ (v >? p = false /\ (exists c3, rest = [c3] /\ py_float c3 = None) /\ e = ValueError))).

  Definition row_depth (r : T * T * T * T) : T := let '(d, _, _, _) := r in d.

  (** the layers between consecutive rows of different depth, numbered from [n] *)
  Inductive layers_of : Z -> list (T * T * T * T) -> list (vlayer T) -> Prop :=
  | lo_one : forall n r, layers_of n [r] []
  | lo_skip : forall n r1 r2 rs ls, row_depth r1 =? row_depth r2 = true ->
      layers_of n (r2 :: rs) ls -> layers_of n (r1 :: r2 :: rs) ls
  | lo_layer : forall n d1 p1 v1 g1 d2 p2 v2 g2 rs ls, d1 =? d2 = false ->
      layers_of (n + 1) ((d2, p2, v2, g2) :: rs) ls ->
      layers_of n ((d1, p1, v1, g1) :: (d2, p2, v2, g2) :: rs)
                  (mkVLayer n d1 d2 p1 p2 v1 v2 g1 g2 :: ls).
End Tvel.

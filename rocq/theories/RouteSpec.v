(** The rays that standard phase names stand for, in terms of the branches they cross (property C32).
    Independent of the code that builds phases. *)
From Coq Require Import ZArith Bool List String.
From Verif Require Import NameSpec.
Import ListNotations.
Local Open Scope string_scope.
Local Open Scope list_scope.

(** A layered Earth: branches are numbered from the surface.  [source] is the branch below the source,
    [moho], [cmb] and [iocb] are the first branches below these boundaries, [n] is the number of branches. *)
Section Route.
  Variables source moho cmb iocb n : Z.

  (** one crossing: branch, downwards?, compressional? *)
  Definition crossing : Type := (Z * bool * bool)%type.

  (** the branches a, a+1, ..., b-1 *)
  Definition branches (a b : Z) : list Z := map Z.of_nat (seq (Z.to_nat a) (Z.to_nat b - Z.to_nat a)).
  Definition down (w : bool) (a b : Z) : list crossing := map (fun i => (i, true, w)) (branches a b).
  Definition up (w : bool) (a b : Z) : list crossing := map (fun i => (i, false, w)) (rev (branches a b)).

  (** P legs are compressional, S legs are shear waves *)
  Inductive mantle_leg : string -> bool -> Prop := ml_P : mantle_leg "P" true | ml_S : mantle_leg "S" false.
  Inductive inner_leg : string -> bool -> Prop := il_I : inner_leg "I" true | il_J : inner_leg "J" false.
  Inductive up_leg : string -> bool -> Prop := ul_p : up_leg "p" true | ul_s : up_leg "s" false.

  (** Turning in the inner core, with any number of reflections from beneath at its boundary; the boolean
      is the type of the last leg. *)
  Inductive inner_core : list string -> bool -> list crossing -> Prop :=
  | ic_one : forall x w, inner_leg x w -> inner_core [x] w (down w iocb n ++ up w iocb n)
  | ic_more : forall x w l w' path, inner_leg x w -> inner_core l w' path ->
      inner_core (x :: l) w' (down w iocb n ++ up w iocb n ++ path).

  (** From the core-mantle boundary through the outer core back to this boundary: turning in the outer core
      (K), reflected at the inner core (KiK) or passing it (KIK).  The outer core is fluid; a K leg carries
      the label of the leg that led into it. *)
  Inductive bounce (w : bool) : list string -> bool -> list crossing -> Prop :=
  | bo_turn : bounce w ["K"] w (down w cmb iocb ++ up w cmb iocb)
  | bo_reflect : bounce w ["K"; "i"; "K"] w (down w cmb iocb ++ up w cmb iocb)
  | bo_inner : forall l w' path, inner_core l w' path ->
      bounce w ("K" :: l ++ ["K"]) w' (down w cmb iocb ++ path ++ up w' cmb iocb).
  (** any number of reflections from beneath the core-mantle boundary *)
  Inductive core : bool -> list string -> bool -> list crossing -> Prop :=
  | co_one : forall w l w' path, bounce w l w' path -> core w l w' path
  | co_more : forall w l w1 path l' w2 path', bounce w l w1 path -> core w1 l' w2 path' ->
      core w (l ++ l') w2 (path ++ path').

  (** From branch [start] down and up to the surface: turning in the mantle (P), reflected at the core
      (PcS), through the core (PKS) or along the Moho (Pn) *)
  Inductive ray (start : Z) : list string -> list crossing -> Prop :=
  | ra_turn : forall x w, mantle_leg x w -> ray start [x] (down w start cmb ++ up w 0 cmb)
  | ra_reflect : forall x w y v, mantle_leg x w -> mantle_leg y v ->
      ray start [x; "c"; y] (down w start cmb ++ up v 0 cmb)
  | ra_core : forall x w l w' path y v, mantle_leg x w -> core w l w' path -> mantle_leg y v ->
      ray start (x :: l ++ [y]) (down w start cmb ++ path ++ up v 0 cmb)
  | ra_moho : forall x w, mantle_leg x w ->
      ray start [(x ++ "n")%string] (down w start (moho + 1) ++ up w 0 (moho + 1)).
  (** diffracted along the core-mantle boundary, or turning above the Moho *)
  Inductive slow_ray (start : Z) : list string -> list crossing -> Prop :=
  | sr_diff : forall x w, mantle_leg x w ->
      slow_ray start [(x ++ "diff")%string] (down w start cmb ++ up w 0 cmb)
  | sr_crust : forall x w, mantle_leg x w ->
      slow_ray start [(x ++ "g")%string] (down w start moho ++ up w 0 moho).

  (** any number of surface reflections; diffracted and crustal rays first *)
  Inductive rays : Z -> list string -> list crossing -> Prop :=
  | rs_one : forall start l path, ray start l path -> rays start l path
  | rs_more : forall start l path l' path', ray start l path -> rays 0 l' path' ->
      rays start (l ++ l') (path ++ path').
  Inductive all_rays_from : Z -> list string -> list crossing -> Prop :=
  | ar_plain : forall start l path, rays start l path -> all_rays_from start l path
  | ar_one : forall start l path, slow_ray start l path -> all_rays_from start l path
  | ar_more : forall start l path l' path', slow_ray start l path -> all_rays_from 0 l' path' ->
      all_rays_from start (l ++ l') (path ++ path').

  (** a whole phase: up from the source to the surface (p), this followed by rays from the surface
      (pPKP), or rays from the source *)
  Inductive textbook : list string -> list crossing -> Prop :=
  | te_down : forall l path, all_rays_from source l path -> textbook l path
  | te_up : forall x w, up_leg x w -> textbook [x] (up w 0 source)
  | te_depth : forall x w l path, up_leg x w -> all_rays_from 0 l path ->
      textbook (x :: l) (up w 0 source ++ path).
End Route.

(** legs that exist only if some ray grazes the boundary *)
Definition boundary_legs : list string := ["Pdiff"; "Sdiff"; "Pg"; "Sg"; "Pn"; "Sn"].

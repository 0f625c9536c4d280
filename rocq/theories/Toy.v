(** An executable instance of the mathematics library on doubles and a small Earth
    model, used only to exhibit concrete cases in the property files (no theorem
    depends on it).  The functions are plain series; they model no code in /repo. *)
From Coq Require Import ZArith Bool List String Ascii SpecFloat.
From Verif Require Import Base Num PyStr VelocityModel SlownessLayer SlownessModel TauModel Legs
  SeismicPhase Pierce TauPTime.
Import ListNotations.
Local Open Scope num_scope.

Definition fdiv : b64 -> b64 -> b64 := SFdiv 53 1024.
Definition fsqrt : b64 -> b64 := SFsqrt 53 1024.

(** sum of t_k / c_k with t_(k+1) = t_k * q *)
Fixpoint series (n : nat) (t q : b64) (c : Z) (step : Z) : b64 :=
  match n with
  | O => n_0
  | S n => fdiv t (n_int c) + series n (t * q) q (c + step) step
  end.
(** sum of t * q^k / (c (c+1) ... ) two factors per step when [two] *)
Fixpoint fseries (n : nat) (t q : b64) (c : Z) (two : bool) : b64 :=
  match n with
  | O => n_0
  | S n => t + fseries n (if two then fdiv (t * q) (n_int (c * (c + 1)))
                          else fdiv (t * q) (n_int c)) q (if two then c + 2 else c + 1)%Z two
  end.

Definition f_pi : b64 := fdiv (n_int 3141592653589793) (n_int 1000000000000000).
Definition ln_near (x : b64) : b64 :=
  let z := fdiv (x - n_1) (x + n_1) in n_2 * series 9 z (z * z) 1 2.
Definition f_ln2 : b64 := ln_near n_2.
Fixpoint f_ln (n : nat) (x : b64) : b64 :=
  match n with
  | O => n_0
  | S n => if n_2 <? x then f_ln n (fdiv x n_2) + f_ln2
           else if x <? fdiv n_1 n_2 then f_ln n (x * n_2) - f_ln2 else ln_near x
  end.
Definition f_exp (x : b64) : b64 :=
  let e := fseries 12 n_1 (fdiv x (n_int 16)) 1 false in
  let e := e * e in let e := e * e in let e := e * e in e * e.
Definition f_sin (x : b64) : b64 := fseries 12 x (- (x * x)) 2 true.
Definition f_cos (x : b64) : b64 := fseries 12 n_1 (- (x * x)) 1 true.
Definition f_half (x : b64) : b64 := fdiv x (n_1 + fsqrt (n_1 + x * x)).
Definition f_atan (x : b64) : b64 :=
  let y := f_half (f_half (f_half x)) in n_int 8 * series 5 y (- (y * y)) 1 2.
Definition f_atan2 (y x : b64) : b64 :=
  if n_0 <? x then f_atan (fdiv y x)
  else if x <? n_0 then (if y <? n_0 then f_atan (fdiv y x) - f_pi else f_atan (fdiv y x) + f_pi)
  else if n_0 <? y then fdiv f_pi n_2 else if y <? n_0 then - fdiv f_pi n_2 else n_0.
Definition f_pow (x y : b64) : b64 := f_exp (y * f_ln 64 x).

#[export] Instance Libm_toy : Libm b64 := {
  m_pi := f_pi;
  m_sqrt := fun x => if x <? n_0 then Raise ValueError else Ok (fsqrt x);
  m_log := fun x => if x <=? n_0 then Raise ValueError else Ok (f_ln 64 x);
  m_exp := fun x => Ok (f_exp x);
  m_pow := fun x y => Ok (f_pow x y);
  m_nppow := fun x y => Ok (f_pow x y);
  m_sin := fun x => Ok (f_sin x);
  m_cos := fun x => Ok (f_cos x);
  m_asin := fun x => if n_1 <? n_abs x then Raise ValueError
                     else Ok (f_atan2 x (fsqrt (n_1 - x * x)));
  m_acos := fun x => if n_1 <? n_abs x then Raise ValueError
                     else Ok (f_atan2 (fsqrt (n_1 - x * x)) x);
  m_mod := fun x y => Ok (x - y * n_int (b64_ceil (fdiv x y) - 1));
  m_atan2 := fun y x => Ok (f_atan2 y x)
}.

Definition d (m e : Z) : b64 := n_lit m e.

(** crust, mantle, liquid outer core, solid inner core *)
Definition toy_vm : vmodel b64 :=
  mkVModel "toy" (d 6371 0) (d 35 0) (d 2889 0) (d 5154 0) (d 0 0) (d 6371 0) true
    [ mkVLayer 0 (d 0 0) (d 35 0) (d 6 0) (d 6 0) (d 35 (-1)) (d 35 (-1)) (d 26 (-1)) (d 26 (-1));
      mkVLayer 1 (d 35 0) (d 2889 0) (d 8 0) (d 13 0) (d 45 (-1)) (d 7 0) (d 3 0) (d 5 0);
      mkVLayer 2 (d 2889 0) (d 5154 0) (d 8 0) (d 10 0) (d 0 0) (d 0 0) (d 10 0) (d 12 0);
      mkVLayer 3 (d 5154 0) (d 6371 0) (d 11 0) (d 115 (-1)) (d 35 (-1)) (d 37 (-1)) (d 12 0) (d 13 0) ].

Definition toy_sm : result (smodel b64) :=
  newSlownessModel 200 toy_vm (d 1 (-1)) (d 1000 0) (d 3000 0) (d 1000 0) (d 1000 0) true (d 1 (-16)).

Definition result_get {A} (r : result A) (a : A) : A := match r with Ok x => x | _ => a end.

(** the sampled model and the tau model, computed once *)
Definition toy_sMod : smodel b64 :=
  Eval vm_compute in
    result_get toy_sm (sm_init toy_vm (d 0 0) (d 0 0) (d 0 0) (d 0 0) (d 0 0) true (d 0 0)).
Definition toy_tMod : tmodel b64 :=
  Eval vm_compute in
    result_get (newTauModel 200 toy_sMod)
      (mkTM toy_sMod [] [] [] 0 0 0 (d 0 0) (d 0 0) (d 0 0) (d 0 0) 0 (d 0 0)).

Definition no_show (x : b64) : string := ""%string.
(** a query on it: names and times of the arrivals, rounded up to whole seconds *)
Definition toy_query (names : list string) (depth degrees : Z) : result (list (string * Z)) :=
  let! r := get_travel_times no_show 50 (nodup string_dec) [] toy_tMod (d depth 0)
                             (Some (d degrees 0)) (Some names) None in
  Ok (map (fun a => (ar_name a, b64_ceil (ar_time a))) (snd r)).

Example toy_query_ex :
  toy_query ["P"; "S"; "PKiKP"; "PcP"; "pP"]%string 100 40
  = Ok [("P", 484%Z); ("pP", 500%Z); ("PcP", 653%Z); ("S", 899%Z); ("PKiKP", 1107%Z)]%string.
Proof. vm_compute. reflexivity. Qed.

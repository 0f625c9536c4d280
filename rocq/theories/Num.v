(** Numbers: a law-free interface for Python floats, with two instances:
    exact reals and IEEE-754 binary64 (Coq's executable [SpecFloat]). *)
From Coq Require Import ZArith Bool Lia List Reals Lra SpecFloat.
From Verif Require Import Base.

(** operations of Python floats *)
Class Num (T : Type) := {
  n_add : T -> T -> T;
  n_sub : T -> T -> T;
  n_mul : T -> T -> T;
  n_div : T -> T -> T;      (* only meaningful for a non-zero divisor *)
  n_opp : T -> T;
  n_abs : T -> T;
  n_ltb : T -> T -> bool;
  n_leb : T -> T -> bool;
  n_eqb : T -> T -> bool;
  n_lit : Z -> Z -> T;      (* decimal literal m * 10^e *)
  n_isnan : T -> bool;
  n_isinf : T -> bool;
  n_ceil : T -> Z;          (* math.ceil / int(math.ceil(.)) on finite values *)
  np_div : T -> T -> result T   (* numpy division: IEEE, never ZeroDivisionError *)
}.

Declare Scope num_scope.
Delimit Scope num_scope with num.
Infix "+" := n_add : num_scope.
Infix "-" := n_sub : num_scope.
Infix "*" := n_mul : num_scope.
Notation "- x" := (n_opp x) : num_scope.
Infix "<?" := n_ltb : num_scope.
Infix "<=?" := n_leb : num_scope.
Notation "a >? b" := (n_ltb b a) : num_scope.
Notation "a >=? b" := (n_leb b a) : num_scope.
Infix "=?" := n_eqb : num_scope.
Notation "a <>? b" := (negb (n_eqb a b)) (at level 70) : num_scope.

Section NumDefs.
  Context {T : Type} {N : Num T}.
  Local Open Scope num_scope.

  (** an int used in a float expression *)
  Definition n_int (z : Z) : T := n_lit z 0.
  Definition n_0 : T := n_lit 0 0.
  Definition n_1 : T := n_lit 1 0.
  Definition n_2 : T := n_lit 2 0.

  (** Python float division: ZeroDivisionError on a zero divisor. *)
  Definition py_div (a b : T) : result T :=
    if b =? n_0 then Raise ZeroDivisionError else Ok (n_div a b).

  (** Python's two-argument builtins. *)
  Definition py_min (a b : T) : T := if b <? a then b else a.
  Definition py_max (a b : T) : T := if a <? b then b else a.
End NumDefs.

Infix "/" := py_div : num_scope.

(** -- exact reals ---------------------------------------------------------- *)

Definition Rltb (a b : R) : bool := if Rlt_dec a b then true else false.
Definition Rleb (a b : R) : bool := if Rle_dec a b then true else false.
Definition Reqb (a b : R) : bool := if Req_EM_T a b then true else false.
Definition Rlit (m e : Z) : R := (IZR m * powerRZ 10 e)%R.
Definition Rceil (x : R) : Z := (- Int_part (- x))%Z.

#[export] Instance Num_R : Num R := {
  n_add := Rplus;
  n_sub := Rminus;
  n_mul := Rmult;
  n_div := Rdiv;
  n_opp := Ropp;
  n_abs := Rabs;
  n_ltb := Rltb;
  n_leb := Rleb;
  n_eqb := Reqb;
  n_lit := Rlit;
  n_isnan := fun _ => false;
  n_isinf := fun _ => false;
  n_ceil := Rceil;
  np_div := fun a b => if Reqb b 0 then Raise NonFinite else Ok (a / b)%R
}.

Lemma Rltb_true : forall a b, Rltb a b = true <-> (a < b)%R.
Proof. intros. unfold Rltb. destruct (Rlt_dec a b); split; auto; discriminate. Qed.
Lemma Rltb_false : forall a b, Rltb a b = false <-> (b <= a)%R.
Proof. intros. unfold Rltb. destruct (Rlt_dec a b); split; intros; auto; try lra; discriminate. Qed.
Lemma Rleb_true : forall a b, Rleb a b = true <-> (a <= b)%R.
Proof. intros. unfold Rleb. destruct (Rle_dec a b); split; auto; discriminate. Qed.
Lemma Rleb_false : forall a b, Rleb a b = false <-> (b < a)%R.
Proof. intros. unfold Rleb. destruct (Rle_dec a b); split; intros; auto; try lra; discriminate. Qed.
Lemma Reqb_true : forall a b, Reqb a b = true <-> a = b.
Proof. intros. unfold Reqb. destruct (Req_EM_T a b); split; auto; discriminate. Qed.
Lemma Reqb_false : forall a b, Reqb a b = false <-> a <> b.
Proof. intros. unfold Reqb. destruct (Req_EM_T a b); split; intros; auto; try contradiction; discriminate. Qed.

Lemma Rltb_spec : forall a b, reflect (a < b)%R (Rltb a b).
Proof. intros. apply iff_reflect. symmetry. apply Rltb_true. Qed.
Lemma Rleb_spec : forall a b, reflect (a <= b)%R (Rleb a b).
Proof. intros. apply iff_reflect. symmetry. apply Rleb_true. Qed.
Lemma Reqb_spec : forall a b, reflect (a = b)%R (Reqb a b).
Proof. intros. apply iff_reflect. symmetry. apply Reqb_true. Qed.

Lemma Rlit_0 : forall m, Rlit m 0 = IZR m.
Proof. intros. unfold Rlit. simpl. lra. Qed.
Lemma n_0_R : @n_0 R _ = 0%R.
Proof. unfold n_0. simpl. rewrite Rlit_0. reflexivity. Qed.
Lemma n_1_R : @n_1 R _ = 1%R.
Proof. unfold n_1. simpl. rewrite Rlit_0. reflexivity. Qed.
Lemma n_2_R : @n_2 R _ = 2%R.
Proof. unfold n_2. simpl. rewrite Rlit_0. reflexivity. Qed.
Lemma n_int_R : forall z, @n_int R _ z = IZR z.
Proof. intros. unfold n_int. simpl. apply Rlit_0. Qed.
Lemma Rlit_neg : forall m p, Rlit m (Z.neg p) = (IZR m / IZR (Z.pow_pos 10 p))%R.
Proof.
  intros. unfold Rlit, Rdiv. f_equal. simpl.
  f_equal. rewrite <- (Z2Nat.id (Z.pow_pos 10 p)) by (rewrite Z.pow_pos_fold; apply Z.pow_nonneg; lia).
  rewrite <- INR_IZR_INZ. rewrite Z.pow_pos_fold.
  replace 10%R with (INR 10) by (simpl; lra).
  rewrite <- pow_INR. f_equal.
  apply Nat2Z.inj. rewrite Z2Nat.id by (apply Z.pow_nonneg; lia).
  rewrite Nat2Z.inj_pow. f_equal. rewrite positive_nat_Z. reflexivity.
Qed.
Lemma py_div_R : forall a b : R, b <> 0%R -> py_div a b = Ok (a / b)%R.
Proof.
  intros. unfold py_div. rewrite n_0_R. simpl.
  destruct (Reqb_spec b 0); [contradiction|reflexivity].
Qed.
Lemma py_div_R_0 : forall a : R, py_div a 0%R = Raise ZeroDivisionError.
Proof.
  intros. unfold py_div. rewrite n_0_R. simpl.
  destruct (Reqb_spec 0 0); [reflexivity|congruence].
Qed.
Lemma py_div_R_inv : forall a b c : R, py_div a b = Ok c -> b <> 0%R /\ c = (a/b)%R.
Proof.
  intros a b c. unfold py_div. rewrite n_0_R. simpl.
  destruct (Reqb_spec b 0); intros H; inversion H; auto.
Qed.
Lemma Rceil_ub : forall x, (x <= IZR (Rceil x) < x + 1)%R.
Proof.
  intros. unfold Rceil. rewrite opp_IZR.
  destruct (base_Int_part (-x)). lra.
Qed.

(** -- libm ----------------------------------------------------------------- *)

(** The math-library functions used by the code.  They are result valued: Python
    raises ValueError (domain error) or OverflowError.  [m_nppow] is the numpy
    power operator, which returns inf/nan instead. *)
Class Libm (T : Type) := {
  m_pi : T;
  m_sqrt : T -> result T;
  m_log : T -> result T;
  m_exp : T -> result T;
  m_pow : T -> T -> result T;
  m_nppow : T -> T -> result T;
  m_sin : T -> result T;
  m_cos : T -> result T;
  m_asin : T -> result T;
  m_acos : T -> result T;
  m_atan2 : T -> T -> result T;
  m_mod : T -> T -> result T    (* the [%] operator; divisor non-zero *)
}.

(** Real power [x ** y]: [Rpower] for a positive base; 0 ** y is 0, 1 or an
    error; a negative base needs an integer exponent. *)
Definition Rpow_e (err : exn) (x y : R) : result R :=
  if Rltb 0 x then Ok (Rpower x y)
  else if Reqb x 0 then
    (if Rltb 0 y then Ok 0%R else if Reqb y 0 then Ok 1%R else Raise err)
  else if Reqb y (IZR (Int_part y)) then Ok (powerRZ x (Int_part y))
  else Raise err.

(** atan2 on the reals (C99 / Python argument order: y, x). *)
Definition Ratan2 (y x : R) : R :=
  if Rltb 0 x then atan (y / x)
  else if Rltb x 0 then (if Rleb 0 y then atan (y / x) + PI else atan (y / x) - PI)%R
  else if Rltb 0 y then (PI / 2)%R
  else if Rltb y 0 then (- (PI / 2))%R
  else 0%R.

#[export] Instance Libm_R : Libm R := {
  m_pi := PI;
  m_sqrt := fun x => if Rltb x 0 then Raise ValueError else Ok (sqrt x);
  m_log := fun x => if Rleb x 0 then Raise ValueError else Ok (ln x);
  m_exp := fun x => Ok (exp x);
  m_pow := Rpow_e ValueError;
  m_nppow := Rpow_e NonFinite;
  m_sin := fun x => Ok (sin x);
  m_cos := fun x => Ok (cos x);
  m_asin := fun x => if Rleb (-1) x && Rleb x 1 then Ok (asin x) else Raise ValueError;
  m_acos := fun x => if Rleb (-1) x && Rleb x 1 then Ok (acos x) else Raise ValueError;
  m_atan2 := fun y x => Ok (Ratan2 y x);
  m_mod := fun x y => if Reqb y 0 then Raise ZeroDivisionError
                      else Ok (x - y * IZR (Int_part (x / y)))%R
}.

(** -- IEEE-754 binary64 ---------------------------------------------------- *)

Definition b64 := spec_float.
Definition b64_of_Z (z : Z) : b64 := binary_normalize 53 1024 z 0 false.

(** Decimal literal: exact for a literal whose mantissa and power of ten are
    both exactly representable (as all literals of the source are). *)
Definition b64_lit (m e : Z) : b64 :=
  if (0 <=? e)%Z then b64_of_Z (m * 10 ^ e)
  else SFdiv 53 1024 (b64_of_Z m) (b64_of_Z (10 ^ (- e))).

Definition b64_ceil (x : b64) : Z :=
  match x with
  | S754_finite s m e =>
      let v := if s then Z.neg m else Z.pos m in
      if (0 <=? e)%Z then (v * 2 ^ e)%Z else (- ((- v) / 2 ^ (- e)))%Z
  | _ => 0%Z
  end.

#[export] Instance Num_B64 : Num b64 := {
  n_add := SFadd 53 1024;
  n_sub := SFsub 53 1024;
  n_mul := SFmul 53 1024;
  n_div := SFdiv 53 1024;
  n_opp := SFopp;
  n_abs := SFabs;
  n_ltb := SFltb;
  n_leb := SFleb;
  n_eqb := SFeqb;
  n_lit := b64_lit;
  n_isnan := fun x => match x with S754_nan => true | _ => false end;
  n_isinf := fun x => match x with S754_infinity _ => true | _ => false end;
  n_ceil := b64_ceil;
  np_div := fun a b => Ok (SFdiv 53 1024 a b)
}.

(** -- order laws ----------------------------------------------------------- *)

(** Laws of comparison that hold for reals and for non-NaN doubles.  [n_ok x]
    says that [x] is not NaN (a NaN is not equal to itself). *)
Definition n_ok {T} {N : Num T} (x : T) : Prop := n_eqb x x = true.

Class NumOrd (T : Type) {N : Num T} := {
  ord_ltb : forall x y : T, n_ok x -> n_ok y -> n_ltb x y = negb (n_leb y x);
  ord_eqb : forall x y : T, n_eqb x y = n_leb x y && n_leb y x;
  ord_total : forall x y : T, n_ok x -> n_ok y -> n_leb x y = true \/ n_leb y x = true;
  ord_trans : forall x y z : T, n_leb x y = true -> n_leb y z = true -> n_leb x z = true;
  ord_leb_ok : forall x y : T, n_leb x y = true -> n_ok x /\ n_ok y;
  ord_ltb_ok : forall x y : T, n_ltb x y = true -> n_ok x /\ n_ok y;
  ord_lit_ok : forall m e, n_ok (n_lit m e : T) \/ (e < 0)%Z;
  ord_isnan : forall x : T, n_isnan x = negb (n_eqb x x);
  ord_self_split : forall p q : T, n_ltb n_0 (n_mul (n_sub p p) (n_sub p q)) = false;
  ord_self_split_r : forall p q : T, n_ltb n_0 (n_mul (n_sub q p) (n_sub p p)) = false
}.

#[export] Instance NumOrd_R : NumOrd R.
Proof.
  constructor; unfold n_ok; simpl; intros.
  - destruct (Rltb_spec x y), (Rleb_spec y x); simpl; auto; lra.
  - destruct (Reqb_spec x y), (Rleb_spec x y), (Rleb_spec y x); simpl; auto; lra.
  - rewrite !Rleb_true. lra.
  - rewrite Rleb_true in *. lra.
  - rewrite !Reqb_true. auto.
  - rewrite !Reqb_true. auto.
  - left. apply Reqb_true. reflexivity.
  - destruct (Reqb_spec x x); [reflexivity|congruence].
  - rewrite ?Rlit_0. apply Rltb_false. unfold Rlit. lra.
  - rewrite ?Rlit_0. apply Rltb_false. unfold Rlit. lra.
Qed.

Lemma SFcompare_refl_or_nan : forall x, SFcompare x x = Some Eq \/ x = S754_nan.
Proof.
  intros [s|s| |s m e]; simpl; auto; destruct s; auto.
  - rewrite Z.compare_refl, Pcompare_refl. auto.
  - rewrite Z.compare_refl, Pcompare_refl. auto.
Qed.

Lemma SFcompare_nan_iff : forall x y, SFcompare x y = None <-> x = S754_nan \/ y = S754_nan.
Proof.
  intros x y; split.
  - destruct x as [s|s| |s m e], y as [s'|s'| |s' m' e']; simpl; auto;
      try destruct s; try destruct s'; try discriminate;
      try destruct (e ?= e')%Z; discriminate.
  - intros [H|H]; subst; [destruct y|destruct x]; reflexivity.
Qed.

Lemma SFcompare_sym : forall x y,
  SFcompare y x = match SFcompare x y with Some c => Some (CompOpp c) | None => None end.
Proof.
  intros x y; destruct x as [s|s| |s m e], y as [s'|s'| |s' m' e']; simpl; auto;
    try destruct s; try destruct s'; simpl; auto;
    rewrite (Z.compare_antisym e e'); destruct (e ?= e')%Z eqn:E; simpl; auto;
    rewrite ?(Pos.compare_cont_antisym m m'); simpl; rewrite ?Pos.compare_cont_antisym; simpl; auto;
    rewrite ?CompOpp_involutive; auto.
Qed.

(** A monotone key: lexicographic triple, used to get transitivity. *)
Definition sf_key (x : spec_float) : Z * Z * Z :=
  match x with
  | S754_infinity true => (-2, 0, 0)%Z
  | S754_finite true m e => (-1, - e, - Z.pos m)%Z
  | S754_zero _ => (0, 0, 0)%Z
  | S754_finite false m e => (1, e, Z.pos m)%Z
  | S754_infinity false => (2, 0, 0)%Z
  | S754_nan => (0, 0, 0)%Z
  end.

Definition key_leb (a b : Z * Z * Z) : Prop :=
  match a, b with
  | (a1, a2, a3), (b1, b2, b3) =>
      (a1 < b1 \/ (a1 = b1 /\ (a2 < b2 \/ (a2 = b2 /\ a3 <= b3))))%Z
  end.

Lemma SFleb_key : forall x y, SFleb x y = true <->
  (x <> S754_nan /\ y <> S754_nan /\ key_leb (sf_key x) (sf_key y)).
Proof.
  intros x y; unfold SFleb;
    destruct x as [s|s| |s m e], y as [s'|s'| |s' m' e']; simpl;
    try destruct s; try destruct s'; simpl;
    try (split; [intros H; try discriminate; repeat split; try discriminate; lia
                |intros [? [? ?]]; try reflexivity; try congruence; try lia]).
  - destruct (Z.compare_spec e e'); simpl;
      [change (Pos.compare_cont Eq m m') with (m ?= m')%positive; destruct (Pos.compare_spec m m'); simpl| |];
      (split; [intros HH; try discriminate HH; repeat split; try discriminate; lia
              |intros [? [? ?]]; try reflexivity; try lia]).
  - destruct (Z.compare_spec e e'); simpl;
      [change (Pos.compare_cont Eq m m') with (m ?= m')%positive; destruct (Pos.compare_spec m m'); simpl| |];
      (split; [intros HH; try discriminate HH; repeat split; try discriminate; lia
              |intros [? [? ?]]; try reflexivity; try lia]).
Qed.

Lemma key_leb_trans : forall a b c, key_leb a b -> key_leb b c -> key_leb a c.
Proof. intros [[? ?] ?] [[? ?] ?] [[? ?] ?]; simpl; lia. Qed.

Lemma b64_ok_iff : forall x : b64, n_ok x <-> x <> S754_nan.
Proof.
  intros x. unfold n_ok. simpl. unfold SFeqb.
  destruct (SFcompare_refl_or_nan x) as [H|H].
  - rewrite H. split; [|reflexivity]. intros _ E. subst. discriminate H.
  - subst. simpl. split; [discriminate|congruence].
Qed.

Lemma shr_1_nonneg : forall r, (0 <= shr_m r)%Z -> (0 <= shr_m (shr_1 r))%Z.
Proof. intros [m r s]; simpl; destruct m as [|[p|p|]|[p|p|]]; simpl; lia. Qed.

Lemma iter_shr_1_nonneg : forall p r, (0 <= shr_m r)%Z -> (0 <= shr_m (iter_pos shr_1 p r))%Z.
Proof. induction p; simpl; intros; auto using shr_1_nonneg. Qed.

Lemma shr_fexp_nonneg : forall m e l, (0 <= m)%Z ->
  (0 <= shr_m (fst (shr_fexp 53 1024 m e l)))%Z.
Proof.
  intros m e l H. unfold shr_fexp, shr.
  assert (0 <= shr_m (shr_record_of_loc m l))%Z by (destruct l as [|[]]; assumption).
  destruct (fexp 53 1024 (Zdigits2 m + e) - e)%Z; simpl; auto using iter_shr_1_nonneg.
Qed.

Lemma binary_round_aux_not_nan : forall s m e l, (0 <= m)%Z ->
  binary_round_aux 53 1024 s m e l <> S754_nan.
Proof.
  intros s m e l H. unfold binary_round_aux.
  pose proof (shr_fexp_nonneg m e l H) as H1.
  destruct (shr_fexp 53 1024 m e l) as [r e']. simpl in H1.
  assert (H2 : (0 <= round_nearest_even (shr_m r) (loc_of_shr_record r))%Z)
    by (unfold round_nearest_even; destruct (loc_of_shr_record r) as [|[]];
        try destruct (Z.even _); lia).
  pose proof (shr_fexp_nonneg _ e' loc_Exact H2) as H3.
  destruct (shr_fexp 53 1024 _ e' loc_Exact) as [r' e'']. simpl in H3.
  destruct (shr_m r'); [discriminate| |lia].
  destruct (Zle_bool _ _); discriminate.
Qed.

Lemma binary_normalize_not_nan : forall m e b, binary_normalize 53 1024 m e b <> S754_nan.
Proof.
  intros m e b. unfold binary_normalize, binary_round.
  destruct m; [discriminate| |];
  destruct (shl_align _ _ _); apply binary_round_aux_not_nan; lia.
Qed.

Lemma SFsub_self : forall p : b64,
  SFsub 53 1024 p p = S754_nan \/ exists s, SFsub 53 1024 p p = S754_zero s.
Proof.
  destruct p as [s|s| |s m e]; simpl.
  - right. destruct s; eexists; reflexivity.
  - left. destruct s; reflexivity.
  - left; reflexivity.
  - right. rewrite Z.min_id.
    match goal with |- context [binary_normalize _ _ ?z _ _] =>
      replace z with 0%Z by (destruct s; unfold cond_Zopp; lia) end.
    eexists; reflexivity.
Qed.

#[export] Instance NumOrd_B64 : NumOrd b64.
Proof.
  constructor; intros.
  - rewrite b64_ok_iff in *. simpl. unfold SFltb, SFleb.
    rewrite (SFcompare_sym x y).
    destruct (SFcompare x y) as [[]|] eqn:E; simpl; auto.
    apply SFcompare_nan_iff in E. tauto.
  - simpl. unfold SFeqb, SFleb. rewrite (SFcompare_sym x y).
    destruct (SFcompare x y) as [[]|] eqn:E; simpl; auto.
  - rewrite b64_ok_iff in *. simpl. unfold SFleb. rewrite (SFcompare_sym x y).
    destruct (SFcompare x y) as [[]|] eqn:E; simpl; auto.
    apply SFcompare_nan_iff in E. tauto.
  - simpl in *. apply SFleb_key in H, H0. apply SFleb_key.
    destruct H as [? [? ?]], H0 as [? [? ?]]. repeat split; auto.
    eapply key_leb_trans; eauto.
  - rewrite !b64_ok_iff. simpl in *. apply SFleb_key in H. tauto.
  - rewrite !b64_ok_iff. simpl in *. unfold SFltb in H.
    destruct (SFcompare x y) eqn:E; [|discriminate].
    split; intro; subst; [destruct y|destruct x]; discriminate E.
  - destruct (Z.ltb_spec e 0); [auto|]. left. rewrite b64_ok_iff.
    simpl. unfold b64_lit. destruct (Z.leb_spec 0 e); [|lia].
    apply binary_normalize_not_nan.
  - simpl. unfold SFeqb. destruct (SFcompare_refl_or_nan x) as [H|H]; [rewrite H|rewrite H; reflexivity].
    destruct x; try reflexivity. discriminate H.
  - cbn [n_sub n_mul n_ltb Num_B64].
    destruct (SFsub_self p) as [H|[s H]]; rewrite H.
    + reflexivity.
    + destruct (SFsub 53 1024 p q) as [s'|s'| |s' m' e']; reflexivity.
  - cbn [n_sub n_mul n_ltb Num_B64].
    destruct (SFsub_self p) as [H|[s H]]; rewrite H.
    + destruct (SFsub 53 1024 q p) as [s'|s'| |s' m' e']; reflexivity.
    + destruct (SFsub 53 1024 q p) as [s'|s'| |s' m' e']; reflexivity.
Qed.

(** -- derived order facts -------------------------------------------------- *)
Section Ord.
  Context {T : Type} {N : Num T} {O : NumOrd T}.
  Local Open Scope num_scope.

  Lemma leb_refl : forall x : T, n_ok x -> x <=? x = true.
  Proof. intros x H. destruct (ord_total x x H H); assumption. Qed.

  Lemma ltb_irrefl : forall x : T, x <? x = false.
  Proof.
    intros x. destruct (x <? x) eqn:E; [|reflexivity].
    destruct (ord_ltb_ok _ _ E) as [Hx _]. rewrite ord_ltb in E by assumption.
    rewrite leb_refl in E by assumption. discriminate.
  Qed.

  Lemma ltb_leb : forall x y : T, x <? y = true -> x <=? y = true.
  Proof.
    intros x y H. destruct (ord_ltb_ok _ _ H) as [Hx Hy].
    rewrite ord_ltb in H by assumption.
    destruct (ord_total x y Hx Hy) as [E|E]; [assumption|].
    rewrite E in H. discriminate.
  Qed.

  Lemma leb_ltb_trans : forall x y z : T, x <=? y = true -> y <? z = true -> x <? z = true.
  Proof.
    intros x y z H1 H2. destruct (ord_ltb_ok _ _ H2) as [Hy Hz].
    destruct (ord_leb_ok _ _ H1) as [Hx _].
    rewrite ord_ltb in * by assumption.
    destruct (z <=? x) eqn:E; [|reflexivity].
    rewrite (ord_trans z x y E H1) in H2. discriminate.
  Qed.

  Lemma ltb_leb_trans : forall x y z : T, x <? y = true -> y <=? z = true -> x <? z = true.
  Proof.
    intros x y z H1 H2. destruct (ord_ltb_ok _ _ H1) as [Hx Hy].
    destruct (ord_leb_ok _ _ H2) as [_ Hz].
    rewrite ord_ltb in * by assumption.
    destruct (z <=? x) eqn:E; [|reflexivity].
    rewrite (ord_trans y z x H2 E) in H1. discriminate.
  Qed.

  Lemma ltb_trans : forall x y z : T, x <? y = true -> y <? z = true -> x <? z = true.
  Proof. intros. eapply leb_ltb_trans; eauto using ltb_leb. Qed.

  Lemma ltb_asym : forall x y : T, x <? y = true -> y <? x = false.
  Proof.
    intros x y H. destruct (y <? x) eqn:E; [|reflexivity].
    pose proof (ltb_trans _ _ _ H E) as F. rewrite ltb_irrefl in F. discriminate.
  Qed.

  Lemma ltb_not_leb : forall x y : T, x <? y = true -> y <=? x = false.
  Proof.
    intros x y H. destruct (y <=? x) eqn:E; [|reflexivity].
    pose proof (leb_ltb_trans _ _ _ E H) as F. rewrite ltb_irrefl in F. discriminate.
  Qed.

  Lemma leb_false_ltb : forall x y : T, n_ok x -> n_ok y -> x <=? y = false -> y <? x = true.
  Proof. intros x y Hx Hy H. rewrite ord_ltb by assumption. rewrite H. reflexivity. Qed.

  Lemma ltb_false_leb : forall x y : T, n_ok x -> n_ok y -> x <? y = false -> y <=? x = true.
  Proof. intros x y Hx Hy H. rewrite ord_ltb in H by assumption. destruct (y <=? x); auto. Qed.

  Lemma eqb_leb : forall x y : T, x =? y = true -> x <=? y = true.
  Proof. intros x y H. rewrite ord_eqb in H. apply andb_prop in H. tauto. Qed.
  Lemma eqb_geb : forall x y : T, x =? y = true -> y <=? x = true.
  Proof. intros x y H. rewrite ord_eqb in H. apply andb_prop in H. tauto. Qed.
  Lemma eqb_sym : forall x y : T, (x =? y) = (y =? x).
  Proof. intros. rewrite !ord_eqb. apply andb_comm. Qed.
  Lemma eqb_ok : forall x y : T, x =? y = true -> n_ok x /\ n_ok y.
  Proof. intros x y H. apply eqb_leb in H. apply ord_leb_ok. assumption. Qed.
  Lemma eqb_trans : forall x y z : T, x =? y = true -> y =? z = true -> x =? z = true.
  Proof.
    intros x y z H1 H2. rewrite ord_eqb in *. apply andb_prop in H1, H2.
    apply andb_true_intro. split; eapply ord_trans; intuition eauto.
  Qed.
  Lemma ltb_neqb : forall x y : T, x <? y = true -> x =? y = false.
  Proof.
    intros x y H. rewrite ord_eqb. rewrite (ltb_not_leb _ _ H). apply andb_false_r.
  Qed.
  Lemma ltb_gneqb : forall x y : T, x <? y = true -> y =? x = false.
  Proof. intros. rewrite eqb_sym. apply ltb_neqb. assumption. Qed.
  Lemma n_0_ok : n_ok (n_0 : T).
  Proof. unfold n_0. destruct (ord_lit_ok 0 0); [assumption|lia]. Qed.
  Lemma n_int_ok : forall z, n_ok (n_int z : T).
  Proof. intros. unfold n_int. destruct (ord_lit_ok z 0); [assumption|lia]. Qed.
  Lemma ord_trichotomy : forall x y : T, n_ok x -> n_ok y ->
    x <? y = true \/ x =? y = true \/ y <? x = true.
  Proof.
    intros x y Hx Hy. rewrite !ord_ltb, ord_eqb by assumption.
    destruct (ord_total x y Hx Hy) as [E|E]; rewrite E; simpl;
    destruct (y <=? x); destruct (x <=? y); simpl; auto.
  Qed.
End Ord.

Example b64_lit_ex : (n_lit 65 0 : b64) = S754_finite false 4573968371548160 (-46).
Proof. vm_compute. reflexivity. Qed.
Example b64_add_ex : n_leb (n_add (n_lit 1 (-1)) (n_lit 2 (-1))) (n_lit 3 (-1) : b64) = false.
Proof. vm_compute. reflexivity. Qed.

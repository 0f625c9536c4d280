(** Evaluation of the model on concrete real numbers, used only to exhibit concrete cases in the property
    files.  All numbers are integers written [IZR z]. *)
From Coq Require Import ZArith Bool List String Ascii Reals Lia Lra.
From Verif Require Import Base Num PyStr VelocityModel SlownessLayer SlownessModel TauModel Legs SeismicPhase.
Import ListNotations.

Lemma Rltb_IZR : forall a b, Rltb (IZR a) (IZR b) = Z.ltb a b.
Proof.
  intros a b. destruct (Rltb_spec (IZR a) (IZR b)) as [H|H]; destruct (Z.ltb_spec a b) as [L|L]; auto; exfalso.
  - apply lt_IZR in H. lia.
  - apply H. apply IZR_lt. assumption.
Qed.
Lemma Rleb_IZR : forall a b, Rleb (IZR a) (IZR b) = Z.leb a b.
Proof.
  intros a b. destruct (Rleb_spec (IZR a) (IZR b)) as [H|H]; destruct (Z.leb_spec a b) as [L|L]; auto; exfalso.
  - apply le_IZR in H. lia.
  - apply H. apply IZR_le. assumption.
Qed.
Lemma Reqb_IZR : forall a b, Reqb (IZR a) (IZR b) = Z.eqb a b.
Proof.
  intros a b. destruct (Reqb_spec (IZR a) (IZR b)) as [H|H]; destruct (Z.eqb_spec a b) as [L|L]; auto; exfalso.
  - apply eq_IZR in H. auto.
  - apply H. subst. reflexivity.
Qed.
Lemma Rlit_IZR : forall a, Rlit a 0 = IZR a.
Proof. intros a. unfold Rlit. simpl. ring. Qed.
Lemma Rlit_pos_IZR : forall a p, Rlit a (Zpos p) = IZR (a * 10 ^ Zpos p).
Proof.
  intros a p. unfold Rlit. rewrite mult_IZR. f_equal. simpl powerRZ.
  rewrite <- (positive_nat_Z p), <- pow_IZR. reflexivity.
Qed.

Lemma bind_ok : forall {A B} (m : result A) (f : A -> result B) a r, m = Ok a -> f a = r -> bind m f = r.
Proof. intros A B m f a r -> H. exact H. Qed.
Lemma foldM_nil : forall {A B} (f : B -> A -> result B) b, foldM f [] b = Ok b.
Proof. reflexivity. Qed.
Lemma foldM_cons : forall {A B} (f : B -> A -> result B) x l b, foldM f (x :: l) b = bind (f b x) (fun c => foldM f l c).
Proof. reflexivity. Qed.

(** [numeral x]: a proof that the closed expression [x] is a numeral *)
Ltac numeral x :=
  lazymatch x with
  | IZR ?a => constr:(eq_refl (IZR a))
  | Rlit ?a 0%Z => constr:(Rlit_IZR a)
  | Rlit ?a (Zpos ?p) => constr:(Rlit_pos_IZR a p)
  | Rplus ?a ?b => let pa := numeral a in let pb := numeral b in
      lazymatch type of pa with _ = IZR ?u => lazymatch type of pb with _ = IZR ?v =>
        constr:(eq_trans (f_equal2 Rplus pa pb) (eq_sym (plus_IZR u v))) end end
  | Rmult ?a ?b => let pa := numeral a in let pb := numeral b in
      lazymatch type of pa with _ = IZR ?u => lazymatch type of pb with _ = IZR ?v =>
        constr:(eq_trans (f_equal2 Rmult pa pb) (eq_sym (mult_IZR u v))) end end
  | Rminus ?a ?b => let pa := numeral a in let pb := numeral b in
      lazymatch type of pa with _ = IZR ?u => lazymatch type of pb with _ = IZR ?v =>
        constr:(eq_trans (f_equal2 Rminus pa pb) (eq_sym (minus_IZR u v))) end end
  | Ropp ?a => let pa := numeral a in
      lazymatch type of pa with _ = IZR ?u => constr:(eq_trans (f_equal Ropp pa) (eq_sym (opp_IZR u))) end
  end.
Ltac decided c :=
  lazymatch c with
  | Rltb ?a ?b => let pa := numeral a in let pb := numeral b in
      lazymatch type of pa with _ = IZR ?u => lazymatch type of pb with _ = IZR ?v =>
        constr:(eq_trans (f_equal2 Rltb pa pb) (Rltb_IZR u v)) end end
  | Rleb ?a ?b => let pa := numeral a in let pb := numeral b in
      lazymatch type of pa with _ = IZR ?u => lazymatch type of pb with _ = IZR ?v =>
        constr:(eq_trans (f_equal2 Rleb pa pb) (Rleb_IZR u v)) end end
  | Reqb ?a ?b => let pa := numeral a in let pb := numeral b in
      lazymatch type of pa with _ = IZR ?u => lazymatch type of pb with _ = IZR ?v =>
        constr:(eq_trans (f_equal2 Reqb pa pb) (Reqb_IZR u v)) end end
  end.
(** data: full evaluation *)
Ltac rlazy := lazy beta iota zeta delta -[Rltb Rleb Reqb Rlit IZR Rplus Rminus Rmult Rdiv Ropp PI Rabs Rinv].
Ltac rdec :=
  match goal with
  | |- context [Rltb ?a ?b] => let p := decided (Rltb a b) in rewrite p
  | |- context [Rleb ?a ?b] => let p := decided (Rleb a b) in rewrite p
  | |- context [Reqb ?a ?b] => let p := decided (Reqb a b) in rewrite p
  end.
Ltac rnum :=
  match goal with
  | |- context [Rlit ?a 0%Z] => rewrite (Rlit_IZR a)
  | |- context [Rplus (IZR ?a) (IZR ?b)] => rewrite <- (plus_IZR a b)
  | |- context [Rmult (IZR ?a) (IZR ?b)] => rewrite <- (mult_IZR a b)
  | |- context [Rminus (IZR ?a) (IZR ?b)] => rewrite <- (minus_IZR a b)
  | |- context [Ropp (IZR ?a)] => rewrite <- (opp_IZR a)
  end.
Ltac rval := rlazy; repeat (rdec; rlazy); repeat rnum; rlazy; reflexivity.

Lemma parse_go_cons : forall {T} {N : Num T} (w : list T) (t : tmodel T) nxt rest prev curr isP ld s,
  parse_go w t (nxt :: rest) prev curr isP ld s =
  bind (parse_leg w t s isP (leg_wave isP curr) ld prev curr nxt rest)
    (fun r => match r with Return s => Ok s
       | Next s => parse_go w t rest curr nxt (leg_wave isP curr) (match leg_float (T := T) nxt with Some _ => true | None => false end) s end).
Proof. reflexivity. Qed.
Lemma foldM_list : forall {A B} (f : B -> A -> result B) l l' b r, l = l' -> foldM f l' b = r -> foldM f l b = r.
Proof. intros A B f l l' b r -> H. exact H. Qed.
Lemma let_ok : forall {A B} (v v' : A) (b : A -> B) r, v = v' -> b v' = r -> (let y := v in b y) = r.
Proof. intros A B v v' b r -> H. exact H. Qed.
(** evaluation of one call after the other *)
Ltac run :=
  cbv beta;
  lazymatch goal with
  | |- bind _ _ = _ => eapply bind_ok; [run | cbv beta; run]
  | |- Ok ?v = _ => rval
  | |- Raise _ = _ => reflexivity
  | |- Diverge = _ => reflexivity
  | |- (match ?m with _ => _ end) = _ =>
      let H := fresh in eassert (H : m = _) by rval; rewrite H; clear H; cbv beta iota; run
  | |- (let y := ?v in @?b y) = ?r =>
      lazymatch type of v with
      | Z => eapply (let_ok v _ b r); [rval | cbv beta; run]
      | list _ => eapply (let_ok v _ b r); [rval | cbv beta; run]
      | _ => change (b v = r); cbv beta; run
      end
  | |- newPhase _ _ _ _ _ = _ => cbv delta [newPhase]; run
  | |- createPuristName _ _ _ _ _ = _ => cbv delta [createPuristName]; run
  | |- parseName _ _ _ _ = _ => cbv delta [parseName]; run
  | |- parse_go _ _ [] _ _ _ _ _ = _ => rval
  | |- parse_go _ _ (_ :: _) _ _ _ _ _ = _ => rewrite parse_go_cons; run
  | |- parse_go _ _ ?l _ _ _ _ _ = _ => let l' := eval lazy beta iota zeta delta -[Rltb Rleb Reqb Rlit IZR Rplus Rminus Rmult Rdiv Ropp PI Rabs Rinv] in l in change l with l'; run
  | |- parse_leg _ _ _ _ _ _ _ _ _ _ = _ => cbv delta [parse_leg]; run
  | |- leg_up _ _ _ _ _ _ _ = _ => cbv delta [leg_up]; run
  | |- leg_PS _ _ _ _ _ _ _ _ = _ => cbv delta [leg_PS]; run
  | |- leg_long _ _ _ _ _ = _ => cbv delta [leg_long]; run
  | |- leg_K _ _ _ _ _ = _ => cbv delta [leg_K]; run
  | |- leg_IJ _ _ _ _ = _ => cbv delta [leg_IJ]; run
  | |- next _ = _ => cbv delta [next]; run
  | |- phaseConversion _ _ _ _ = _ => cbv delta [phaseConversion]; run
  | |- addToBranch _ _ _ _ _ = _ => rval
  | |- foldM _ [] _ = _ => rewrite foldM_nil; run
  | |- foldM _ (_ :: _) _ = _ => rewrite foldM_cons; run
  | |- foldM _ _ _ = _ => eapply foldM_list; [rval | run]
  | |- shadow_step _ _ _ _ _ _ _ = _ => cbv delta [shadow_step]; run
  | |- sum_branch_list _ _ _ _ _ = _ => cbv delta [sum_branch_list]; run
  | |- add_times _ _ _ _ _ = _ => cbv delta [add_times]; run
  | |- above_zone _ _ _ _ = _ => cbv delta [above_zone]; run
  | |- sum_special _ _ _ _ _ _ _ = _ => cbv delta [sum_special]; run
  | |- ?x = _ => rval
  end.

(** ** a small Earth: three mantle branches, four ray parameters *)
Local Open Scope string_scope.
Local Open Scope list_scope.
Local Open Scope R_scope.
Definition xb (isP : bool) (top bot mx mt mn : Z) (d tm : list R) : tbranch R :=
  mkTB (IZR top) (IZR bot) isP (IZR mx) (IZR mt) (IZR mn) d tm d.
Definition x_bs (isP : bool) : list (tbranch R) :=
  [xb isP 0 1 4 3 3 [1; 2; 4; 8] [5; 7; 9; 11]; xb isP 1 2 3 2 2 [0; 3; 5; 7] [0; 6; 8; 10];
   xb isP 2 3 2 1 1 [0; 0; 1; 3] [0; 0; 2; 4]].
Definition x_v : vmodel R := mkVModel "x" 4 1 3 3 0 3 true [].
Definition x_s (hiP hiS : list (drange R)) : smodel R := mkSM x_v 0 0 0 0 0 true 0 4 [] hiP hiS [] [] [] 0.
Definition x_t (hiP hiS : list (drange R)) : tmodel R :=
  mkTM (x_s hiP hiS) [4; 3; 2; 1] (x_bs true) (x_bs false) 1 3 3 1 3 3 0 0 4.
Definition x_show (x : R) : string := "".

(** Evaluation of the slowness sampling on concrete real numbers, used only to exhibit concrete cases in
    the property files.  All quotients have to come out as integers. *)
From Coq Require Import ZArith Bool List String Ascii Reals Lia Lra.
From Verif Require Import Base Num PyStr VelocityModel SlownessLayer SlownessModel RealRun.
Import ListNotations.

Lemma Rdiv_IZR : forall a b : Z, (negb (b =? 0) && (b * (a / b) =? a))%Z = true -> (IZR a / IZR b)%R = IZR (a / b).
Proof.
  intros a b H. apply andb_true_iff in H. destruct H as [H1 H2].
  apply negb_true_iff, Z.eqb_neq in H1. apply Z.eqb_eq in H2.
  rewrite <- H2 at 1. rewrite mult_IZR. field. intros E. apply H1. apply eq_IZR. exact E.
Qed.
Lemma Rabs_IZR' : forall a : Z, Rabs (IZR a) = IZR (Z.abs a).
Proof. intros a. symmetry. apply abs_IZR. Qed.

Ltac snum :=
  match goal with
  | |- context [Rlit ?a 0%Z] => rewrite (Rlit_IZR a)
  | |- context [Rlit ?a (Zpos ?p)] => rewrite (Rlit_pos_IZR a p)
  | |- context [Rplus (IZR ?a) (IZR ?b)] => rewrite <- (plus_IZR a b)
  | |- context [Rmult (IZR ?a) (IZR ?b)] => rewrite <- (mult_IZR a b)
  | |- context [Rminus (IZR ?a) (IZR ?b)] => rewrite <- (minus_IZR a b)
  | |- context [Ropp (IZR ?a)] => rewrite <- (opp_IZR a)
  | |- context [Rabs (IZR ?a)] => rewrite (Rabs_IZR' a)
  | |- context [Rdiv (IZR ?a) (IZR ?b)] => rewrite (Rdiv_IZR a b eq_refl)
  | |- context [Rltb (IZR ?a) (IZR ?b)] => rewrite (Rltb_IZR a b)
  | |- context [Rleb (IZR ?a) (IZR ?b)] => rewrite (Rleb_IZR a b)
  | |- context [Reqb (IZR ?a) (IZR ?b)] => rewrite (Reqb_IZR a b)
  end.
(** data *)
Ltac sval := rlazy; repeat (progress (repeat snum); rlazy); reflexivity.

Lemma eq_step : forall {A} (a b r : A), a = b -> b = r -> a = r.
Proof. intros A a b r -> H. exact H. Qed.
Lemma while_S : forall {S B} n (body : S -> result (S + B)) s, while (Datatypes.S n) body s =
  bind (body s) (fun r => match r with inl s => while n body s | inr b => Ok b end).
Proof. reflexivity. Qed.
Lemma for_idx_S : forall {S A} n (get : S -> list A) i (body : S -> A -> result S) s,
  for_idx (Datatypes.S n) get i body s =
  match nth_error (get s) i with
  | None => Ok s
  | Some a => bind (body s a) (fun s => for_idx n get (Datatypes.S i) body s)
  end.
Proof. reflexivity. Qed.
Lemma addS_go_S : forall {T} {N : Num T} n vm radius innerS p isPWave done todo other next,
  addS_go (T := T) (Datatypes.S n) vm radius innerS p isPWave done todo other next =
  match todo with
  | [] => Ok (rev done, other, next)
  | s :: rest =>
      let! '(tv, bv) := layer_velocities vm isPWave s in
      if negb isPWave && (negb innerS && n_ltb (vm_iocb vm) (sl_botDepth s))
      then Ok (rev_append done todo, other, next)
      else if negb isPWave && n_eqb tv n_0
      then addS_go n vm radius innerS p isPWave (s :: done) rest other next
      else if strictly_contains s p then
        let! '(top, bot) := split_pair radius p tv bv s next in
        addS_go n vm radius innerS p isPWave (top :: done) (bot :: rest)
                (replace_shared (sl_id s) top bot other) (next + 2)%Z
      else addS_go n vm radius innerS p isPWave (s :: done) rest other next
  end.
Proof. reflexivity. Qed.

Ltac srun :=
  cbv beta;
  lazymatch goal with
  | |- bind _ _ = _ => eapply bind_ok; [srun | cbv beta; srun]
  | |- Ok ?v = _ => sval
  | |- Raise _ = _ => reflexivity
  | |- Diverge = _ => reflexivity
  | |- (match ?m with _ => _ end) = _ =>
      let H := fresh in eassert (H : m = _) by srun; try rewrite H; clear H; cbv beta iota; srun
  | |- (let y := ?v in @?b y) = ?r =>
      lazymatch type of v with
      | forall _, _ => change (b v = r); cbv beta; srun
      | _ => eapply (let_ok v _ b r); [srun | cbv beta; srun]
      end
  | |- findCriticalPoints _ = _ => cbv delta [findCriticalPoints]; srun
  | |- fc_step _ _ _ = _ => cbv delta [fc_step]; srun
  | |- create_from_vlayer _ _ _ = _ => cbv delta [create_from_vlayer]; srun
  | |- coarseSample _ _ = _ => cbv delta [coarseSample]; srun
  | |- coarse_step _ _ _ = _ => cbv delta [coarse_step]; srun
  | |- sync_layers _ _ _ = _ => cbv delta [sync_layers]; srun
  | |- addSlowness _ _ _ = _ => cbv delta [addSlowness]; srun
  | |- addBoth _ _ = _ => cbv delta [addBoth]; srun
  | |- split_pair _ _ _ _ _ _ = _ => cbv delta [split_pair]; srun
  | |- interpolate _ _ _ _ _ = _ => cbv delta [interpolate]; srun
  | |- layer_velocities _ _ _ = _ => cbv delta [layer_velocities]; srun
  | |- evaluateAbove _ _ _ = _ => cbv delta [evaluateAbove]; srun
  | |- evaluateBelow _ _ _ = _ => cbv delta [evaluateBelow]; srun
  | |- sm_validate _ = _ => cbv delta [sm_validate]; srun
  | |- addS_go (S _) _ _ _ _ _ _ _ _ _ = _ => rewrite addS_go_S; srun
  | |- addS_go ?n _ _ _ _ _ _ _ _ _ = _ =>
      let n' := eval lazy in n in change n with n'; srun
  | |- while (S _) _ _ = _ => rewrite while_S; srun
  | |- for_idx (S _) _ _ _ _ = _ => rewrite for_idx_S; srun
  | |- foldM _ [] _ = _ => rewrite foldM_nil; srun
  | |- foldM _ (_ :: _) _ = _ => rewrite foldM_cons; srun
  | |- foldM _ _ _ = _ => eapply foldM_list; [sval | srun]
  | |- ?x = _ => sval
  end.

(** ** a small solid Earth *)
Local Open Scope string_scope.
Local Open Scope list_scope.
Local Open Scope R_scope.
Definition z_v : vmodel R :=
  mkVModel "z" 6371 0 1 1 0 6371 true
    [mkVLayer 0 0 1 277 490 23 26 3 3; mkVLayer 1 1 6371 637 637 26 26 3 3].
Definition z_s (innerS : bool) : smodel R := mkSM z_v 1 1000 10000 1 1 innerS 0 6371 [] [] [] [] [] [] 0.

(** Python [str] operations on ASCII strings.  Simplification with respect to
    Python 3: code points above 127 (whose [lower], [isdigit], [isspace] tables
    are large) are ordinary characters here. *)
From Coq Require Import ZArith Bool List String Ascii Lia.
From Verif Require Import Base.
Import ListNotations.
Local Open Scope string_scope.

(** [c.lower()] for a one character string *)
Definition ascii_lower (c : ascii) : ascii :=
  let n := nat_of_ascii c in
  if (65 <=? n)%nat && (n <=? 90)%nat then ascii_of_nat (n + 32) else c.

(** [s.lower()] *)
Fixpoint str_lower (s : string) : string :=
  match s with
  | EmptyString => EmptyString
  | String c s => String (ascii_lower c) (str_lower s)
  end.

(** [c.isdigit()] for a one character string *)
Definition is_digit (c : ascii) : bool :=
  let n := nat_of_ascii c in (48 <=? n)%nat && (n <=? 57)%nat.

(** whitespace as understood by [str.split()] and [str.rstrip()] *)
Definition is_space (c : ascii) : bool :=
  let n := nat_of_ascii c in
  ((9 <=? n)%nat && (n <=? 13)%nat) || ((28 <=? n)%nat && (n <=? 32)%nat).

(** [s.startswith(p)] *)
Definition str_startswith (p s : string) : bool := prefix p s.

(** reversed strings *)
Fixpoint str_rev_app (s acc : string) : string :=
  match s with
  | EmptyString => acc
  | String c s => str_rev_app s (String c acc)
  end.
Definition str_rev (s : string) : string := str_rev_app s EmptyString.

(** [s.endswith(p)] *)
Definition str_endswith (p s : string) : bool := prefix (str_rev p) (str_rev s).

(** [p in s] (substring test) *)
Definition str_in (p s : string) : bool :=
  match index 0 p s with Some _ => true | None => false end.

(** [s.count(p)] (non-overlapping), p non-empty *)
Fixpoint str_count_fuel (fuel : nat) (p s : string) : nat :=
  match fuel with
  | O => O
  | S fuel =>
      match s with
      | EmptyString => O
      | String _ s' =>
          if prefix p s
          then S (str_count_fuel fuel p (substring (String.length p) (String.length s - String.length p) s))
          else str_count_fuel fuel p s'
      end
  end.
Definition str_count (p s : string) : nat := str_count_fuel (S (String.length s)) p s.

(** [s[i]] for a non-negative index *)
Definition str_get (s : string) (i : nat) : result ascii :=
  match String.get i s with Some c => Ok c | None => Raise IndexError end.

(** [s.partition('#')[0]] : the part before the first '#' *)
Fixpoint before_hash (s : string) : string :=
  match s with
  | EmptyString => EmptyString
  | String c s => if Ascii.eqb c "#" then EmptyString else String c (before_hash s)
  end.

(** [s.split()] : maximal runs of non-whitespace *)
Fixpoint split_go (s : string) (cur : string) : list string :=
  match s with
  | EmptyString => match cur with EmptyString => [] | _ => [str_rev cur] end
  | String c s =>
      if is_space c
      then match cur with
           | EmptyString => split_go s EmptyString
           | _ => str_rev cur :: split_go s EmptyString
           end
      else split_go s (String c cur)
  end.
Definition str_split (s : string) : list string := split_go s EmptyString.

(** [''.join(l)] *)
Fixpoint str_concat (l : list string) : string :=
  match l with
  | [] => EmptyString
  | s :: l => s ++ str_concat l
  end.

(** a character as a string; membership in a tuple of characters *)
Definition str1 (c : ascii) : string := String c EmptyString.

(** membership of a string in a list of strings *)
Definition str_mem (s : string) (l : list string) : bool := existsb (String.eqb s) l.
Definition chr_mem (c : ascii) (l : list ascii) : bool := existsb (Ascii.eqb c) l.

Lemma str_mem_In : forall s l, str_mem s l = true <-> In s l.
Proof.
  intros s l. unfold str_mem. rewrite existsb_exists. split.
  - intros [x [H1 H2]]. apply String.eqb_eq in H2. subst. assumption.
  - intros H. exists s. split; [assumption|]. apply String.eqb_refl.
Qed.

Lemma chr_mem_In : forall s l, chr_mem s l = true <-> In s l.
Proof.
  intros s l. unfold chr_mem. rewrite existsb_exists. split.
  - intros [x [H1 H2]]. apply Ascii.eqb_eq in H2. subst. assumption.
  - intros H. exists s. split; [assumption|]. apply Ascii.eqb_refl.
Qed.

Lemma str_app_assoc : forall a b c : string, (a ++ b) ++ c = a ++ (b ++ c).
Proof. induction a; simpl; intros; [reflexivity|]. f_equal. apply IHa. Qed.
Lemma str_app_nil_r : forall a : string, a ++ "" = a.
Proof. induction a; simpl; [reflexivity|]. f_equal. assumption. Qed.

Lemma str_rev_app_spec : forall s acc, str_rev_app s acc = str_rev s ++ acc.
Proof.
  assert (H : forall s acc, str_rev_app s acc = str_rev_app s "" ++ acc).
  { induction s as [|c s IH]; simpl; intros acc; [reflexivity|].
    rewrite IH. rewrite (IH (String c "")). rewrite str_app_assoc. reflexivity. }
  intros. apply H.
Qed.
Lemma str_rev_cons : forall c s, str_rev (String c s) = str_rev s ++ str1 c.
Proof. intros. unfold str_rev at 1. simpl. apply str_rev_app_spec. Qed.
Lemma str_rev_append : forall a b, str_rev (a ++ b) = str_rev b ++ str_rev a.
Proof.
  induction a as [|c a IH]; intros b; simpl.
  - rewrite str_app_nil_r. reflexivity.
  - rewrite !str_rev_cons, IH. apply str_app_assoc.
Qed.
Lemma str_rev_involutive : forall s, str_rev (str_rev s) = s.
Proof.
  induction s as [|c s IH]; [reflexivity|].
  rewrite str_rev_cons, str_rev_append, IH. reflexivity.
Qed.

Lemma prefix_iff : forall p s, prefix p s = true <-> exists t, s = p ++ t.
Proof.
  induction p as [|c p IH]; intros s; simpl.
  - split; [eauto|]. destruct s; reflexivity.
  - destruct s as [|d s].
    + split; [discriminate|]. intros [t H]. discriminate.
    + cbn [prefix]. destruct (Ascii.ascii_dec c d).
      * subst. rewrite IH. split; intros [t H]; exists t; congruence.
      * split; [discriminate|]. intros [t H]. congruence.
Qed.

Lemma str_endswith_iff : forall p s, str_endswith p s = true <-> exists t, s = t ++ p.
Proof.
  intros p s. unfold str_endswith. rewrite prefix_iff. split; intros [t H].
  - exists (str_rev t). rewrite <- (str_rev_involutive s), H, str_rev_append, str_rev_involutive.
    reflexivity.
  - exists (str_rev t). subst. apply str_rev_append.
Qed.

Lemma str_startswith_iff : forall p s, str_startswith p s = true <-> exists t, s = p ++ t.
Proof. exact prefix_iff. Qed.

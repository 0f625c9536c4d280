(** Python control flow as values: exceptions, loops with fuel, sequences. *)
From Coq Require Import ZArith List Bool Lia String Ascii.
Import ListNotations.

(** The exceptions that the modelled code (or the Python runtime underneath it)
    can raise.  taupy/header.py:7-8 and taupy/helper_classes.py:13-18 define the
    first three; the others are Python built-ins.  [NonFinite] stands for
    "IEEE arithmetic produced inf/nan" and is only used by the exact-real
    instance of [Num], where such values do not exist. *)
Inductive exn :=
| TauPException | SlownessModelError | TauModelError
| ValueError | ZeroDivisionError | IndexError | TypeError | AttributeError
| AssertionError | ArithmeticError | OverflowError | NotImplementedError
| RuntimeError | FileNotFoundError | UnboundLocalError | NonFinite.

(** the outcome of a call: a value, an exception, or fuel exhausted in a loop *)
Inductive result (A : Type) :=
| Ok (a : A)
| Raise (e : exn)
| Diverge.
Arguments Ok {A} _.
Arguments Raise {A} _.
Arguments Diverge {A}.

(** run [r], then [f]; an exception ends the whole computation *)
Definition bind {A B} (r : result A) (f : A -> result B) : result B :=
  match r with
  | Ok a => f a
  | Raise e => Raise e
  | Diverge => Diverge
  end.

Notation "'let!' x ':=' r 'in' k" := (bind r (fun x => k))
  (at level 200, x pattern, r at level 100, k at level 200, right associativity).
Notation "'let!' ' x ':=' r 'in' k" := (bind r (fun x => k))
  (at level 200, x strict pattern, r at level 100, k at level 200, right associativity).

(** apply [f] to the value of [r] *)
Definition rmap {A B} (f : A -> B) (r : result A) : result B :=
  let! a := r in Ok (f a).

(** the call returned *)
Definition is_ok {A} (r : result A) : bool :=
  match r with Ok _ => true | _ => false end.

(** [assert b] : Python's assert statement / guard with an exception. *)
Definition guard (b : bool) (e : exn) : result unit :=
  if b then Ok tt else Raise e.

(** Python sequence indexing [l[i]] with [i] an int: negative indices count from
    the end, out of range raises IndexError. *)
Definition py_index {A} (l : list A) (i : Z) : result A :=
  let n := Z.of_nat (List.length l) in
  let j := if (i <? 0)%Z then (i + n)%Z else i in
  if (j <? 0)%Z then Raise IndexError
  else match nth_error l (Z.to_nat j) with
       | Some a => Ok a
       | None => Raise IndexError
       end.

(** [l[i] = a] *)
Fixpoint list_set {A} (l : list A) (i : nat) (a : A) : list A :=
  match l, i with
  | [], _ => []
  | _ :: t, O => a :: t
  | h :: t, S i => h :: list_set t i a
  end.

(** the same with Python's index rules *)
Definition py_setitem {A} (l : list A) (i : Z) (a : A) : result (list A) :=
  let n := Z.of_nat (List.length l) in
  let j := if (i <? 0)%Z then (i + n)%Z else i in
  if (j <? 0)%Z then Raise IndexError
  else if (j <? n)%Z then Ok (list_set l (Z.to_nat j) a)
  else Raise IndexError.

(** Clip a slice bound as Python does (step 1). *)
Definition slice_bound (n i : Z) : Z :=
  let j := if (i <? 0)%Z then (i + n)%Z else i in
  Z.min n (Z.max 0 j).

(** [l[i:j]] *)
Definition py_slice {A} (l : list A) (i j : Z) : list A :=
  let n := Z.of_nat (List.length l) in
  let a := slice_bound n i in
  let b := slice_bound n j in
  firstn (Z.to_nat (b - a)) (skipn (Z.to_nat a) l).

(** [l.insert(i, a)] *)
Definition py_insert {A} (l : list A) (i : Z) (a : A) : list A :=
  let k := Z.to_nat (slice_bound (Z.of_nat (List.length l)) i) in
  firstn k l ++ a :: skipn k l.

(** Monadic folds and maps. *)
Fixpoint foldM {A B} (f : B -> A -> result B) (l : list A) (b : B) : result B :=
  match l with
  | [] => Ok b
  | a :: l => let! b := f b a in foldM f l b
  end.

(** [[f(a) for a in l]] *)
Fixpoint mapM {A B} (f : A -> result B) (l : list A) : result (list B) :=
  match l with
  | [] => Ok []
  | a :: l => let! b := f a in let! bs := mapM f l in Ok (b :: bs)
  end.

(** [while]: run [body] until it says stop.  [inl s] = continue with state [s],
    [inr b] = leave the loop with result [b]. *)
Fixpoint while {S B} (fuel : nat) (body : S -> result (S + B)) (s : S) : result B :=
  match fuel with
  | O => Diverge
  | Datatypes.S fuel =>
      let! r := body s in
      match r with
      | inl s => while fuel body s
      | inr b => Ok b
      end
  end.

(** [for x in lst: body] where the body may change [lst] in place: Python's list
    iterator reads the list by index. *)
Fixpoint for_idx {S A} (fuel : nat) (get : S -> list A) (i : nat)
         (body : S -> A -> result S) (s : S) : result S :=
  match fuel with
  | O => Diverge
  | Datatypes.S fuel =>
      match nth_error (get s) i with
      | None => Ok s
      | Some a => let! s := body s a in for_idx fuel get (Datatypes.S i) body s
      end
  end.

(** remove the element at an index ([l.pop(i)] / [del l[i]], i in range) *)
Fixpoint list_del {A} (l : list A) (i : nat) : list A :=
  match l, i with
  | [], _ => []
  | _ :: t, O => t
  | h :: t, S i => h :: list_del t i
  end.

(** replace the element at an index by two: pop(i); insert(i, b); insert(i, a) *)
Fixpoint list_split_at {A} (l : list A) (i : nat) (a b : A) : list A :=
  match l, i with
  | [], _ => []
  | _ :: t, O => a :: b :: t
  | h :: t, S i => h :: list_split_at t i a b
  end.

(** [range(a, b)] on ints. *)
Definition zrange (a b : Z) : list Z :=
  map (fun k => (a + Z.of_nat k)%Z) (seq 0 (Z.to_nat (b - a))).

(** [range(a, b, -1)] *)
Definition zrange_down (a b : Z) : list Z :=
  map (fun k => (a - Z.of_nat k)%Z) (seq 0 (Z.to_nat (a - b))).

(** enumerate *)
Definition enumerate {A} (l : list A) : list (Z * A) :=
  combine (zrange 0 (Z.of_nat (List.length l))) l.

(** -- basic facts ---------------------------------------------------------- *)

Lemma bind_Ok_inv : forall {A B} (r : result A) (f : A -> result B) b,
  bind r f = Ok b -> exists a, r = Ok a /\ f a = Ok b.
Proof. intros A B [a|e|] f b H; simpl in H; try discriminate; eauto. Qed.

Lemma bind_Raise_inv : forall {A B} (r : result A) (f : A -> result B) e,
  bind r f = Raise e -> r = Raise e \/ exists a, r = Ok a /\ f a = Raise e.
Proof. intros A B [a|e'|] f e H; simpl in H; try discriminate; eauto.
  left. congruence. Qed.

Lemma bind_assoc : forall {A B C} (r : result A) (f : A -> result B) (g : B -> result C),
  bind (bind r f) g = bind r (fun a => bind (f a) g).
Proof. intros A B C [a|e|] f g; reflexivity. Qed.

Ltac inv_bind H :=
  let a := fresh "v" in let H1 := fresh H "a" in
  apply bind_Ok_inv in H; destruct H as [a [H1 H]].
Tactic Notation "inv_as" ident(H) "as" simple_intropattern(p) ident(Hx) :=
  apply bind_Ok_inv in H; destruct H as [p [Hx H]].

Lemma py_index_nonneg : forall {A} (l : list A) i a,
  (0 <= i)%Z -> py_index l i = Ok a <-> nth_error l (Z.to_nat i) = Some a.
Proof.
  intros A l i a Hi. unfold py_index.
  destruct (Z.ltb_spec i 0); [lia|].
  destruct (Z.ltb_spec i 0); [lia|].
  destruct (nth_error l (Z.to_nat i)); split; congruence.
Qed.

Lemma py_index_nat : forall {A} (l : list A) (i : nat),
  py_index l (Z.of_nat i) = match nth_error l i with Some a => Ok a | None => Raise IndexError end.
Proof.
  intros A l i. unfold py_index.
  destruct (Z.ltb_spec (Z.of_nat i) 0); [lia|].
  destruct (Z.ltb_spec (Z.of_nat i) 0); [lia|].
  rewrite Nat2Z.id. reflexivity.
Qed.

Lemma py_index_range : forall {A} (l : list A) i,
  (0 <= i < Z.of_nat (List.length l))%Z -> exists a, py_index l i = Ok a /\ nth_error l (Z.to_nat i) = Some a.
Proof.
  intros A l i Hi.
  destruct (nth_error l (Z.to_nat i)) as [a|] eqn:E.
  - exists a. split; [|reflexivity]. apply py_index_nonneg; [lia|assumption].
  - apply nth_error_None in E. lia.
Qed.

Lemma mapM_Ok_length : forall {A B} (f : A -> result B) l l',
  mapM f l = Ok l' -> List.length l' = List.length l.
Proof.
  induction l as [|a l IH]; simpl; intros l' H.
  - inversion H. reflexivity.
  - inv_bind H. inv_bind H. inversion H. simpl. f_equal. apply IH. assumption.
Qed.

Lemma mapM_Ok_Forall2 : forall {A B} (f : A -> result B) l l',
  mapM f l = Ok l' <-> Forall2 (fun a b => f a = Ok b) l l'.
Proof.
  intros A B f l; induction l as [|a l IH]; simpl; intros l'.
  - split; intro H; inversion H; subst; constructor.
  - split; intro H.
    + inv_bind H. inv_bind H. inversion H; subst. constructor; [assumption|].
      apply IH. assumption.
    + inversion H; subst. rewrite H2. simpl.
      apply IH in H4. rewrite H4. reflexivity.
Qed.

Lemma foldM_app : forall {A B} (f : B -> A -> result B) l1 l2 b,
  foldM f (l1 ++ l2) b = let! b := foldM f l1 b in foldM f l2 b.
Proof.
  induction l1 as [|a l1 IH]; simpl; intros l2 b; [reflexivity|].
  destruct (f b a); simpl; auto.
Qed.

Lemma while_mono : forall {S B} (body : S -> result (S + B)) n m s b,
  while n body s = Ok b -> n <= m -> while m body s = Ok b.
Proof.
  induction n as [|n IH]; simpl; intros m s b H Hle; [discriminate|].
  destruct m as [|m]; [lia|]. simpl.
  inv_bind H. rewrite Ha. simpl. destruct v as [s'|b'].
  - apply IH; [assumption|lia].
  - assumption.
Qed.

Lemma zrange_length : forall a b, List.length (zrange a b) = Z.to_nat (b - a).
Proof. intros. unfold zrange. rewrite map_length, seq_length. reflexivity. Qed.

Lemma zrange_nth : forall a b k, (k < Z.to_nat (b - a)) ->
  nth_error (zrange a b) k = Some (a + Z.of_nat k)%Z.
Proof.
  intros a b k H. unfold zrange. rewrite nth_error_map.
  rewrite (nth_error_nth' (seq 0 (Z.to_nat (b-a))) 0) by (rewrite seq_length; lia).
  rewrite seq_nth by lia. simpl. reflexivity.
Qed.

Lemma zrange_In : forall a b k, In k (zrange a b) <-> (a <= k < b)%Z.
Proof.
  intros a b k. unfold zrange. rewrite in_map_iff. split.
  - intros [x [H1 H2]]. apply in_seq in H2. lia.
  - intros H. exists (Z.to_nat (k - a)). split; [lia|]. apply in_seq. lia.
Qed.

Lemma zrange_cons : forall a b, (a < b)%Z -> zrange a b = a :: zrange (a+1) b.
Proof.
  intros a b H. unfold zrange.
  replace (Z.to_nat (b - a)) with (S (Z.to_nat (b - (a+1)))) by lia.
  simpl. f_equal; [lia|]. rewrite <- seq_shift, map_map.
  apply map_ext. intros. lia.
Qed.

Lemma zrange_nil : forall a b, (b <= a)%Z -> zrange a b = [].
Proof. intros a b H. unfold zrange. replace (Z.to_nat (b-a)) with 0%nat by lia. reflexivity. Qed.

Lemma zrange_snoc : forall a b, (a <= b)%Z -> zrange a (b+1) = zrange a b ++ [b].
Proof.
  intros a b H. unfold zrange.
  replace (Z.to_nat (b + 1 - a)) with (Z.to_nat (b-a) + 1)%nat by lia.
  rewrite seq_app, map_app. simpl. f_equal. f_equal. lia.
Qed.

Lemma zrange_down_cons : forall a b, (b < a)%Z -> zrange_down a b = a :: zrange_down (a-1) b.
Proof.
  intros a b H. unfold zrange_down.
  replace (Z.to_nat (a - b)) with (S (Z.to_nat (a - 1 - b))) by lia.
  simpl. f_equal; [lia|]. rewrite <- seq_shift, map_map.
  apply map_ext. intros. lia.
Qed.

Lemma zrange_down_nil : forall a b, (a <= b)%Z -> zrange_down a b = [].
Proof. intros a b H. unfold zrange_down. replace (Z.to_nat (a-b)) with 0%nat by lia. reflexivity. Qed.

Lemma list_set_length : forall {A} (l : list A) i a, List.length (list_set l i a) = List.length l.
Proof. induction l; destruct i; simpl; auto. Qed.

Lemma list_set_nth_same : forall {A} (l : list A) i a, i < List.length l -> nth_error (list_set l i a) i = Some a.
Proof. induction l; destruct i; simpl; intros; auto; try lia. apply IHl. lia. Qed.

Lemma list_set_nth_other : forall {A} (l : list A) i j a, i <> j -> nth_error (list_set l i a) j = nth_error l j.
Proof. induction l; destruct i, j; simpl; intros; auto; try congruence. Qed.

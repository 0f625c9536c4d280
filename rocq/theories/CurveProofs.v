From Coq Require Import ZArith Bool List String Reals Lia Lra Psatz.
From Verif Require Import Base Num PyStr VelocityModel SlownessLayer SlownessModel TauModel Legs
  SeismicPhase SlowRealProofs CurveSpec.
Import ListNotations.
Local Open Scope list_scope.

(** ** Python indexing *)
Lemma py_index_iff : forall {A} (l : list A) i a, py_index l i = Ok a <-> at_index l i a.
Proof.
  intros A l i a. unfold py_index, at_index. cbv zeta.
  destruct (Z.ltb_spec i 0) as [L|L].
  - destruct (Z.ltb_spec (i + Z.of_nat (List.length l)) 0) as [M|M].
    + split; [discriminate|]. intros [[? _]|[? _]]; lia.
    + destruct (nth_error l (Z.to_nat (i + Z.of_nat (List.length l)))) eqn:E;
      rewrite Z.add_comm in E.
      * split; [intros H; inversion H; subst; right; split; [lia|assumption]|].
        intros [[? _]|[_ H]]; [lia|]. congruence.
      * split; [discriminate|]. intros [[? _]|[_ H]]; [lia|congruence].
  - destruct (Z.ltb_spec i 0) as [M|M]; [lia|].
    destruct (nth_error l (Z.to_nat i)) eqn:E.
    + split; [intros H; inversion H; subst; left; split; [lia|first [reflexivity|assumption]]|].
      intros [[_ H]|[? _]]; [congruence|lia].
    + split; [discriminate|]. intros [[_ H]|[? _]]; [discriminate|lia].
Qed.
Lemma at_index_fun : forall {A} (l : list A) i a b, at_index l i a -> at_index l i b -> a = b.
Proof. intros A l i a b Ha Hb. apply py_index_iff in Ha, Hb. congruence. Qed.
Lemma at_index_nat : forall {A} (l : list A) (k : nat) a, at_index l (Z.of_nat k) a <-> nth_error l k = Some a.
Proof.
  intros A l k a. unfold at_index. rewrite Nat2Z.id. split; [intros [[_ H]|[? _]]; [assumption|lia]|].
  intros H. left. split; [lia|assumption].
Qed.
Lemma at_index_nonneg : forall {A} (l : list A) i a, (0 <= i)%Z -> at_index l i a <-> nth_error l (Z.to_nat i) = Some a.
Proof. intros A l i a Hi. rewrite <- (Z2Nat.id i) at 1 by assumption. apply at_index_nat. Qed.

(** position meant by an index *)
Definition pos (n : nat) (i : Z) : nat := Z.to_nat (if (i <? 0)%Z then Z.of_nat n + i else i).
Lemma at_index_pos : forall {A} (l : list A) i a, at_index l i a -> nth_error l (pos (List.length l) i) = Some a.
Proof.
  intros A l i a [[H E]|[H E]]; unfold pos; destruct (Z.ltb_spec i 0); try lia; assumption.
Qed.
Lemma setitem_Ok : forall {A} (l l' : list A) i x, py_setitem l i x = Ok l' ->
  l' = list_set l (pos (List.length l) i) x /\ (pos (List.length l) i < List.length l)%nat.
Proof.
  intros A l l' i x H. unfold py_setitem in H. cbv zeta in H. unfold pos.
  rewrite (Z.add_comm i) in H.
  destruct (Z.ltb_spec i 0) as [L|L].
  - destruct (Z.ltb_spec (Z.of_nat (List.length l) + i) 0); [discriminate|].
    destruct (Z.ltb_spec (Z.of_nat (List.length l) + i) (Z.of_nat (List.length l))); [|discriminate].
    inversion H; subst. split; [reflexivity|lia].
  - destruct (Z.ltb_spec i 0); [discriminate|]. destruct (Z.ltb_spec i (Z.of_nat (List.length l))); [|discriminate].
    inversion H; subst. split; [reflexivity|lia].
Qed.

(** ** sums over real lists *)
Local Open Scope R_scope.

Definition val (l : list R) (k : nat) : R := nth k l 0.
Lemma val_set : forall l k x j, (k < List.length l)%nat -> val (list_set l k x) j = if (j =? k)%nat then x else val l j.
Proof.
  unfold val. induction l as [|a l IH]; intros [|k] x [|j] H; cbn [List.length] in H; cbn [list_set nth Nat.eqb]; try lia; try reflexivity.
  apply IH. lia.
Qed.
Lemma val_at : forall l k x, nth_error l k = Some x -> val l k = x.
Proof. intros l k x H. unfold val. apply nth_error_nth. assumption. Qed.

(** adding [k] times one branch: samples [lo..hi] go to places [0..hi-lo] *)
Lemma add_times_spec : forall k src lo hi acc acc', (0 <= lo)%Z -> add_times k src lo hi acc = Ok acc' ->
  List.length acc' = List.length acc /\
  (forall j, (Z.of_nat j <= hi - lo)%Z -> val acc' j = val acc j + IZR k * val src (Z.to_nat lo + j)) /\
  (forall j, (hi - lo < Z.of_nat j)%Z -> val acc' j = val acc j) /\
  (k <> 0%Z -> forall i, (lo <= i <= hi)%Z -> (Z.to_nat i < List.length src)%nat).
Proof.
  intros k src lo hi acc acc' Hlo H. unfold add_times in H.
  destruct (Z.eqb_spec k 0) as [->|Hk].
  { inversion H; subst. split; [reflexivity|]. split; [intros; lra|]. split; [reflexivity|]. intros F. contradiction. }
  assert (G : forall m acc1 acc2, (0 <= m)%Z ->
    foldM (fun acc i => let! a := py_index acc (i - lo) in let! b := py_index src i in
             py_setitem acc (i - lo) (n_add a (n_mul (n_int k) b))) (zrange lo (lo + m)) acc1 = Ok acc2 ->
    List.length acc2 = List.length acc1 /\
    (forall j, (Z.of_nat j < m)%Z -> val acc2 j = val acc1 j + IZR k * val src (Z.to_nat lo + j)) /\
    (forall j, (m <= Z.of_nat j)%Z -> val acc2 j = val acc1 j) /\
    (forall i, (lo <= i < lo + m)%Z -> (Z.to_nat i < List.length src)%nat)).
  { intros m acc1 acc2 Hm. revert acc2. pattern m. apply natlike_ind; [| |assumption].
    - intros acc2 Hf. rewrite zrange_nil in Hf by lia. inversion Hf; subst.
      split; [reflexivity|]. split; [intros; lia|]. split; [reflexivity|intros; lia].
    - clear m Hm. intros m Hm IH acc2 Hf.
      replace (lo + Z.succ m)%Z with (lo + m + 1)%Z in Hf by lia. rewrite zrange_snoc in Hf by lia.
      rewrite foldM_app in Hf. inv_as Hf as a1 H1. destruct (IH _ H1) as [L1 [V1 [W1 B1]]].
      cbn [foldM] in Hf. inv_as Hf as a2 H2. inversion Hf; subst a2. clear Hf.
      inv_as H2 as a Ha. inv_as H2 as b Hb.
      replace (lo + m - lo)%Z with m in * by lia.
      apply setitem_Ok in H2. destruct H2 as [-> Hp].
      apply py_index_iff in Ha, Hb. apply at_index_pos in Ha. apply at_index_nonneg in Hb; [|lia].
      assert (Pm : pos (List.length a1) m = Z.to_nat m) by (unfold pos; destruct (Z.ltb_spec m 0); [lia|reflexivity]).
      rewrite Pm in *. apply val_at in Ha. pose proof (val_at _ _ _ Hb) as Vb.
      split; [rewrite list_set_length; assumption|]. rewrite n_int_R. cbn [n_add n_mul Num_R].
      split; [|split].
      + intros j Hj. rewrite val_set by assumption. destruct (Nat.eqb_spec j (Z.to_nat m)) as [->|Ne].
        * rewrite <- Ha, <- Vb. rewrite W1 by lia. f_equal. f_equal. f_equal. lia.
        * apply V1. lia.
      + intros j Hj. rewrite val_set by assumption. destruct (Nat.eqb_spec j (Z.to_nat m)) as [->|Ne]; [lia|]. apply W1. lia.
      + intros i Hi. destruct (Z.eq_dec i (lo + m)) as [->|Ne]; [|apply B1; lia].
        apply nth_error_Some. rewrite Hb. discriminate. }
  destruct (Z.le_gt_cases 0 (hi + 1 - lo)) as [Hm|Hm].
  - replace (hi + 1)%Z with (lo + (hi + 1 - lo))%Z in H by lia. apply G in H; [|assumption].
    destruct H as [L1 [V1 [W1 B1]]]. split; [assumption|]. split; [intros j Hj; apply V1; lia|].
    split; [intros j Hj; apply W1; lia|]. intros _ i Hi. apply B1. lia.
  - rewrite zrange_nil in H by lia. inversion H; subst. split; [reflexivity|]. split; [intros; lia|].
    split; [reflexivity|intros; lia].
Qed.

(** the weighted sum of the branches *)
Definition entry : Type := ((Z * Z) * (tbranch R * tbranch R))%type.
Fixpoint weighted (f : tbranch R -> R) (l : list entry) : R :=
  match l with
  | [] => 0
  | ((k, ks), (b, bs)) :: l => IZR k * f b + IZR ks * f bs + weighted f l
  end.
Lemma sum_branch_spec : forall f lo hi l acc acc', (0 <= lo)%Z -> sum_branch_list f lo hi l acc = Ok acc' ->
  List.length acc' = List.length acc /\
  (forall j, (Z.of_nat j <= hi - lo)%Z -> val acc' j = val acc j + weighted (fun b => val (f b) (Z.to_nat lo + j)) l) /\
  (forall j, (hi - lo < Z.of_nat j)%Z -> val acc' j = val acc j) /\
  (forall k ks b bs, In ((k, ks), (b, bs)) l -> forall i, (lo <= i <= hi)%Z ->
     (k <> 0%Z -> (Z.to_nat i < List.length (f b))%nat) /\ (ks <> 0%Z -> (Z.to_nat i < List.length (f bs))%nat)).
Proof.
  intros f lo hi l acc acc' Hlo. revert acc. induction l as [|[[k ks] [b bs]] l IH]; intros acc H.
  - inversion H; subst. split; [reflexivity|]. split; [intros; cbn [weighted]; lra|]. split; [reflexivity|].
    intros ? ? ? ? [].
  - unfold sum_branch_list in H. cbn [foldM] in H. inv_as H as a1 H1. inv_as H1 as a0 H0.
    apply add_times_spec in H0; [|assumption]. apply add_times_spec in H1; [|assumption].
    destruct H0 as [L0 [V0 [W0 B0]]]. destruct H1 as [L1 [V1 [W1 B1]]].
    destruct (IH _ H) as [L2 [V2 [W2 B2]]].
    split; [congruence|]. split; [|split].
    + intros j Hj. rewrite V2, V1, V0 by assumption. cbn [weighted]. lra.
    + intros j Hj. rewrite W2, W1, W0 by assumption. reflexivity.
    + intros k' ks' b' bs' [E|Hin] i Hi.
      * inversion E; subst. split; intros Hk; [apply B0|apply B1]; assumption.
      * eapply B2; eassumption.
Qed.

(** ** counting the legs of each branch *)
Definition idxv (l : list R) (i : Z) : R := match py_index l i with Ok x => x | _ => 0 end.
Lemma idxv_at : forall l i x, at_index l i x -> idxv l i = x.
Proof. intros l i x H. apply py_index_iff in H. unfold idxv. rewrite H. reflexivity. Qed.
Lemma idxv_val : forall l i, (0 <= i)%Z -> idxv l i = val l (Z.to_nat i).
Proof.
  intros l i Hi. unfold idxv, val, py_index. cbv zeta.
  destruct (Z.ltb_spec i 0); [lia|]. destruct (Z.ltb_spec i 0); [lia|].
  destruct (nth_error l (Z.to_nat i)) eqn:E; [symmetry; apply nth_error_nth; assumption|].
  symmetry. apply nth_overflow. apply nth_error_None. assumption.
Qed.

Fixpoint dotz (l : list Z) (g : nat -> R) : R :=
  match l with [] => 0 | a :: l => IZR a * g O + dotz l (fun k => g (S k)) end.
Lemma dotz_set : forall l g k x, (k < List.length l)%nat ->
  dotz (list_set l k x) g = dotz l g + (IZR x - IZR (nth k l 0%Z)) * g k.
Proof.
  induction l as [|a l IH]; intros g [|k] x H; cbn [List.length] in H; try lia; cbn [list_set dotz nth]; [lra|].
  rewrite IH by lia. lra.
Qed.
Lemma dotz_zero : forall n g, dotz (repeat 0%Z n) g = 0.
Proof. induction n as [|n IH]; intros g; cbn [repeat dotz]; [reflexivity|]. rewrite IH. lra. Qed.

Fixpoint seqsum (n : nat) (w : bool) (g : nat -> R) (l : list seg) : R :=
  match l with
  | [] => 0
  | s :: l => (if Bool.eqb (sg_isP s) w then g (pos n (sg_branch s)) else 0) + seqsum n w g l
  end.
Lemma count_spec : forall w l acc acc',
  foldM (fun acc s => if Bool.eqb (sg_isP s) w
                      then let! c := py_index acc (sg_branch s) in
                           py_setitem acc (sg_branch s) (c + 1)%Z
                      else Ok acc) l acc = Ok acc' ->
  List.length acc' = List.length acc /\
  (forall g, dotz acc' g = dotz acc g + seqsum (List.length acc) w g l) /\
  (forall k, (nth k acc 0 <= nth k acc' 0)%Z) /\
  (forall s, In s l -> sg_isP s = w ->
     (- Z.of_nat (List.length acc) <= sg_branch s < Z.of_nat (List.length acc))%Z /\
     (nth (pos (List.length acc) (sg_branch s)) acc 0 < nth (pos (List.length acc) (sg_branch s)) acc' 0)%Z).
Proof.
  intros w. induction l as [|s l IH]; intros acc acc' H; cbn [foldM] in H.
  - inversion H; subst. split; [reflexivity|]. split; [intros; cbn [seqsum]; lra|]. split; [intros; lia|]. intros s [].
  - inv_as H as a1 H1. destruct (IH _ _ H) as [L1 [D1 [M1 S1]]].
    destruct (Bool.eqb (sg_isP s) w) eqn:Ew.
    + inv_as H1 as c Hc. apply setitem_Ok in H1. destruct H1 as [-> Hp].
      apply py_index_iff in Hc. assert (Hr := Hc). apply at_index_pos in Hc. apply nth_error_nth with (d := 0%Z) in Hc.
      rewrite list_set_length in *.
      assert (Nth : forall k, nth k (list_set acc (pos (List.length acc) (sg_branch s)) (c + 1)%Z) 0%Z
                 = if (k =? pos (List.length acc) (sg_branch s))%nat then (c + 1)%Z else nth k acc 0%Z).
      { clear - Hp. revert Hp. generalize (pos (List.length acc) (sg_branch s)). intros q. revert q.
        induction acc as [|a acc IH]; intros [|q] Hq [|k]; cbn [List.length] in Hq; cbn [list_set nth Nat.eqb]; try lia; try reflexivity.
        apply IH. lia. }
      split; [assumption|]. split; [|split].
      * intros g. rewrite D1, dotz_set by assumption. cbn [seqsum]. rewrite Ew, Hc, plus_IZR. lra.
      * intros k. specialize (M1 k). rewrite Nth in M1. destruct (Nat.eqb_spec k (pos (List.length acc) (sg_branch s))); [subst; lia|assumption].
      * intros s' [<-|Hin] Es.
        -- split.
           { unfold at_index in Hr. cbv zeta in Hr. destruct Hr as [[? Hr]|[? _]]; [|lia].
             assert (Z.to_nat (sg_branch s) < List.length acc)%nat by (apply nth_error_Some; rewrite Hr; discriminate). lia. }
           specialize (M1 (pos (List.length acc) (sg_branch s))). rewrite Nth in M1. rewrite Nat.eqb_refl in M1. lia.
        -- destruct (S1 _ Hin Es) as [A B]. split; [assumption|]. rewrite Nth in B.
           destruct (Nat.eqb_spec (pos (List.length acc) (sg_branch s')) (pos (List.length acc) (sg_branch s))) as [E|E]; [|assumption].
           rewrite E in *. lia.
    + inversion H1; subst a1. split; [assumption|]. split; [|split; [assumption|]].
      * intros g. rewrite D1. cbn [seqsum]. rewrite Ew. lra.
      * intros s' [<-|Hin] Es; [subst; rewrite eqb_reflx in Ew; discriminate|]. apply S1; assumption.
Qed.

Definition at_nat (l : list (tbranch R)) (F : tbranch R -> R) (k : nat) : R :=
  match nth_error l k with Some b => F b | None => 0 end.
Lemma weighted_dot : forall F nP nS lP lS, List.length nP = List.length lP -> List.length nS = List.length lP ->
  List.length lS = List.length lP ->
  weighted F (combine (combine nP nS) (combine lP lS)) = dotz nP (at_nat lP F) + dotz nS (at_nat lS F).
Proof.
  intros F. induction nP as [|a nP IH]; intros [|b nS] [|x lP] [|y lS] H1 H2 H3; cbn [List.length] in *; try lia.
  - cbn. lra.
  - cbn [combine weighted dotz]. rewrite IH by lia.
    change (at_nat (x :: lP) F 0%nat) with (F x). change (at_nat (y :: lS) F 0%nat) with (F y).
    change (fun k => at_nat (x :: lP) F (S k)) with (at_nat lP F).
    change (fun k => at_nat (y :: lS) F (S k)) with (at_nat lS F). lra.
Qed.
Lemma combine_In_nth : forall {A B} (a : list A) (b : list B) k x y,
  nth_error a k = Some x -> nth_error b k = Some y -> In (x, y) (combine a b).
Proof.
  induction a as [|a0 a IH]; intros [|b0 b] [|k] x y Ha Hb; try discriminate; cbn [combine].
  - inversion Ha; inversion Hb; subst. left. reflexivity.
  - right. eapply IH; eassumption.
Qed.
Lemma nth_error_combine : forall {A B} (a : list A) (b : list B) k x y,
  nth_error (combine a b) k = Some (x, y) <-> nth_error a k = Some x /\ nth_error b k = Some y.
Proof.
  induction a as [|a0 a IH]; intros [|b0 b] [|k] x y; cbn [combine nth_error]; try (split; [discriminate|intros [? ?]; discriminate]).
  - split; [intros H; inversion H; auto|]. intros [H1 H2]. congruence.
  - apply IH.
Qed.

Section Count.
  Variable t : tmodel R.
  Variable nP nS : list Z.
  Variable seq : list seg.
  Hypothesis Hlen : List.length (tm_S t) = List.length (tm_P t).
  Hypothesis HP : count_branches (List.length (tm_P t)) true seq = Ok nP.
  Hypothesis HS : count_branches (List.length (tm_P t)) false seq = Ok nS.
  Definition entries : list entry := combine (combine nP nS) (combine (tm_P t) (tm_S t)).

  Lemma counts_len : List.length nP = List.length (tm_P t) /\ List.length nS = List.length (tm_P t).
  Proof.
    unfold count_branches in HP, HS. apply count_spec in HP, HS.
    destruct HP as [LP _], HS as [LS _]. rewrite repeat_length in LP, LS. auto.
  Qed.
  (** every leg has its branch, and the branch has an entry with a positive count *)
  Lemma leg_entry : forall s, In s seq -> exists b k ks bP bS,
    leg_branch t s b /\ In ((k, ks), (bP, bS)) entries /\
    (if sg_isP s then b = bP /\ k <> 0%Z else b = bS /\ ks <> 0%Z).
  Proof.
    intros s Hs. destruct counts_len as [LP LS].
    unfold count_branches in HP, HS. apply count_spec in HP, HS.
    destruct HP as [_ [_ [_ CP]]], HS as [_ [_ [_ CS]]]. rewrite repeat_length in CP, CS.
    assert (Z0 : forall n k, nth k (repeat 0%Z n) 0%Z = 0%Z) by (induction n; intros [|k]; cbn; auto).
    assert (R : (- Z.of_nat (List.length (tm_P t)) <= sg_branch s < Z.of_nat (List.length (tm_P t)))%Z).
    { destruct (sg_isP s) eqn:E; [destruct (CP s Hs E)|destruct (CS s Hs E)]; assumption. }
    set (q := pos (List.length (tm_P t)) (sg_branch s)) in *.
    assert (Hq : (q < List.length (tm_P t))%nat) by (unfold q, pos; destruct (Z.ltb_spec (sg_branch s) 0); lia).
    assert (Gen : forall A (l : list A), List.length l = List.length (tm_P t) ->
              exists x, nth_error l q = Some x).
    { intros A l E. destruct (nth_error l q) eqn:F; [eauto|]. apply nth_error_None in F. lia. }
    destruct (Gen _ nP LP) as [k Hk]. destruct (Gen _ nS LS) as [ks Hks].
    destruct (Gen _ (tm_P t) eq_refl) as [bP HbP]. destruct (Gen _ (tm_S t) Hlen) as [bS HbS].
    exists (if sg_isP s then bP else bS), k, ks, bP, bS.
    split; [|split].
    - unfold leg_branch. unfold at_index. cbv zeta.
      assert (Hb : nth_error (if sg_isP s then tm_P t else tm_S t) q = Some (if sg_isP s then bP else bS)) by (destruct (sg_isP s); assumption).
      assert (Hn : List.length (if sg_isP s then tm_P t else tm_S t) = List.length (tm_P t)) by (destruct (sg_isP s); auto).
      rewrite Hn. unfold q, pos in Hb. destruct (Z.ltb_spec (sg_branch s) 0); [right|left]; (split; [lia|assumption]).
    - unfold entries. eapply combine_In_nth; apply nth_error_combine; split; eassumption.
    - destruct (sg_isP s) eqn:E; (split; [reflexivity|]).
      + destruct (CP s Hs E) as [_ C]. rewrite Z0 in C. fold q in C. apply nth_error_nth with (d := 0%Z) in Hk. lia.
      + destruct (CS s Hs E) as [_ C]. rewrite Z0 in C. fold q in C. apply nth_error_nth with (d := 0%Z) in Hks. lia.
  Qed.

  Fixpoint legsum (F : tbranch R -> R) (l : list seg) : R :=
    match l with
    | [] => 0
    | s :: l => match py_index (if sg_isP s then tm_P t else tm_S t) (sg_branch s) with
                | Ok b => F b | _ => 0 end + legsum F l
    end.
  Lemma weighted_legs : forall F, weighted F entries = legsum F seq.
  Proof.
    intros F. destruct counts_len as [LP LS]. unfold entries. rewrite weighted_dot by auto.
    pose proof leg_entry as LE.
    unfold count_branches in HP, HS. apply count_spec in HP, HS.
    destruct HP as [_ [DP _]], HS as [_ [DS _]]. rewrite DP, DS, !dotz_zero, repeat_length. clear DP DS.
    assert (G : forall l, incl l seq ->
      seqsum (List.length (tm_P t)) true (at_nat (tm_P t) F) l + seqsum (List.length (tm_P t)) false (at_nat (tm_S t) F) l = legsum F l).
    { induction l as [|s l IH]; intros Hi; cbn [seqsum legsum]; [lra|].
      rewrite <- IH by (intros x Hx; apply Hi; right; assumption).
      destruct (LE s (Hi s (or_introl eq_refl))) as [b [_ [_ [_ [_ [Hb _]]]]]].
      unfold leg_branch in Hb. assert (E := Hb). apply py_index_iff in E. rewrite E. clear E.
      apply at_index_pos in Hb.
      destruct (sg_isP s); cbn [Bool.eqb]; [|rewrite Hlen in Hb].
      - replace (at_nat (tm_P t) F (pos (List.length (tm_P t)) (sg_branch s))) with (F b) by (unfold at_nat; rewrite Hb; reflexivity). lra.
      - replace (at_nat (tm_S t) F (pos (List.length (tm_P t)) (sg_branch s))) with (F b) by (unfold at_nat; rewrite Hb; reflexivity). lra. }
    rewrite <- G by apply incl_refl. lra.
  Qed.
End Count.

(** ** the curve before and after the shadow zones *)
Lemma last_ge_spec : forall p l i found,
  (forall j, (j < List.length l)%nat -> nth j l 0 < p) /\ last_ge p i l found = found \/
  exists j r, nth_error l j = Some r /\ p <= r /\ (forall k q, (j < k)%nat -> nth_error l k = Some q -> q < p) /\
    last_ge p i l found = (i + Z.of_nat j)%Z.
Proof.
  intros p. induction l as [|a l IH]; intros i found; cbn [last_ge].
  - left. split; [intros j Hj; cbn in Hj; lia|reflexivity].
  - destruct (IH (i + 1)%Z (if n_leb p a then i else found)) as [[A E]|[j [r [Hj [Hr [Hk E]]]]]].
    + rewrite E. destruct (n_leb p a) eqn:L.
      * apply Rleb_le in L. right. exists O, a. split; [reflexivity|]. split; [assumption|]. split; [|lia].
        intros [|k] q Hk Hq; [lia|]. cbn [nth_error] in Hq.
        assert (k < List.length l)%nat by (apply nth_error_Some; rewrite Hq; discriminate).
        apply nth_error_nth with (d := 0) in Hq. rewrite <- Hq. apply A. assumption.
      * left. split; [|reflexivity]. intros [|j] Hj; cbn [nth].
        -- destruct (Rlt_dec a p) as [|F]; [assumption|]. exfalso.
           assert (n_leb p a = true) by (apply Rleb_le; lra). congruence.
        -- apply A. cbn in Hj. lia.
    + right. exists (S j), r. split; [assumption|]. split; [assumption|]. split; [|lia].
      intros [|k] q Hlt Hq; [lia|]. apply (Hk k q); [lia|assumption].
Qed.
Lemma last_ge_sample : forall p l, (exists r, In r l /\ p <= r) -> last_sample l p (last_ge p 0 l (-1)).
Proof.
  intros p l [r [Hin Hr]]. destruct (last_ge_spec p l 0 (-1)) as [[A _]|[j [q [Hj [Hq [Hk E]]]]]].
  - exfalso. destruct (In_nth l r 0 Hin) as [k [Hk E]]. specialize (A k Hk). lra.
  - rewrite E. unfold last_sample. replace (Z.to_nat (0 + Z.of_nat j)) with j by lia.
    split; [lia|]. split; [eauto|exact Hk].
Qed.

Lemma str_in_iff : forall p s, str_in p s = true <-> contains p s.
Proof.
  intros p s. unfold str_in, contains. induction s as [|c s IH].
  - cbn [index]. destruct p as [|d p].
    + split; [intros _; exists ""%string, ""%string; reflexivity|reflexivity].
    + split; [discriminate|]. intros [[|a0 a] [b H]]; discriminate.
  - cbn [index]. destruct (prefix p (String c s)) eqn:E.
    + split; [intros _|reflexivity]. apply prefix_iff in E. destruct E as [b E]. exists ""%string, b. exact E.
    + destruct (index 0 p s).
      * split; [intros _|reflexivity]. destruct (proj1 IH eq_refl) as [a [b ->]]. exists (String c a), b. reflexivity.
      * split; [discriminate|]. intros [[|a0 a] [b H]].
        -- assert (prefix p (String c s) = true) by (apply prefix_iff; exists b; exact H). congruence.
        -- inversion H. subst. apply IH. exists a, b. reflexivity.
Qed.

Section Parts.
  Variable show : R -> string.

  Lemma newPhase_parts : forall w t tid name ph, newPhase show w t tid name = Ok ph -> ph_rayParams ph <> [] ->
    exists legs s nP nS dist0 time0 dist time st1 st,
    let lo := last_ge (ps_max s) 0 (tm_rayParams t) (-1) in
    let hi := last_ge (ps_min s) 0 (tm_rayParams t) (-1) in
    let rps := phase_rayParams t s lo hi in
    let l := combine (combine nP nS) (combine (tm_P t) (tm_S t)) in
    legPuller name = Ok legs /\ parseName w t name legs = Ok (Some s) /\
    0 <= ps_max s /\ ps_min s <= ps_max s /\
    count_branches (List.length (tm_P t)) true (ps_seq s) = Ok nP /\
    count_branches (List.length (tm_P t)) false (ps_seq s) = Ok nS /\
    sum_branch_list tb_dist lo hi l (repeat n_0 (List.length rps)) = Ok dist0 /\
    sum_branch_list tb_time lo hi l (repeat n_0 (List.length rps)) = Ok time0 /\
    sum_special t name s lo hi dist0 time0 = Ok (Some (dist, time)) /\
    foldM (shadow_step t s lo true l) (sm_hiP (tm_sMod t)) (mkSh dist time rps 0) = Ok st1 /\
    foldM (shadow_step t s lo false l) (sm_hiS (tm_sMod t)) (mkSh (sh_dist st1) (sh_time st1) (sh_rp st1) 0) = Ok st /\
    list_min dist = Ok (ph_minDist ph) /\ list_max dist = Ok (ph_maxDist ph) /\
    ph_name ph = name /\ ph_legs ph = legs /\ ph_min ph = ps_min s /\ ph_max ph = ps_max s /\ ph_seq ph = ps_seq s /\
    ph_minIdx ph = hi /\ ph_maxIdx ph = lo /\ ph_sourceDepth ph = tm_sourceDepth t /\ ph_tMod ph = t /\
    ph_dist ph = sh_dist st /\ ph_time ph = sh_time st /\ ph_rayParams ph = sh_rp st.
  Proof.
    intros w t tid name ph H Hne. unfold newPhase in H.
    inv_as H as legs Hl. inv_as H as purist Hp. inv_as H as o Ho. destruct o as [s|]; [|discriminate].
    match type of H with (if ?b then _ else _) = _ => destruct b eqn:E end;
      [injection H as <-; exfalso; apply Hne; reflexivity|].
    apply orb_false_iff in E. destruct E as [E1 E2]. rewrite n_0_R in E1. apply Rltb_ge in E1. apply Rltb_ge in E2. apply Rnot_lt_le in E1, E2.
    inv_as H as nP HnP. inv_as H as nS HnS. inv_as H as dist0 Hd0. inv_as H as time0 Ht0. inv_as H as sp Hsp.
    destruct sp as [[dist time]|]; [|injection H as <-; exfalso; apply Hne; reflexivity].
    inv_as H as mind Hmin. inv_as H as maxd Hmax. inv_as H as st1 H1. inv_as H as st H2. injection H as <-.
    exists legs, s, nP, nS, dist0, time0, dist, time, st1, st. cbv zeta.
    cbn [ph_name ph_legs ph_min ph_max ph_seq ph_minIdx ph_maxIdx ph_sourceDepth ph_tMod ph_dist ph_time ph_rayParams ph_minDist ph_maxDist].
    repeat (split; [first [assumption|reflexivity]|]). reflexivity.
  Qed.

  (** *** sums *)
  Section Sums.
    Variables (t : tmodel R) (s : pstate R) (nP nS : list Z).
    Hypothesis Hlen : List.length (tm_S t) = List.length (tm_P t).
    Hypothesis HP : count_branches (List.length (tm_P t)) true (ps_seq s) = Ok nP.
    Hypothesis HS : count_branches (List.length (tm_P t)) false (ps_seq s) = Ok nS.
    Let l := combine (combine nP nS) (combine (tm_P t) (tm_S t)).
    Variables (lo hi : Z).
    Hypothesis Hlo : (0 <= lo)%Z.

    Lemma sum_total : forall f n acc, sum_branch_list f lo hi l (repeat n_0 n) = Ok acc ->
      List.length acc = n /\
      forall j, (Z.of_nat j <= hi - lo)%Z -> legs_total t f (lo + Z.of_nat j) (ps_seq s) (val acc j).
    Proof.
      intros f n acc H. apply sum_branch_spec in H; [|assumption]. destruct H as [L [V [_ B]]].
      rewrite repeat_length in L. split; [assumption|]. intros j Hj. rewrite V by assumption.
      assert (Z0 : val (repeat n_0 n) j = 0).
      { rewrite n_0_R. unfold val. clear. revert j. induction n as [|n IH]; intros [|j]; cbn [repeat nth]; auto. }
      rewrite Z0, Rplus_0_l.
      change l with (entries t nP nS). rewrite (weighted_legs t nP nS (ps_seq s) Hlen HP HS).
      assert (LE := leg_entry t nP nS (ps_seq s) Hlen HP HS).
      assert (G : forall q, incl q (ps_seq s) -> legs_total t f (lo + Z.of_nat j) q
                    (legsum t (fun b => val (f b) (Z.to_nat lo + j)) q)).
      { induction q as [|x q IH]; intros Hi; cbn [legsum]; [constructor|].
        destruct (LE x (Hi x (or_introl eq_refl))) as [b [k [ks [bP [bS [Hb [Hin Hk]]]]]]].
        assert (Hb' := Hb). unfold leg_branch in Hb'. apply py_index_iff in Hb'. rewrite Hb'.
        destruct (B _ _ _ _ Hin (lo + Z.of_nat j)%Z ltac:(lia)) as [BP BS].
        apply lt_cons with b; [assumption| |apply IH; intros y Hy; apply Hi; right; assumption].
        apply at_index_nonneg; [lia|]. replace (Z.to_nat (lo + Z.of_nat j)) with (Z.to_nat lo + j)%nat in * by lia.
        unfold val. apply nth_error_nth'. destruct (sg_isP x); destruct Hk as [-> Hk]; auto. }
      apply G. apply incl_refl.
    Qed.

    (** sums above a zone *)
    Lemma above_spec : forall f top k y, above_zone f top k l = Ok y -> legs_above t f top k (ps_seq s) y.
    Proof.
      intros f top k y H. unfold above_zone in H.
      set (F := fun b : tbranch R => if Rlt_dec (tb_top b) top then idxv (f b) k else 0).
      assert (G : forall q a0 a1,
        foldM (fun acc '((n, ns), (b, bs)) =>
             let! acc := if negb (n =? 0)%Z && n_ltb (tb_top b) top
                         then let! x := py_index (f b) k in Ok (n_add acc (n_mul (n_int n) x))
                         else Ok acc in
             if negb (ns =? 0)%Z && n_ltb (tb_top bs) top
             then let! x := py_index (f bs) k in Ok (n_add acc (n_mul (n_int ns) x))
             else Ok acc) q a0 = Ok a1 ->
        a1 = a0 + weighted F q /\
        forall n ns b bs, In ((n, ns), (b, bs)) q ->
          (n <> 0%Z -> tb_top b < top -> at_index (f b) k (idxv (f b) k)) /\
          (ns <> 0%Z -> tb_top bs < top -> at_index (f bs) k (idxv (f bs) k))).
      { induction q as [|[[n ns] [b bs]] q IH]; intros a0 a1 Hf; cbn [foldM] in Hf.
        - inversion Hf; subst. split; [cbn; lra|]. intros ? ? ? ? [].
        - inv_as Hf as a2 H2. inv_as H2 as a3 H3. destruct (IH _ _ Hf) as [-> Hin].
          assert (One : forall n b a a', (if negb (n =? 0)%Z && n_ltb (tb_top b) top
                         then let! x := py_index (f b) k in Ok (n_add a (n_mul (n_int n) x))
                         else Ok a) = Ok a' ->
             a' = a + IZR n * F b /\ (n <> 0%Z -> tb_top b < top -> at_index (f b) k (idxv (f b) k))).
          { clear. intros n b a a' H. destruct (Z.eqb_spec n 0) as [->|Hn]; cbn [negb andb] in H.
            - inversion H; subst. split; [lra|]. intros F0; contradiction.
            - unfold F. destruct (n_ltb (tb_top b) top) eqn:E.
              + apply Rltb_lt in E. inv_as H as x Hx. inversion H; subst. apply py_index_iff in Hx.
                rewrite (idxv_at _ _ _ Hx). rewrite ?n_int_R. cbn [n_add n_mul Num_R].
                destruct (Rlt_dec (tb_top b) top); [|contradiction]. split; [rewrite Rlit_0; reflexivity|auto].
              + apply Rltb_ge in E. inversion H; subst. destruct (Rlt_dec (tb_top b) top); [lra|].
                split; [lra|]. intros _ E'. lra. }
          destruct (One _ _ _ _ H3) as [-> B1]. destruct (One _ _ _ _ H2) as [-> B2].
          split; [cbn [weighted]; lra|]. intros n' ns' b' bs' [E|Hi]; [inversion E; subst; auto|]. eapply Hin; eassumption. }
      destruct (G _ _ _ H) as [-> B]. clear G. rewrite n_0_R, Rplus_0_l.
      change l with (entries t nP nS) in *. rewrite (weighted_legs t nP nS (ps_seq s) Hlen HP HS).
      assert (LE := leg_entry t nP nS (ps_seq s) Hlen HP HS).
      assert (G : forall q, incl q (ps_seq s) -> legs_above t f top k q (legsum t F q)).
      { induction q as [|x q IH]; intros Hi; cbn [legsum]; [constructor|].
        destruct (LE x (Hi x (or_introl eq_refl))) as [b [n [ns [bP [bS [Hb [Hin Hk]]]]]]].
        assert (Hb' := Hb). unfold leg_branch in Hb'. apply py_index_iff in Hb'. rewrite Hb'.
        destruct (B _ _ _ _ Hin) as [BP BS]. assert (Hq : legs_above t f top k q (legsum t F q)).
        { apply IH. intros y' Hy. apply Hi. right. assumption. }
        unfold F at 1. destruct (Rlt_dec (tb_top b) top) as [Lt|Nl].
        - apply la_cons with b; try assumption. destruct (sg_isP x); destruct Hk as [-> Hk]; auto.
        - rewrite Rplus_0_l. apply la_skip with b; [assumption|lra|assumption]. }
      apply G. apply incl_refl.
    Qed.
  End Sums.
End Parts.

Lemma slice_spec : forall {A} (l : list A) lo hi, (0 <= lo <= hi)%Z -> (hi <= Z.of_nat (List.length l))%Z ->
  py_slice l lo hi = firstn (Z.to_nat (hi - lo)) (skipn (Z.to_nat lo) l).
Proof.
  intros A l lo hi H Hh. unfold py_slice, slice_bound. cbv zeta.
  destruct (Z.ltb_spec lo 0); [lia|]. destruct (Z.ltb_spec hi 0); [lia|].
  rewrite (Z.min_r _ (Z.max 0 lo)), (Z.min_r _ (Z.max 0 hi)) by lia. rewrite !Z.max_r by lia. reflexivity.
Qed.
Lemma nth_firstn : forall {A} (l : list A) n k, nth_error (firstn n l) k = if (k <? n)%nat then nth_error l k else None.
Proof.
  induction l as [|a l IH]; intros n k; [rewrite firstn_nil; destruct k, (Nat.ltb _ n); reflexivity|].
  destruct n as [|n]; [destruct k; reflexivity|]. destruct k as [|k]; [reflexivity|]. cbn [firstn nth_error].
  rewrite IH. reflexivity.
Qed.
Lemma nth_skipn : forall {A} (l : list A) n k, nth_error (skipn n l) k = nth_error l (n + k).
Proof.
  induction l as [|a l IH]; intros [|n] k; cbn [skipn Nat.add nth_error]; try reflexivity; [destruct k; reflexivity|]. apply IH.
Qed.

Section Base.
  Variables (t : tmodel R) (s : pstate R) (lo hi : Z).
  Hypothesis Hlo : (0 <= lo <= hi)%Z.
  Hypothesis Hhi : (hi < Z.of_nat (List.length (tm_rayParams t)))%Z.
  Let rps := phase_rayParams t s lo hi.

  Lemma rps_range : (lo < hi)%Z -> Z.of_nat (List.length rps) = (hi - lo + 1)%Z /\
    forall k r, nth_error rps k = Some r -> at_index (tm_rayParams t) (lo + Z.of_nat k) r.
  Proof.
    intros Hlt. unfold rps, phase_rayParams.
    destruct (Z.eqb_spec lo 0) as [E0|E0], (Z.eqb_spec hi (Z.of_nat (List.length (tm_rayParams t)) - 1)) as [E1|E1]; cbn [andb].
    { split; [lia|]. intros k r Hk. rewrite E0, Z.add_0_l. apply at_index_nat. assumption. }
    all: destruct (Z.eqb_spec lo hi) as [E2|E2]; [lia|]; rewrite slice_spec by lia; split;
      [rewrite firstn_length, skipn_length; lia|];
      intros k r Hk; rewrite nth_firstn in Hk; destruct (k <? _)%nat; [|discriminate]; rewrite nth_skipn in Hk;
      apply at_index_nonneg; [lia|]; replace (Z.to_nat (lo + Z.of_nat k)) with (Z.to_nat lo + k)%nat by lia; assumption.
  Qed.

  (** the part of the lists made of branch sums *)
  Variables (dist0 time0 dist time : list R).
  Hypothesis Ld : List.length dist0 = List.length rps.
  Hypothesis Lt : List.length time0 = List.length rps.
  Hypothesis Sd : forall j, (Z.of_nat j <= hi - lo)%Z -> legs_total t tb_dist (lo + Z.of_nat j) (ps_seq s) (val dist0 j).
  Hypothesis St : forall j, (Z.of_nat j <= hi - lo)%Z -> legs_total t tb_time (lo + Z.of_nat j) (ps_seq s) (val time0 j).

  Lemma base_sampled : (lo < hi)%Z -> sampled_curve t (ps_seq s) lo hi (combine (combine rps dist0) time0).
  Proof.
    intros Hlt. destruct (rps_range Hlt) as [L R]. split.
    - unfold point. rewrite !combine_length. lia.
    - unfold point. intros k p d tm Hk. apply nth_error_combine in Hk. destruct Hk as [Hk Htm]. apply nth_error_combine in Hk.
      destruct Hk as [Hp Hd]. split; [apply R; assumption|].
      assert (k < List.length rps)%nat by (apply nth_error_Some; rewrite Hp; discriminate).
      apply val_at in Hd, Htm. subst. split; [apply Sd|apply St]; lia.
  Qed.

  Lemma special_ordinary : forall name, ~ diffracted name -> ~ head_wave name ->
    sum_special t name s lo hi dist0 time0 = Ok (Some (dist, time)) ->
    (List.length dist = List.length rps /\ List.length time = List.length rps) /\
    (((lo < hi)%Z /\ sampled_curve t (ps_seq s) lo hi (combine (combine rps dist) time)) \/
     (lo = hi /\ single_curve t (ps_seq s) lo (ps_min s) (combine (combine rps dist) time))).
  Proof.
    intros name Nd Nh H. unfold sum_special in H.
    assert (E1 : str_in "Sdiff" name || str_in "Pdiff" name = false).
    { apply orb_false_iff. split; apply not_true_is_false; intros E; apply str_in_iff in E; apply Nd; [left|right]; assumption. }
    assert (E2 : str_in "Pn" name || str_in "Sn" name = false).
    { apply orb_false_iff. split; apply not_true_is_false; intros E; apply str_in_iff in E; apply Nh; [left|right]; assumption. }
    rewrite E1, E2 in H. destruct (Z.eqb_spec lo hi) as [E|E].
    - inv_as H as d0 Hd0. inv_as H as d1 Hd1. inv_as H as t0 Ht0. inv_as H as t1 Ht1. inversion H; subst d1 t1. clear H.
      apply setitem_Ok in Hd1, Ht1. destruct Hd1 as [-> Pd], Ht1 as [-> Pt].
      change (pos (List.length dist0) 1) with 1%nat in *. change (pos (List.length time0) 1) with 1%nat in *.
      apply py_index_iff in Hd0, Ht0. apply (at_index_nat _ 0) in Hd0, Ht0.
      rewrite !list_set_length. split; [split; assumption|]. right. split; [assumption|].
      assert (Er : rps = [ps_min s; ps_min s]).
      { unfold rps, phase_rayParams in *. destruct (Z.eqb_spec lo 0) as [F0|F0], (Z.eqb_spec hi (Z.of_nat (List.length (tm_rayParams t)) - 1)) as [F1|F1]; cbn [andb] in *;
          try (destruct (Z.eqb_spec lo hi); [reflexivity|contradiction]).
        exfalso. lia. }
      rewrite Er in *. cbn [List.length] in Ld, Lt.
      destruct dist0 as [|a [|b [|? ?]]]; cbn [List.length] in Ld; try lia.
      destruct time0 as [|u [|v [|? ?]]]; cbn [List.length] in Lt; try lia.
      cbn in Hd0, Ht0. inversion Hd0; inversion Ht0; subst. exists d0, t0. split; [reflexivity|].
      specialize (Sd 0%nat ltac:(lia)). specialize (St 0%nat ltac:(lia)). cbn in Sd, St. rewrite Z.add_0_r in Sd, St. split; assumption.
    - injection H as Ed Et. rewrite <- Ed, <- Et. split; [split; assumption|]. left. split; [lia|]. apply base_sampled. lia.
  Qed.
End Base.

(** ** shadow zones *)
Lemma successive_iff : forall (l : list seg) z a b, nth_error l (List.length l - 1) = Some z ->
  (In (a, b) (combine (z :: l) l) <-> successive l a b).
Proof.
  intros l z a b Hz. split.
  - intros H. apply In_nth_error in H. destruct H as [k Hk]. apply nth_error_combine in Hk. destruct Hk as [Ha Hb].
    destruct k as [|k].
    + cbn in Ha. inversion Ha; subst. right. destruct l as [|x l]; [discriminate|]. cbn in Hb. inversion Hb; subst.
      apply nth_error_split in Hz. destruct Hz as [l1 [l2 [E L]]]. exists l1, l. split; [|reflexivity].
      destruct l2 as [|y l2]; [assumption|]. exfalso.
      assert (F : List.length (b :: l) = List.length (l1 ++ a :: y :: l2)) by congruence.
      rewrite app_length in F. cbn [List.length] in *. lia.
    + cbn [nth_error] in Ha. apply nth_error_split in Ha. destruct Ha as [l1 [l2 [E L]]]. subst l.
      left. exists l1. rewrite nth_error_app2 in Hb by lia. replace (S k - List.length l1)%nat with 1%nat in Hb by lia.
      destruct l2 as [|y l2]; [discriminate|]. cbn in Hb. inversion Hb; subst. exists l2. reflexivity.
  - intros [[l1 [l2 E]]|[l1 [l2 [E1 E2]]]].
    + subst l. apply (combine_In_nth _ _ (S (List.length l1))).
      * cbn [nth_error]. rewrite nth_error_app2, Nat.sub_diag by lia. reflexivity.
      * rewrite nth_error_app2 by lia. replace (S (List.length l1) - List.length l1)%nat with 1%nat by lia. reflexivity.
    + apply (combine_In_nth _ _ 0%nat).
      * cbn [nth_error]. rewrite E1 in Hz. rewrite app_length in Hz. cbn [List.length] in Hz.
        rewrite nth_error_app2 in Hz by lia. replace (List.length l1 + 1 - 1 - List.length l1)%nat with 0%nat in Hz by lia.
        cbn in Hz. congruence.
      * rewrite E2. reflexivity.
Qed.
Lemma crosses_iff : forall l n isP, crosses l n isP = true <-> goes_down_into l n isP.
Proof.
  intros l n isP. unfold crosses, goes_down_into.
  destruct (rev l) as [|z r] eqn:Er.
  - assert (l = []) by (rewrite <- (rev_involutive l), Er; reflexivity). subst.
    split; [discriminate|]. intros [a [b [[[l1 [l2 E]]|[l1 [l2 [_ E]]]] _]]]; [destruct l1; discriminate|discriminate].
  - assert (El : l = rev r ++ [z]) by (rewrite <- (rev_involutive l), Er; reflexivity).
    assert (Hz : nth_error l (List.length l - 1) = Some z).
    { rewrite El, app_length. cbn [List.length]. rewrite nth_error_app2 by lia.
      replace (List.length (rev r) + 1 - 1 - List.length (rev r))%nat with 0%nat by lia. reflexivity. }
    rewrite existsb_exists. split.
    + intros [[a b] [Hin H]]. apply (successive_iff l z) in Hin; [|assumption].
      rewrite !andb_true_iff in H. destruct H as [[[H1 H2] H3] [[H4 H5] H6]].
      apply Z.eqb_eq in H1, H4. apply eqb_prop in H2, H5. exists a, b. auto 10.
    + intros [a [b [Hs [H1 [H2 [H3 [H4 [H5 H6]]]]]]]]. exists (a, b). split; [apply (successive_iff l z); assumption|].
      rewrite !andb_true_iff. rewrite H1, H2, H3, H4, H5, H6, !Z.eqb_refl, !eqb_reflx. auto.
Qed.
Lemma list_index_spec : forall (x : R) l i k, list_index x i l = Ok k ->
  exists j, k = (i + Z.of_nat j)%Z /\ nth_error l j = Some x /\ forall q y, (q < j)%nat -> nth_error l q = Some y -> y <> x.
Proof.
  intros x. induction l as [|a l IH]; intros i k H; cbn [list_index] in H; [discriminate|].
  destruct (n_eqb a x) eqn:E.
  - apply Reqb_eq in E. subst a. inversion H; subst. exists 0%nat. split; [lia|]. split; [reflexivity|]. intros; lia.
  - apply Reqb_ne in E. apply IH in H. destruct H as [j [-> [Hj Hq]]]. exists (S j). split; [lia|]. split; [assumption|].
    intros [|q] y Hlt Hy; [cbn in Hy; inversion Hy; subst; assumption|]. apply (Hq q y); [lia|assumption].
Qed.

Definition sh_curve (st : @shstate R) : list point := combine (combine (sh_rp st) (sh_dist st)) (sh_time st).
Definition sh_even (st : @shstate R) : Prop :=
  List.length (sh_dist st) = List.length (sh_rp st) /\ List.length (sh_time st) = List.length (sh_rp st).

Lemma combine_app : forall {A B} (a1 a2 : list A) (b1 b2 : list B), List.length a1 = List.length b1 ->
  combine (a1 ++ a2) (b1 ++ b2) = combine a1 b1 ++ combine a2 b2.
Proof.
  induction a1 as [|x a1 IH]; intros a2 [|y b1] b2 H; cbn [List.length] in H; try lia; [reflexivity|].
  cbn [app combine]. rewrite IH by lia. reflexivity.
Qed.

Section Shadow.
  Variables (t : tmodel R) (s : pstate R) (nP nS : list Z).
  Hypothesis Hlen : List.length (tm_S t) = List.length (tm_P t).
  Hypothesis HP : count_branches (List.length (tm_P t)) true (ps_seq s) = Ok nP.
  Hypothesis HS : count_branches (List.length (tm_P t)) false (ps_seq s) = Ok nS.
  Let l := combine (combine nP nS) (combine (tm_P t) (tm_S t)).
  Variable lo : Z.

  Lemma shadow_step_spec : forall isP st z st', sh_even st -> shadow_step t s lo isP l st z = Ok st' ->
    sh_even st' /\ shadow t (ps_seq s) lo (ps_min s) (ps_max s) isP z (sh_curve st) (sh_off st) (sh_curve st') (sh_off st').
  Proof.
    intros isP st z st' [Ed Et] H. unfold shadow_step in H.
    destruct (n_ltb (dr_rayParam z) (ps_max s)) eqn:E1; cbn [andb] in H.
    2:{ inversion H; subst. split; [split; assumption|]. left. split; [reflexivity|]. split; [reflexivity|].
        intros [[_ F] _]. apply Rltb_lt in F. congruence. }
    destruct (n_ltb (ps_min s) (dr_rayParam z)) eqn:E2.
    2:{ inversion H; subst. split; [split; assumption|]. left. split; [reflexivity|]. split; [reflexivity|].
        intros [[F _] _]. apply Rltb_lt in F. congruence. }
    apply Rltb_lt in E1, E2. inv_as H as n Hn. destruct (crosses (ps_seq s) n isP) eqn:Ec.
    2:{ inversion H; subst. split; [split; assumption|]. left. split; [reflexivity|]. split; [reflexivity|].
        intros [_ [n' [Hn' G]]]. assert (n' = n) by congruence. subst. apply crosses_iff in G. congruence. }
    apply crosses_iff in Ec.
    inv_as H as k Hk. inv_as H as d' Hd. inv_as H as tm' Htm. inversion H; subst st'. clear H.
    apply list_index_spec in Hk. destruct Hk as [j [Ek [Hj Before]]]. rewrite Z.add_0_l in Ek. subst k.
    assert (Lj : (j < List.length (sh_rp st))%nat) by (apply nth_error_Some; rewrite Hj; discriminate).
    assert (Ins : forall (q : list R) x, List.length q = List.length (sh_rp st) ->
      py_slice q 0 (Z.of_nat j) ++ x :: py_slice q (Z.of_nat j) (Z.of_nat (List.length q)) = firstn j q ++ x :: skipn j q).
    { intros q x Lq. rewrite !slice_spec by lia. rewrite Z.sub_0_r, Nat2Z.id. cbn [Z.to_nat skipn].
      replace (Z.to_nat (Z.of_nat (List.length q) - Z.of_nat j)) with (List.length (skipn j q)) by (rewrite skipn_length; lia).
      rewrite firstn_all. reflexivity. }
    cbn [sh_dist sh_time sh_rp sh_off sh_curve].
    destruct (nth_error (sh_dist st) j) as [d|] eqn:Hdj; [|apply nth_error_None in Hdj; lia].
    destruct (nth_error (sh_time st) j) as [tm|] eqn:Htj; [|apply nth_error_None in Htj; lia].
    apply (above_spec t s nP nS Hlen HP HS) in Hd, Htm.
    assert (Cut : forall q (x : R), nth_error q j = Some x -> skipn j q = x :: skipn (S j) q).
    { clear. induction j as [|j IH]; intros [|a q] x H; try discriminate; [inversion H; reflexivity|]. cbn [skipn]. apply IH. exact H. }
    split.
    { split; cbn [sh_dist sh_time sh_rp]; rewrite !Ins by (assumption || reflexivity);
        rewrite !app_length; cbn [List.length]; rewrite !firstn_length, !skipn_length; lia. }
    right. split; [split; assumption|]. split; [exists n; split; assumption|].
    exists (combine (combine (firstn j (sh_rp st)) (firstn j (sh_dist st))) (firstn j (sh_time st))), d, tm,
      (combine (combine (skipn (S j) (sh_rp st)) (skipn (S j) (sh_dist st))) (skipn (S j) (sh_time st))), d', tm'.
    assert (L1 : List.length (combine (combine (firstn j (sh_rp st)) (firstn j (sh_dist st))) (firstn j (sh_time st))) = j).
    { rewrite !combine_length, !firstn_length. lia. }
    unfold point in *. rewrite L1. split; [|split; [|split; [|split; [assumption|split; [assumption|reflexivity]]]]].
    - assert (C : sh_curve st = combine (combine (firstn j (sh_rp st) ++ skipn j (sh_rp st)) (firstn j (sh_dist st) ++ skipn j (sh_dist st)))
                    (firstn j (sh_time st) ++ skipn j (sh_time st))) by (rewrite !firstn_skipn; reflexivity).
      rewrite C.
      rewrite (combine_app (firstn j (sh_rp st))) by (rewrite !firstn_length; lia).
      rewrite combine_app by (rewrite combine_length, !firstn_length; lia).
      rewrite (Cut (sh_rp st) _ Hj), (Cut (sh_dist st) _ Hdj), (Cut (sh_time st) _ Htj). reflexivity.
    - intros p e u Hin. apply In_nth_error in Hin. destruct Hin as [q Hq]. apply nth_error_combine in Hq. destruct Hq as [Hq _].
      apply nth_error_combine in Hq. destruct Hq as [Hq _]. rewrite nth_firstn in Hq.
      destruct (Nat.ltb_spec q j) as [Lq|Lq]; [|discriminate]. eapply Before; eassumption.
    - rewrite !Ins by (assumption || reflexivity).
      unfold sh_curve. cbn [sh_rp sh_dist sh_time].
      rewrite (combine_app (firstn j (sh_rp st))) by (rewrite !firstn_length; lia).
      rewrite combine_app by (rewrite combine_length, !firstn_length; lia).
      rewrite (Cut (sh_rp st) _ Hj), (Cut (sh_dist st) _ Hdj), (Cut (sh_time st) _ Htj). reflexivity.
  Qed.

  Lemma shadows_spec : forall isP zs st st', sh_even st -> foldM (shadow_step t s lo isP l) zs st = Ok st' ->
    sh_even st' /\ shadows t (ps_seq s) lo (ps_min s) (ps_max s) isP zs (sh_curve st) (sh_off st) (sh_curve st') (sh_off st').
  Proof.
    intros isP. induction zs as [|z zs IH]; intros st st' He H; cbn [foldM] in H.
    - inversion H; subst. split; [assumption|constructor].
    - inv_as H as s1 H1. destruct (shadow_step_spec _ _ _ _ He H1) as [He1 S1]. destruct (IH _ _ He1 H) as [He2 S2].
      split; [assumption|]. econstructor; eassumption.
  Qed.
End Shadow.

(** ** which samples the shadow zone points use *)
Section Offsets.
  Variables (t : tmodel R) (seq : list seg) (lo : Z) (pmin pmax : R).
  Definition falling (c : list point) : Prop :=
    forall i j p d tm p' d' tm', (i < j)%nat -> nth_error c i = Some (p, d, tm) -> nth_error c j = Some (p', d', tm') -> p' <= p.
  Definition offset_ok (m : Z) (bound : R) (c : list point) : Prop :=
    forall l1 p d tm l2, c = l1 ++ (p, d, tm) :: l2 -> (forall p' e u, In (p', e, u) l1 -> p' <> p) -> p < bound ->
    at_index (tm_rayParams t) (lo + Z.of_nat (List.length l1) - m) p.

  Lemma shadow_pass : forall isP z c off c' off' m bound,
    shadow t seq lo pmin pmax isP z c off c' off' -> falling c -> offset_ok m bound c -> dr_rayParam z < bound ->
    falling c' /\ offset_ok (m + off' - off) (dr_rayParam z) c' /\
    forall x, In x c' -> In x c \/ inserted t seq pmin pmax [z] (m - off) x.
  Proof.
    intros isP z c off c' off' m bound [[-> [-> _]]|H] Fa Ok Hb.
    - split; [assumption|]. split; [|auto]. replace (m + off - off)%Z with m by lia.
      intros l1 p d tm l2 E Hn Hp. eapply Ok; try eassumption. lra.
    - destruct H as [Hr [_ [l1 [d [tm [l2 [d' [tm' [Ec [Hn [Ec' [Hd [Htm ->]]]]]]]]]]]]].
      split; [|split].
      + intros i j p e u p' e' u' Hij Hi Hj.
        assert (Back : forall k x, nth_error c' k = Some x -> exists k', nth_error c k' = Some x \/
                  (x = (dr_rayParam z, d', tm') /\ k = List.length l1 /\ k' = k)).
        { intros k x Hk. subst c c'. destruct (lt_eq_lt_dec k (List.length l1)) as [[L|L]|L].
          - exists k. left. rewrite nth_error_app1 in * by assumption. assumption.
          - subst k. exists (List.length l1). right. rewrite nth_error_app2, Nat.sub_diag in Hk by lia. inversion Hk. auto.
          - exists (k - 1)%nat. left. rewrite nth_error_app2 in * by lia.
            replace (k - List.length l1)%nat with (S (k - 1 - List.length l1)) in Hk by lia. exact Hk. }
        (* compare by position *)
        subst c c'.
        assert (At : forall k p e u, nth_error (l1 ++ (dr_rayParam z, d', tm') :: (dr_rayParam z, d, tm) :: l2) k = Some (p, e, u) ->
                  exists e' u', nth_error (l1 ++ (dr_rayParam z, d, tm) :: l2) (if (k <=? List.length l1)%nat then k else k - 1) = Some (p, e', u')).
        { clear. intros k p e u H. destruct (Nat.leb_spec k (List.length l1)) as [L|L].
          - destruct (Nat.eq_dec k (List.length l1)) as [->|Ne].
            + rewrite nth_error_app2, Nat.sub_diag in * by lia. cbn in *. inversion H; subst. eauto.
            + rewrite nth_error_app1 in * by lia. eauto.
          - rewrite nth_error_app2 in * by lia.
            replace (k - List.length l1)%nat with (S (k - 1 - List.length l1)) in H by lia. cbn [nth_error] in H. eauto. }
        destruct (At _ _ _ _ Hi) as [e1 [u1 Hi']]. destruct (At _ _ _ _ Hj) as [e2 [u2 Hj']].
        destruct (Nat.leb_spec i (List.length l1)), (Nat.leb_spec j (List.length l1)); try lia.
        * eapply (Fa i j); eassumption.
        * destruct (Nat.eq_dec i (j - 1)) as [Eij|Nij]; [|eapply (Fa i (j - 1)%nat); try eassumption; lia].
          rewrite Eij in Hi'. rewrite Hi' in Hj'. inversion Hj'. subst. lra.
        * eapply (Fa (i - 1)%nat (j - 1)%nat); try eassumption. lia.
      + intros k1 p e u k2 E Hk Hp. subst c'.
        (* the position is beyond the two points of the zone *)
        assert (Lk : (List.length l1 + 2 <= List.length k1)%nat).
        { destruct (le_lt_dec (List.length l1 + 2) (List.length k1)) as [L|L]; [assumption|]. exfalso.
          assert (N1 : nth_error (l1 ++ (dr_rayParam z, d', tm') :: (dr_rayParam z, d, tm) :: l2) (List.length k1) = Some (p, e, u)).
          { rewrite E, nth_error_app2, Nat.sub_diag by lia. reflexivity. }
          destruct (lt_eq_lt_dec (List.length k1) (List.length l1)) as [[L'|L']|L'].
          - rewrite nth_error_app1 in N1 by assumption.
            assert (dr_rayParam z <= p); [|lra].
            eapply (Fa (List.length k1) (List.length l1)); [assumption| |].
            + rewrite Ec, nth_error_app1 by assumption. exact N1.
            + rewrite Ec, nth_error_app2, Nat.sub_diag by lia. reflexivity.
          - rewrite L', nth_error_app2, Nat.sub_diag in N1 by lia. cbn in N1. inversion N1; subst. lra.
          - rewrite nth_error_app2 in N1 by lia. replace (List.length k1 - List.length l1)%nat with 1%nat in N1 by lia.
            cbn in N1. inversion N1; subst. lra. }
        assert (Split : exists r1, k1 = l1 ++ (dr_rayParam z, d', tm') :: (dr_rayParam z, d, tm) :: r1 /\ l2 = r1 ++ (p, e, u) :: k2).
        { clear - E Lk. revert k1 E Lk. induction l1 as [|a l1 IH]; intros k1 E Lk; cbn [app List.length] in *.
          - destruct k1 as [|x [|y k1]]; cbn [List.length app] in *; try lia. inversion E; subst. eauto.
          - destruct k1 as [|x k1]; cbn [List.length app] in *; [lia|]. injection E as Ea E. subst.
            destruct (IH k1 E ltac:(lia)) as [r1 [-> ->]]. eauto. }
        destruct Split as [r1 [-> El2]]. rewrite El2 in Ec.
        replace (lo + Z.of_nat (List.length (l1 ++ (dr_rayParam z, d', tm') :: (dr_rayParam z, d, tm) :: r1)) - (m + (off + 1) - off))%Z
          with (lo + Z.of_nat (List.length (l1 ++ (dr_rayParam z, d, tm) :: r1)) - m)%Z
          by (rewrite !app_length; cbn [List.length]; lia).
        apply (Ok _ p e u k2).
        * rewrite Ec, <- app_assoc. reflexivity.
        * intros p' e' u' Hin. apply (Hk p' e' u'). apply in_app_iff in Hin. apply in_app_iff. cbn [In] in *. tauto.
        * lra.
      + intros x Hx. subst c c'. apply in_app_iff in Hx. destruct Hx as [Hx|[Hx|Hx]].
        * left. apply in_app_iff. auto.
        * right. assert (I := Ok l1 (dr_rayParam z) d tm l2 eq_refl Hn Hb).
          exists z, (lo + Z.of_nat (List.length l1) - m)%Z, d', tm'.
          replace (lo + Z.of_nat (List.length l1) - m + (m - off))%Z with (lo + Z.of_nat (List.length l1) - off)%Z by lia.
          split; [left; reflexivity|]. auto 10.
        * left. apply in_app_iff. right. exact Hx.
  Qed.

  Lemma shadows_pass : forall isP zs c off c' off' m bound,
    shadows t seq lo pmin pmax isP zs c off c' off' -> falling c -> offset_ok m bound c ->
    (forall z, In z zs -> dr_rayParam z < bound) -> zones_fall zs ->
    falling c' /\
    (exists bound', offset_ok (m + off' - off) bound' c' /\ bound' <= bound /\
       (bound' = bound \/ exists z, In z zs /\ dr_rayParam z = bound')) /\
    forall x, In x c' -> In x c \/ inserted t seq pmin pmax zs (m - off) x.
  Proof.
    intros isP zs. induction zs as [|z zs IH]; intros c off c' off' m bound H Fa Ok Hb Hz; inversion H; subst.
    - split; [assumption|]. split; [exists bound; replace (m + off' - off')%Z with m by lia; split; [assumption|]; split; [lra|auto]|auto].
    - match goal with A : shadow _ _ _ _ _ _ _ _ _ ?c1 ?o1, B : shadows _ _ _ _ _ _ _ _ _ _ _ |- _ =>
        destruct (shadow_pass _ _ _ _ _ _ _ _ A Fa Ok (Hb z (or_introl eq_refl))) as [F1 [O1 I1]];
        destruct (IH _ _ _ _ _ _ B F1 O1) as [F2 [[b' [O2 [Le Eb]]] I2]] end.
      + intros z' Hz'. apply In_nth_error in Hz'. destruct Hz' as [k Hk]. apply (Hz 0%nat (S k) z z'); [lia|reflexivity|exact Hk].
      + intros i j y y' Hij Hi Hj. apply (Hz (S i) (S j)); [lia|assumption|assumption].
      + split; [assumption|]. split.
        * exists b'. replace (m + off' - off)%Z with (m + off1 - off + off' - off1)%Z by lia. split; [assumption|].
          specialize (Hb z (or_introl eq_refl)). split; [lra|]. right.
          destruct Eb as [->|[z' [Hin <-]]]; [exists z; split; [left; reflexivity|reflexivity]|exists z'; split; [right; assumption|reflexivity]].
        * intros x Hx. destruct (I2 x Hx) as [Hx1|Hx1].
          -- destruct (I1 x Hx1) as [|[z' [i [d [tm [[<-|[]] R1]]]]]]; [auto|]. right. exists z, i, d, tm. split; [left; reflexivity|exact R1].
          -- right. destruct Hx1 as [z' [i [d [tm [Hin R1]]]]]. exists z', i, d, tm. split; [right; assumption|].
             replace (m + off1 - off - off1)%Z with (m - off)%Z in R1 by lia. exact R1.
  Qed.
End Offsets.

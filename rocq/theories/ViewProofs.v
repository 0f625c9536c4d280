(** Proofs about drawn paths and printed pierce points. *)
From Coq Require Import ZArith NArith Bool List String Ascii Reals Lra Lia Sorting.Sorted.
From Verif Require Import Base Num PyStr VelocityModel SlownessLayer SlownessModel TauModel Legs SeismicPhase
  Pierce TauPTime Printing Views VelSpec TimeSpec PierceSpec PrintSpec PrintProofs ViewSpec.
Import ListNotations.
Local Open Scope list_scope.
Local Open Scope R_scope.

(** -- lines --------------------------------------------------------------------------- *)
Definition way_of (long : bool) (x : R) : R := if long then - x else x.
Definition line_of (r : R) (long : bool) (q : dot) : string :=
  (rjust 4 (fixed 2 (way_of long (dot_dist q))) ++ "  " ++ rjust 4 (fixed 1 (r - dot_depth q)))%string.

Lemma other_way_R : forall long (x : R), other_way long x = way_of long x.
Proof.
  intros [|] x; unfold other_way, way_of; [|reflexivity]. rewrite n_0_R, n_int_R. cbn [andb negb n_eqb n_mul Num_R].
  destruct (Reqb_spec x 0) as [E|E]; cbn [negb]; [rewrite E|]; lra.
Qed.
Lemma deg_R : forall x : timedist R, td_distDeg x = Ok (degrees_of x).
Proof.
  intros x. unfold td_distDeg. cbn [m_pi Libm_R]. pose proof PI_RGT_0. rewrite py_div_R by lra. fold (@n_int R _ 180). rewrite n_int_R.
  cbn [n_mul Num_R]. unfold degrees_of. f_equal. field. lra.
Qed.
Lemma shows_len : forall dp x s, shows dp x s -> (dp + 2 <= String.length s)%nat.
Proof.
  intros dp x s [neg [_ [ip [fp [-> [[Hip _] [_ [Hl _]]]]]]]]. rewrite !str_length_app, Hl. cbn [String.length].
  destruct ip; [congruence|]. cbn [String.length]. lia.
Qed.
Lemma dot_line_of : forall r long q, dot_line r (long = true) q (line_of r long q).
Proof.
  intros r long q. exists (way_of long (dot_dist q)), (fixed 2 (way_of long (dot_dist q))), (fixed 1 (r - dot_depth q)).
  split; [intros ->; reflexivity|]. split; [intros H; destruct long; [congruence|reflexivity]|].
  split; [apply fixed_R|]. split; [apply fixed_R|]. unfold line_of.
  pose proof (shows_len _ _ _ (fixed_R 2 (way_of long (dot_dist q)))) as L2. set (wd := fixed 2 (way_of long (dot_dist q))) in *.
  set (wr := fixed 1 (r - dot_depth q)) in *.
  assert (W1 : one_word wd) by apply fixed_word. assert (W2 : one_word wr) by apply fixed_word.
  replace (rjust 4 wd) with wd by (unfold rjust; replace (4 - String.length wd)%nat with 0%nat by lia; reflexivity).
  split; [|split].
  - apply (word_blank wd (" " ++ rjust 4 wr)%string); [exact W1|]. apply (spaces_words 1). apply spaces_words. destruct W2. constructor; assumption.
  - exists ""%string, ("  " ++ rjust 4 wr)%string. split; reflexivity.
  - exists (wd ++ "  " ++ spaces (4 - String.length wr))%string, ""%string. unfold rjust. split.
    + rewrite !str_app_assoc, str_app_nil_r. reflexivity.
    + rewrite !str_length_app, spaces_len. cbn [String.length]. lia.
Qed.

Lemma ob_ok : forall {A B} (a : A) (k : A -> out B), obind (quiet (Ok a)) k = k a.
Proof. intros A B a k. unfold obind, quiet. cbn [fst snd app]. destruct (k a); reflexivity. Qed.
Lemma ob_said : forall {A B} (l : list string) (a : A) (k : A -> out B), obind (l, Ok a) k = (l ++ fst (k a), snd (k a)).
Proof. reflexivity. Qed.
Lemma ob_say : forall {B} s (k : unit -> out B), obind (say s) k = (s :: fst (k tt), snd (k tt)).
Proof. reflexivity. Qed.

(** -- points between two given points --------------------------------------------------- *)
Section Between.
  Variables (r tmax : R) (long : bool) (x y : timedist R) (n : nat).
  Hypothesis Hn : (1 <= n)%nat.
  Hypothesis Ht : td_time x <= td_time y.

  Lemma between_spec : forall m k, (k + m = n)%nat -> (1 <= k)%nat ->
    exists here beyond,
      print_between r tmax long x y (Z.of_nat n) (map Z.of_nat (seq k m))
        (dot_time (dot_between x y (INR (k - 1) / INR n))) (way_of long (dot_dist (dot_between x y (INR (k - 1) / INR n))))
      = (map (line_of r long) here, Ok tt) /\
      map (fun k => dot_between x y (INR k / INR n)) (seq k m) = here ++ beyond /\
      (forall q, In q here -> dot_time q <= tmax) /\ (forall q, In q beyond -> tmax < dot_time q).
  Proof.
    assert (Pn : 0 < INR n) by (apply lt_0_INR; lia).
    induction m as [|m IH]; intros k Hk Hk1.
    - exists [], []. cbn [seq map print_between]. split; [reflexivity|]. split; [reflexivity|]. split; intros q [].
    - cbn [seq map print_between]. rewrite !n_int_R, <- !INR_IZR_INZ, !py_div_R, ob_ok by lra. cbv zeta.
      assert (Ek : INR (k - 1) = INR k - 1) by (rewrite minus_INR by lia; reflexivity).
      match goal with |- context [n_ltb tmax ?t] =>
        replace t with (dot_time (dot_between x y (INR k / INR n)))
          by (unfold dot_between, dot_time; cbn [fst snd n_add n_div n_sub Num_R]; rewrite Ek; field; lra) end.
      cbn [n_ltb Num_R]. destruct (Rltb_spec tmax (dot_time (dot_between x y (INR k / INR n)))) as [Hlate|Hin].
      + exists [], (map (fun k => dot_between x y (INR k / INR n)) (seq k (S m))). split; [reflexivity|]. split; [reflexivity|].
        split; [intros q []|]. intros q Hq. apply in_map_iff in Hq. destruct Hq as [j [<- Hj]]. apply in_seq in Hj.
        eapply Rlt_le_trans; [exact Hlate|]. unfold dot_between, dot_time. cbn [fst]. apply Rplus_le_compat_l.
        apply Rmult_le_compat_r; [lra|]. apply Rmult_le_compat_r; [left; apply Rinv_0_lt_compat; lra|]. apply le_INR. lia.
      + destruct (IH (S k) ltac:(lia) ltac:(lia)) as [here [beyond [E [Ec [Hh Hb]]]]].
        replace (S k - 1)%nat with k in E by lia.
        exists (dot_between x y (INR k / INR n) :: here), beyond. rewrite !deg_R, !ob_ok, py_div_R, ob_ok, ob_ok by lra. unfold printDistRadius. rewrite ob_say.
        match goal with |- context [print_between r tmax long x y (Z.of_nat n) _ _ ?d] =>
          replace d with (way_of long (dot_dist (dot_between x y (INR k / INR n)))) end.
        2:{ unfold dot_between, dot_dist, way_of. cbn [fst snd n_add n_sub n_div Num_R]. rewrite Ek. destruct long; field; lra. }
        rewrite E. cbn [fst snd map seq]. split.
        { f_equal. cbn [app]. f_equal. unfold line_of. do 4 f_equal.
          unfold dot_between, dot_depth. cbn [fst snd n_add n_sub n_mul n_div Num_R]. field. lra. }
        split; [cbn [app]; f_equal; exact Ec|]. split; [|exact Hb]. intros q [<-|Hq]; [lra|auto].
  Qed.
End Between.

Lemma zrange_nat : forall n, zrange 1 (Z.of_nat n) = map Z.of_nat (seq 1 (n - 1)).
Proof.
  intros n. unfold zrange. replace (Z.to_nat (Z.of_nat n - 1)) with (n - 1)%nat by lia.
  rewrite <- (seq_shift (n - 1) 0), map_map. apply map_ext. intros k. lia.
Qed.

Definition not_back (l : list (timedist R)) : Prop := never_back l /\ Forall (fun x => 0 <= td_dist x) l.
Lemma not_back_tail : forall x l, not_back (x :: l) -> not_back l.
Proof.
  intros x l [H F]. split; [|inversion F; assumption]. intros m n a b Hm Ha Hb. apply (H (S m) (S n)); [lia|exact Ha|exact Hb].
Qed.
Lemma not_back_next : forall x y l, not_back (x :: y :: l) -> td_time x <= td_time y /\ degrees_of x <= degrees_of y.
Proof.
  intros x y l [H _]. destruct (H 0%nat 1%nat x y ltac:(lia) eq_refl eq_refl) as [A B]. split; [exact A|].
  unfold degrees_of. apply Rmult_le_compat_r; [|exact B]. pose proof PI_RGT_0. apply Rle_mult_inv_pos; lra.
Qed.

Lemma ceil_pieces : forall inc p x y, 0 < inc -> p <> 0 -> inc < degrees_of y - degrees_of x ->
  exists n, n_ceil ((degrees_of y - degrees_of x) / inc) = Z.of_nat n /\ pieces inc p x y n.
Proof.
  intros inc p x y Hi Hp Hd. set (q := degrees_of y - degrees_of x) in *. cbn [n_ceil Num_R].
  destruct (Rceil_ub (q / inc)) as [A B].
  assert (Q : 1 < q / inc) by (apply (Rmult_lt_reg_r inc); [exact Hi|]; unfold Rdiv; rewrite Rmult_assoc, Rinv_l by lra; lra).
  assert (Eq : q / inc * inc = q) by (field; lra).
  assert (C : (1 < Rceil (q / inc))%Z) by (apply lt_IZR; lra).
  exists (Z.to_nat (Rceil (q / inc))). assert (E : Z.of_nat (Z.to_nat (Rceil (q / inc))) = Rceil (q / inc)) by lia.
  split; [symmetry; exact E|]. unfold pieces. fold q. split; [lia|]. split; [intros; contradiction|]. intros _.
  rewrite (INR_IZR_INZ (Z.to_nat _)), E. split.
  - rewrite <- Eq at 1. apply Rmult_le_compat_r; lra.
  - intros k Hk Hle. assert (q / inc <= INR k) by (apply (Rmult_le_reg_r inc); [exact Hi|]; rewrite Eq; exact Hle).
    rewrite INR_IZR_INZ in H. assert (D1 : IZR (Rceil (q / inc)) < IZR (Z.of_nat k + 1)) by (rewrite plus_IZR; lra).
    apply lt_IZR in D1. lia.
Qed.
Lemma one_piece : forall inc p x y, 0 < inc -> (p = 0 \/ degrees_of y - degrees_of x <= inc) -> pieces inc p x y 1.
Proof.
  intros inc p x y Hi H. split; [lia|]. split; [reflexivity|]. intros Hp. destruct H as [H|H]; [contradiction|].
  cbn [INR]. split; [lra|]. intros; lia.
Qed.

Section Path.
  Variables (r tmax inc p : R) (long : bool).
  Hypothesis Hinc : 0 < inc.
  Notation pp := (print_path r tmax inc p long).

  Lemma path_cut : forall pv x l, 0 <= td_dist x -> td_time pv < tmax -> tmax < td_time x ->
    exists u, dot_time (dot_between pv x u) = tmax /\ pp (Some pv) (x :: l) = ([line_of r long (dot_between pv x u)], Ok tt).
  Proof.
    intros pv x l Hd H1 H2. exists ((tmax - td_time pv) / (td_time x - td_time pv)).
    split; [unfold dot_between, dot_time; cbn [fst snd]; field; lra|].
    cbn [print_path]. rewrite n_0_R. cbn [n_ltb Num_R]. destruct (Rltb_spec (td_dist x) 0) as [F|_]; [lra|].
    rewrite deg_R, ob_ok. destruct (Rltb_spec tmax (td_time x)) as [_|F]; [|lra]. destruct (Rltb_spec (td_time pv) tmax) as [_|F]; [|lra].
    rewrite deg_R, ob_ok. cbv zeta. rewrite other_way_R. unfold printDistRadius, say, line_of, np_interp. do 3 f_equal.
    - do 3 f_equal. unfold dot_between, dot_dist. cbn [fst snd n_add n_mul n_sub n_div Num_R]. field. lra.
    - do 4 f_equal. unfold dot_between, dot_depth. cbn [fst snd n_add n_mul n_sub n_div Num_R]. field. lra.
  Qed.

  Lemma path_drawn : forall l prev, not_back l -> (forall pv x, prev = Some pv -> hd_error l = Some x -> td_time x <= tmax) ->
    exists dots, drawn tmax inc p l dots /\ pp prev l = (map (line_of r long) dots, Ok tt).
  Proof.
    induction l as [|x l IH]; intros prev Hl Hp.
    - exists []. split; [constructor|reflexivity].
    - assert (Hx : 0 <= td_dist x) by (destruct Hl as [_ F]; inversion F; assumption).
      destruct (Rlt_dec tmax (td_time x)) as [Hlate|Hin].
      { exists []. split; [constructor; exact Hlate|]. destruct prev as [pv|]; [specialize (Hp pv x eq_refl eq_refl); lra|].
        cbn [print_path]. rewrite n_0_R. cbn [n_ltb Num_R]. destruct (Rltb_spec (td_dist x) 0) as [F|_]; [lra|].
        rewrite deg_R, ob_ok. destruct (Rltb_spec tmax (td_time x)) as [_|F]; [|lra]. reflexivity. }
      cbn [print_path]. rewrite n_0_R. cbn [n_ltb n_leb Num_R]. destruct (Rltb_spec (td_dist x) 0) as [F|_]; [lra|].
      rewrite deg_R, ob_ok. destruct (Rltb_spec tmax (td_time x)) as [F|_]; [lra|]. cbv zeta. unfold printDistRadius at 1. rewrite ob_say, other_way_R.
      match goal with |- context [?s :: fst _] => change s with (line_of r long (dot_at x)) end.
      destruct (Rleb_spec tmax (td_time x)) as [Hstop|Hgo].
      { exists [dot_at x]. split; [apply drawn_stop; lra|]. reflexivity. }
      destruct l as [|y l].
      { exists [dot_at x]. split; [apply drawn_last; lra|]. rewrite ob_ok. reflexivity. }
      destruct (not_back_next _ _ _ Hl) as [Txy Dxy].
      (* what is printed between the two points *)
      assert (B : exists n here beyond, pieces inc p x y n /\ cuts x y n = here ++ beyond /\
        (forall q, In q here -> dot_time q <= tmax) /\ (forall q, In q beyond -> tmax < dot_time q) /\
        (if negb (Reqb p 0) then obind (quiet (td_distDeg y)) (fun nd =>
           if Rltb inc (n_sub nd (degrees_of x)) then obind (quiet (py_div (n_sub nd (degrees_of x)) inc)) (fun q =>
             print_between r tmax long x y (n_ceil q) (zrange 1 (n_ceil q)) (td_time x) (way_of long (degrees_of x)))
           else quiet (Ok tt)) else quiet (Ok tt)) = (map (line_of r long) here, Ok tt)).
      { destruct (Reqb_spec p 0) as [P0|P0]; cbn [negb].
        - exists 1%nat, [], []. split; [apply one_piece; auto|]. split; [reflexivity|]. split; [intros q []|]. split; [intros q []|]. reflexivity.
        - rewrite deg_R, ob_ok. cbn [n_sub Num_R]. destruct (Rltb_spec inc (degrees_of y - degrees_of x)) as [Hbig|Hsmall].
          + rewrite py_div_R by lra. rewrite ob_ok. destruct (ceil_pieces inc p x y Hinc P0 Hbig) as [n [En Hn]]. rewrite En, zrange_nat.
            destruct (between_spec r tmax long x y n (proj1 Hn) Txy (n - 1) 1 ltac:(destruct Hn; lia) ltac:(lia)) as [here [beyond [E [Ec [Hh Hb]]]]].
            exists n, here, beyond. split; [exact Hn|]. split; [exact Ec|]. split; [exact Hh|]. split; [exact Hb|].
            rewrite <- E. f_equal.
            * unfold dot_between, dot_time. cbn [fst snd Nat.sub INR]. unfold Rdiv. ring.
            * f_equal. unfold dot_between, dot_dist. cbn [fst snd Nat.sub INR]. unfold Rdiv. ring.
          + exists 1%nat, [], []. split; [apply one_piece; [exact Hinc|right; lra]|]. split; [reflexivity|]. split; [intros q []|]. split; [intros q []|]. reflexivity. }
      destruct B as [n [here [beyond [Hn [Ec [Hh [Hb E]]]]]]]. cbn [n_eqb n_ltb Num_R] in *. rewrite E, ob_said. cbn [fst snd].
      destruct (Rlt_dec tmax (td_time y)) as [Ylate|Yin].
      + destruct (path_cut x y l ltac:(destruct (not_back_tail _ _ Hl) as [_ F]; inversion F; assumption) ltac:(lra) Ylate) as [u [Hu Eu]].
        rewrite Eu. exists (dot_at x :: here ++ [dot_between x y u]). split; [eapply drawn_cut; eauto; lra|].
        cbn [fst snd map]. rewrite map_app. reflexivity.
      + destruct (IH (Some x) (not_back_tail _ _ Hl)) as [dots [Hd Ed]]; [intros pv z _ Ez; injection Ez as <-; lra|].
        rewrite Ed. exists (dot_at x :: cuts x y n ++ dots). split; [apply drawn_on; [lra|lra|exact Hn|exact Hd]|].
        assert (beyond = []).
        { destruct beyond as [|q beyond]; [reflexivity|]. exfalso.
          assert (In q (cuts x y n)) by (rewrite Ec; apply in_elt). specialize (Hb q (or_introl eq_refl)).
          unfold cuts in H. apply in_map_iff in H. destruct H as [k [<- Hk]]. apply in_seq in Hk.
          assert (0 < INR n) by (apply lt_0_INR; lia). assert (INR k <= INR n) by (apply le_INR; lia). pose proof (pos_INR k).
          assert (0 <= INR k / INR n <= 1).
          { split; [apply Rle_mult_inv_pos; assumption|]. apply (Rmult_le_reg_r (INR n)); [assumption|]. unfold Rdiv. rewrite Rmult_assoc, Rinv_l by lra. lra. }
          unfold dot_between, dot_time in Hb. cbn [fst] in Hb. nra. }
        subst beyond. rewrite app_nil_r in Ec. cbn [fst snd map]. rewrite map_app, Ec. reflexivity.
  Qed.
End Path.

(** -- what a drawing looks like ------------------------------------------------------------- *)
Lemma sorted_app : forall {A} (P : A -> A -> Prop) l1 a l2, Sorted P (l1 ++ [a]) -> Sorted P (a :: l2) -> Sorted P (l1 ++ a :: l2).
Proof.
  intros A P l1 a l2 H1 H2. induction l1 as [|b l1 IH]; [exact H2|]. cbn [app] in *. apply Sorted_inv in H1. destruct H1 as [H1 Hb].
  constructor; [apply IH; exact H1|]. destruct l1 as [|c l1]; cbn [app] in *; inversion Hb; constructor; assumption.
Qed.
Lemma sorted_next : forall {A} (P : A -> A -> Prop) l x y, Sorted P l -> next_to l x y -> P x y.
Proof.
  intros A P l x y H [l1 [l2 ->]]. induction l1 as [|b l1 IH].
  - apply Sorted_inv in H. destruct H as [_ H]. inversion H. assumption.
  - apply IH. cbn [app] in H. apply Sorted_inv in H. apply H.
Qed.

Lemma dot_0 : forall x y, dot_between x y 0 = dot_at x.
Proof. intros x y. unfold dot_between, dot_at. f_equal; [f_equal|]; ring. Qed.
Lemma dot_1 : forall x y, dot_between x y 1 = dot_at y.
Proof. intros x y. unfold dot_between, dot_at. f_equal; [f_equal|]; ring. Qed.

Section Drawing.
  Variables (tmax inc p : R).
  Hypothesis Hinc : 0 < inc.
  Definition step (q q' : dot) : Prop :=
    dot_time q <= dot_time q' /\ dot_dist q <= dot_dist q' /\ (p <> 0 -> dot_dist q' - dot_dist q <= inc).

  Lemma step_between : forall x y n u v, td_time x <= td_time y -> degrees_of x <= degrees_of y -> pieces inc p x y n ->
    u <= v <= u + 1 / INR n -> step (dot_between x y u) (dot_between x y v).
  Proof.
    intros x y n u v Ht Hd [Hn [_ Hp]] Huv. unfold step, dot_between, dot_time, dot_dist. cbn [fst snd].
    assert (Pn : 0 < INR n) by (apply lt_0_INR; lia).
    split; [nra|]. split; [nra|]. intros P0. destruct (Hp P0) as [Hlen _].
    assert (E : degrees_of x + v * (degrees_of y - degrees_of x) - (degrees_of x + u * (degrees_of y - degrees_of x)) = (v - u) * (degrees_of y - degrees_of x)) by ring.
    rewrite E. apply Rle_trans with (1 / INR n * (degrees_of y - degrees_of x)); [apply Rmult_le_compat_r; lra|].
    apply Rle_trans with (1 / INR n * (INR n * inc)); [apply Rmult_le_compat_l; [apply Rle_mult_inv_pos; lra|exact Hlen]|].
    right. field. lra.
  Qed.
  Lemma cuts_sorted : forall x y n, td_time x <= td_time y -> degrees_of x <= degrees_of y -> pieces inc p x y n ->
    forall m k, (k + m <= n)%nat -> Sorted step (map (fun k => dot_between x y (INR k / INR n)) (seq k (S m))).
  Proof.
    intros x y n Ht Hd Hn. assert (Pn : 0 < INR n) by (apply lt_0_INR; destruct Hn; lia).
    induction m as [|m IH]; intros k Hk; [cbn [seq map]; repeat constructor|].
    change (seq k (S (S m))) with (k :: seq (S k) (S m)). cbn [map]. constructor; [apply IH; lia|].
    cbn [seq map]. constructor. eapply step_between; [exact Ht|exact Hd|exact Hn|]. rewrite S_INR. unfold Rdiv.
    assert (0 < / INR n) by (apply Rinv_0_lt_compat; exact Pn). nra.
  Qed.
  Lemma cuts_whole : forall x y n, (1 <= n)%nat ->
    map (fun k => dot_between x y (INR k / INR n)) (seq 0 (S n)) = dot_at x :: cuts x y n ++ [dot_at y].
  Proof.
    intros x y n Hn. replace (S n) with (1 + ((n - 1) + 1))%nat by lia. rewrite seq_app, map_app. cbn [seq map Nat.add app].
    f_equal; [cbn [INR]; unfold Rdiv; rewrite Rmult_0_l; apply dot_0|].
    rewrite seq_app, map_app. unfold cuts. f_equal. cbn [seq map]. f_equal.
    replace (1 + (n - 1))%nat with n by lia. unfold Rdiv. rewrite Rinv_r by (apply not_0_INR; lia). apply dot_1.
  Qed.

  Lemma drawn_head : forall x l dots, drawn tmax inc p (x :: l) dots -> td_time x <= tmax -> exists rest, dots = dot_at x :: rest.
  Proof. intros x l dots H Hx. inversion H; subst; try lra; eexists; reflexivity. Qed.

  Lemma sorted_pre : forall {A} (P : A -> A -> Prop) l1 l2, Sorted P (l1 ++ l2) -> Sorted P l1.
  Proof.
    intros A P l1 l2 H. induction l1 as [|a l1 IH]; [constructor|]. cbn [app] in H. apply Sorted_inv in H. destruct H as [H Ha].
    constructor; [auto|]. destruct l1; [constructor|]. cbn [app] in Ha. inversion Ha. constructor. assumption.
  Qed.

  Lemma drawn_sorted : forall l dots, drawn tmax inc p l dots -> not_back l -> Sorted step dots.
  Proof.
    intros l dots H. induction H as [|x l Hx|x l Hx|x Hx|x y l n rest Hx Hy Hn Hr IH|x y l n here beyond u Hx Hy Hn Ec Hh Hb Hu]; intros Hl;
      try (repeat constructor; fail).
    - destruct (not_back_next _ _ _ Hl) as [Txy Dxy]. destruct (drawn_head _ _ _ Hr Hy) as [rest' ->].
      change (dot_at x :: cuts x y n ++ dot_at y :: rest') with ((dot_at x :: cuts x y n) ++ dot_at y :: rest').
      apply sorted_app; [|exact (IH (not_back_tail _ _ Hl))].
      change ((dot_at x :: cuts x y n) ++ [dot_at y]) with (dot_at x :: cuts x y n ++ [dot_at y]).
      rewrite <- cuts_whole by (destruct Hn; assumption). apply cuts_sorted; [exact Txy|exact Dxy|exact Hn|lia].
    - destruct (not_back_next _ _ _ Hl) as [Txy Dxy]. assert (N1 : (1 <= n)%nat) by (destruct Hn; assumption).
      assert (Pn : 0 < INR n) by (apply lt_0_INR; lia).
      (* the points before the end *)
      assert (Hall : Sorted step (dot_at x :: cuts x y n ++ [dot_at y])) by (rewrite <- cuts_whole by exact N1; apply cuts_sorted; [exact Txy|exact Dxy|exact Hn|lia]).
      assert (Lh : (List.length here <= n - 1)%nat).
      { assert (List.length (cuts x y n) = (n - 1)%nat) by (unfold cuts; rewrite map_length, seq_length; reflexivity).
        rewrite Ec, app_length in H. lia. }
      set (j := List.length here) in *.
      assert (Eh : dot_at x :: here = map (fun k => dot_between x y (INR k / INR n)) (seq 0 (S j))).
      { change (seq 0 (S j)) with (0%nat :: seq 1 j). cbn [map]. f_equal; [cbn [INR]; unfold Rdiv; rewrite Rmult_0_l; symmetry; apply dot_0|].
        assert (Ej : here = firstn j (cuts x y n)) by (rewrite Ec, firstn_app; unfold j; rewrite firstn_all, Nat.sub_diag, firstn_O, app_nil_r; reflexivity).
        rewrite Ej. unfold cuts. replace (n - 1)%nat with (j + (n - 1 - j))%nat by lia. rewrite seq_app, map_app, firstn_app.
        rewrite firstn_all2 by (rewrite map_length, seq_length; lia). rewrite map_length, seq_length, Nat.sub_diag, firstn_O, app_nil_r. reflexivity. }
      change (dot_at x :: here ++ [dot_between x y u]) with ((dot_at x :: here) ++ [dot_between x y u]).
      rewrite Eh, seq_S, map_app. cbn [map Nat.add]. rewrite <- app_assoc. cbn [app]. apply sorted_app.
      { change [dot_between x y (INR j / INR n)] with (map (fun k => dot_between x y (INR k / INR n)) [j]). rewrite <- map_app. change [j] with [(0 + j)%nat].
        rewrite <- seq_S. apply cuts_sorted; [exact Txy|exact Dxy|exact Hn|lia]. }
      constructor; [repeat constructor|]. constructor. eapply step_between; [exact Txy|exact Dxy|exact Hn|].
      assert (Hj : dot_time (dot_between x y (INR j / INR n)) <= tmax).
      { destruct (Nat.eq_dec j 0) as [J0|J0].
        - rewrite J0. cbn [INR]. unfold Rdiv. rewrite Rmult_0_l, dot_0. unfold dot_at, dot_time. cbn [fst]. lra.
        - apply Hh. assert (In (dot_between x y (INR j / INR n)) (dot_at x :: here)).
          { rewrite Eh, seq_S, map_app. apply in_or_app. right. left. reflexivity. }
          destruct H as [H|H]; [|exact H]. exfalso. assert (T : dot_time (dot_at x) = dot_time (dot_between x y (INR j / INR n))) by (rewrite H; reflexivity).
          unfold dot_between, dot_at, dot_time in T. cbn [fst] in T.
          assert (0 < INR j / INR n) by (apply Rmult_lt_0_compat; [apply lt_0_INR; lia|apply Rinv_0_lt_compat; exact Pn]). nra. }
      assert (Hj1 : tmax < dot_time (dot_between x y (INR (S j) / INR n))).
      { destruct (Nat.eq_dec (S j) n) as [J1|J1].
        - rewrite J1. unfold Rdiv. rewrite Rinv_r by lra. rewrite dot_1. exact Hy.
        - apply Hb. assert (E1 : nth_error (cuts x y n) j = Some (dot_between x y (INR (S j) / INR n))).
          { unfold cuts. rewrite nth_error_map. rewrite (nth_error_nth' _ 0%nat) by (rewrite seq_length; lia). rewrite seq_nth by lia. reflexivity. }
          rewrite Ec, nth_error_app2 in E1 by (unfold j; lia). eapply nth_error_In. exact E1. }
      rewrite S_INR in Hj1. unfold dot_between, dot_time in Hj, Hj1, Hu. cbn [fst] in Hj, Hj1, Hu.
      assert (E2 : (INR j + 1) / INR n = INR j / INR n + 1 / INR n) by (field; lra). rewrite E2 in Hj1.
      set (a := INR j / INR n) in *. set (b := 1 / INR n) in *. clearbody a b. split.
      + apply Rnot_lt_le. intros F. nra.
      + apply Rnot_lt_le. intros F. nra.
  Qed.

  Lemma between_on : forall x y l n q, In q (cuts x y n) -> on_path (x :: y :: l) q.
  Proof.
    intros x y l n q H. unfold cuts in H. apply in_map_iff in H. destruct H as [k [<- Hk]]. apply in_seq in Hk. right.
    exists 0%nat, x, y, (INR k / INR n). split; [reflexivity|]. split; [reflexivity|]. split; [|reflexivity].
    assert (0 < INR n) by (apply lt_0_INR; lia). assert (INR k <= INR n) by (apply le_INR; lia). pose proof (pos_INR k).
    split; [apply Rle_mult_inv_pos; assumption|]. apply (Rmult_le_reg_r (INR n)); [assumption|]. unfold Rdiv. rewrite Rmult_assoc, Rinv_l by lra. lra.
  Qed.
  Lemma on_path_cons : forall x l q, on_path l q -> on_path (x :: l) q.
  Proof.
    intros x l q [[y [Hy ->]]|[i [a [b [u [Ha [Hb [Hu ->]]]]]]]].
    - left. exists y. split; [right; exact Hy|reflexivity].
    - right. exists (S i), a, b, u. auto.
  Qed.
  Lemma cuts_before : forall x y n q, td_time x <= td_time y -> In q (cuts x y n) -> dot_time q <= td_time y.
  Proof.
    intros x y n q Ht H. destruct (between_on x y [] n q H) as [[z [Hz ->]]|[i [a [b [u [Ha [Hb [Hu ->]]]]]]]].
    - destruct Hz as [<-|[<-|[]]]; unfold dot_at, dot_time; cbn [fst]; lra.
    - destruct i as [|i]; [injection Ha as <-; injection Hb as <-|destruct i; discriminate].
      unfold dot_between, dot_time. cbn [fst]. nra.
  Qed.

  Lemma drawn_on_path : forall l dots, drawn tmax inc p l dots -> not_back l ->
    forall q, In q dots -> on_path l q /\ dot_time q <= tmax.
  Proof.
    intros l dots H. induction H as [|x l Hx|x l Hx|x Hx|x y l n rest Hx Hy Hn Hr IH|x y l n here beyond u Hx Hy Hn Ec Hh Hb Hu]; intros Hl q Hq.
    - destruct Hq.
    - destruct Hq.
    - destruct Hq as [<-|[]]. split; [left; exists x; split; [left; reflexivity|reflexivity]|]. unfold dot_at, dot_time. cbn [fst]. lra.
    - destruct Hq as [<-|[]]. split; [left; exists x; split; [left; reflexivity|reflexivity]|]. unfold dot_at, dot_time. cbn [fst]. lra.
    - destruct (not_back_next _ _ _ Hl) as [Txy Dxy].
      destruct Hq as [<-|Hq]; [split; [left; exists x; split; [left; reflexivity|reflexivity]|]; unfold dot_at, dot_time; cbn [fst]; lra|].
      apply in_app_or in Hq. destruct Hq as [Hq|Hq].
      + split; [eapply between_on; exact Hq|]. pose proof (cuts_before _ _ _ _ Txy Hq). lra.
      + destruct (IH (not_back_tail _ _ Hl) q Hq) as [A B]. split; [apply on_path_cons; exact A|exact B].
    - destruct (not_back_next _ _ _ Hl) as [Txy Dxy].
      destruct Hq as [<-|Hq]; [split; [left; exists x; split; [left; reflexivity|reflexivity]|]; unfold dot_at, dot_time; cbn [fst]; lra|].
      apply in_app_or in Hq. destruct Hq as [Hq|[<-|[]]].
      + split; [eapply between_on; rewrite Ec; apply in_or_app; left; exact Hq|auto].
      + split; [|lra]. right. exists 0%nat, x, y, u. split; [reflexivity|]. split; [reflexivity|]. split; [|reflexivity].
        unfold dot_between, dot_time in Hu. cbn [fst] in Hu. split; apply Rnot_lt_le; intros F; nra.
  Qed.

  Lemma drawn_all : forall l dots, drawn tmax inc p l dots -> not_back l ->
    forall x, In x l -> td_time x < tmax -> In (dot_at x) dots.
  Proof.
    assert (Late : forall x l z, not_back (x :: l) -> In z (x :: l) -> td_time x <= td_time z).
    { intros x l z [H _] [->|Hz]; [lra|]. apply In_nth_error in Hz. destruct Hz as [i Hi].
      destruct (H 0%nat (S i) x z ltac:(lia) eq_refl Hi) as [A _]. exact A. }
    intros l dots H. induction H as [|x l Hx|x l Hx|x Hx|x y l n rest Hx Hy Hn Hr IH|x y l n here beyond u Hx Hy Hn Ec Hh Hb Hu]; intros Hl z Hz Tz.
    - destruct Hz.
    - specialize (Late _ _ _ Hl Hz). lra.
    - specialize (Late _ _ _ Hl Hz). lra.
    - destruct Hz as [<-|[]]. left. reflexivity.
    - destruct Hz as [<-|Hz]; [left; reflexivity|]. right. apply in_or_app. right. apply (IH (not_back_tail _ _ Hl) z Hz Tz).
    - destruct Hz as [<-|Hz]; [left; reflexivity|]. specialize (Late _ _ _ (not_back_tail _ _ Hl) Hz). lra.
  Qed.

  Lemma drawn_end : forall l dots, drawn tmax inc p l dots -> not_back l -> forall x, hd_error l = Some x -> td_time x <= tmax ->
    exists e, ends_with dots e /\
      ((exists y, In y l /\ tmax <= td_time y) -> dot_time e = tmax) /\
      ((forall y, In y l -> td_time y < tmax) -> exists y, ends_with l y /\ e = dot_at y).
  Proof.
    intros l dots H. induction H as [|x l Hx|x l Hx|x Hx|x y l n rest Hx Hy Hn Hr IH|x y l n here beyond u Hx Hy Hn Ec Hh Hb Hu]; intros Hl z Ez Tz.
    - discriminate.
    - injection Ez as <-. lra.
    - exists (dot_at x). split; [exists []; reflexivity|]. split; [intros _; exact Hx|]. intros F. specialize (F x (or_introl eq_refl)). lra.
    - exists (dot_at x). split; [exists []; reflexivity|]. split; [intros [y [[<-|[]] Hy]]; lra|]. intros _. exists x. split; [exists []; reflexivity|reflexivity].
    - destruct (IH (not_back_tail _ _ Hl) y eq_refl Hy) as [e [[d0 Ed] [A B]]]. exists e. split.
      + exists (dot_at x :: cuts x y n ++ d0). rewrite Ed. cbn [app]. rewrite <- app_assoc. reflexivity.
      + split.
        * intros [v [[<-|Hv] Tv]]; [lra|]. apply A. exists v. split; assumption.
        * intros F. destruct B as [v [[l0 El] Ev]]; [intros v Hv; apply F; right; exact Hv|]. exists v. split; [exists (x :: l0); cbn [app]; rewrite El; reflexivity|exact Ev].
    - exists (dot_between x y u). split; [exists (dot_at x :: here); reflexivity|]. split; [intros _; exact Hu|]. intros F.
      specialize (F y (or_intror (or_introl eq_refl))). lra.
  Qed.
End Drawing.

(** -- whole arrivals -------------------------------------------------------------------------- *)
Lemma distDeg_R : forall a : arrival R, ar_distDeg a = Ok (ar_dist a * (180 / PI)).
Proof.
  intros a. unfold ar_distDeg. cbn [m_pi Libm_R]. pose proof PI_RGT_0. rewrite py_div_R, n_int_R by lra.
  cbn [n_mul Num_R]. f_equal. field. lra.
Qed.
Lemma longWay_R : forall a : arrival R, exists b, longWayRound a = Ok b /\ (b = true <-> long_way a).
Proof.
  intros a. unfold longWayRound. rewrite distDeg_R. cbn [bind m_mod Libm_R]. rewrite !n_int_R.
  destruct (Reqb_spec 360 0) as [F|_]; [lra|]. cbn [bind n_ltb Num_R]. eexists. split; [reflexivity|].
  set (x := ar_dist a * (180 / PI)). destruct (base_Int_part (x / 360)) as [H1 H2]. unfold long_way. fold x.
  assert (E : x / 360 * 360 = x) by field. set (k := Int_part (x / 360)) in *.
  rewrite Rltb_true. split.
  - intros H. exists k. lra.
  - intros [j Hj]. assert (D1 : IZR (k - j) < 1) by (rewrite minus_IZR; lra). assert (D2 : -1 < IZR (k - j)) by (rewrite minus_IZR; lra).
    assert (k = j); [|subst; lra]. apply (lt_IZR _ 1) in D1. apply (lt_IZR (-1)) in D2. lia.
Qed.
Lemma heading_R : forall show modelName (a : arrival R), exists s, getCommentLine show modelName a = Ok s /\ heading show modelName a s.
Proof.
  intros show modelName a. unfold getCommentLine, rayParam_sec_degree. rewrite distDeg_R. cbn [bind]. rewrite n_int_R.
  rewrite py_div_R by lra. cbn [bind m_pi Libm_R n_mul Num_R]. eexists. split; [reflexivity|].
  eexists _, (fixed 2 (ar_time a)), (fixed 2 (ar_dist a * (180 / PI))), (fixed 3 (ar_rayParam a * (PI / 180))).
  split; [|split; [|split; [apply fixed_R|split; [apply fixed_R|split; [apply fixed_R|]]]]].
  3:{ replace (ar_rayParam a * PI / 180) with (ar_rayParam a * (PI / 180)) by (unfold Rdiv; ring). reflexivity. }
  - intros E. rewrite E. unfold seq_. rewrite String.eqb_refl. reflexivity.
  - intros E. unfold seq_. destruct (String.eqb_spec (ar_name a) (ar_purist a)); [contradiction|reflexivity].
Qed.
Lemma dot_line_iff : forall r (P Q : Prop) q s, (P <-> Q) -> dot_line r P q s -> dot_line r Q q s.
Proof.
  intros r P Q q s H [x [wd [wr [A [B C]]]]]. exists x, wd, wr. split; [tauto|]. split; [tauto|exact C].
Qed.

(** -- pierce points ---------------------------------------------------------------------------- *)
Definition wants (c : choice (T := R)) : wanted :=
  mkWanted (only_turn c = true) (only_rev c = true) (only_under c = true) (only_add c = true) (add_depths c).

Lemma chosen_R : forall c first j z nz, chosen c j first z nz = true <-> shown (wants c) first j z nz.
Proof.
  intros [t rv u ad ds] first j z nz. unfold chosen, shown, wants. cbn [only_turn only_rev only_under only_add add_depths want_turn want_rev want_under want_add want_depths].
  rewrite n_0_R. cbn [n_sub n_mul n_ltb n_leb n_eqb Num_R]. rewrite !orb_true_iff, !andb_true_iff, !negb_true_iff, !orb_false_iff, Rltb_true, !Rleb_true.
  assert (E1 : existsb (fun x => Reqb z x) ds = true <-> In z ds).
  { rewrite existsb_exists. split; [intros [x [Hx E]]; apply Reqb_true in E; subst; exact Hx|intros H; exists z; split; [exact H|apply Reqb_true; reflexivity]]. }
  assert (E2 : (first - z) * (z - nz) < 0 <-> (first < z /\ nz < z \/ z < first /\ z < nz)).
  { split; [intros H|intros [H|H]; nra]. destruct (Rtotal_order first z) as [A|[A|A]]; [left|subst; lra|right]; (split; [exact A|]).
    - apply Rnot_le_lt. intros F. nra.
    - apply Rnot_le_lt. intros F. nra. }
  rewrite E1, E2, Nat.eqb_neq.
  assert (E3 : first - z <= 0 <-> first <= z) by lra. assert (E4 : 0 <= z - nz <-> nz <= z) by lra.
  assert (E5 : 0 <= first - z <-> z <= first) by lra. assert (E6 : z - nz <= 0 <-> z <= nz) by lra.
  rewrite E3, E4, E5, E6. destruct t, rv, u, ad; intuition (try discriminate).
Qed.

Lemma pierce_line_R : forall long x, pierce_row (long = true) x (pierce_line (way_of long (degrees_of x)) (td_depth x) (td_time x)).
Proof.
  intros long x. unfold pierce_line. set (wd := fixed 2 (way_of long (degrees_of x))). set (wz := fixed 1 (td_depth x)). set (wt := fixed 1 (td_time x)).
  exists (way_of long (degrees_of x)), wd, wz, wt.
  assert (W1 : one_word wd) by apply fixed_word. assert (W2 : one_word wz) by apply fixed_word. assert (W3 : one_word wt) by apply fixed_word.
  split; [intros ->; reflexivity|]. split; [intros H; destruct long; [congruence|reflexivity]|].
  split; [apply fixed_R|]. split; [apply fixed_R|]. split; [apply fixed_R|].
  split.
  - unfold rjust. rewrite !str_app_assoc. apply spaces_words. apply (word_blank wd); [exact W1|]. apply spaces_words.
    apply (word_blank wz); [exact W2|]. apply spaces_words. destruct W3. constructor; assumption.
  - intros L1 L2 L3. unfold rjust. split; [|split; [|split]].
    + exists (spaces (7 - String.length wd)), (" " ++ (spaces (7 - String.length wz) ++ wz) ++ " " ++ spaces (7 - String.length wt) ++ wt)%string.
      rewrite !str_app_assoc. split; [reflexivity|]. rewrite str_length_app, spaces_len. lia.
    + exists (spaces (7 - String.length wd) ++ wd ++ " " ++ spaces (7 - String.length wz))%string, (" " ++ spaces (7 - String.length wt) ++ wt)%string.
      rewrite !str_app_assoc. split; [reflexivity|]. rewrite !str_length_app, !spaces_len. cbn [String.length]. lia.
    + exists (spaces (7 - String.length wd) ++ wd ++ " " ++ spaces (7 - String.length wz) ++ wz ++ " " ++ spaces (7 - String.length wt))%string, ""%string.
      rewrite !str_app_assoc, str_app_nil_r. split; [reflexivity|]. rewrite !str_length_app, !spaces_len. cbn [String.length]. lia.
    + rewrite !str_length_app, !spaces_len. cbn [String.length]. lia.
Qed.

Lemma print_pierce_R : forall c long first l j, exists lines,
  print_pierce c long first j l = (lines, Ok tt) /\ rows (shown (wants c) first) (pierce_row (long = true)) j l lines.
Proof.
  intros c long first l. induction l as [|x l IH]; intros j; [exists []; split; [reflexivity|constructor]|].
  cbn [print_pierce]. rewrite deg_R, ob_ok. cbv zeta. rewrite other_way_R.
  set (nz := match l with y :: _ => td_depth y | [] => td_depth x end). destruct (IH (S j)) as [lines [E Hrows]].
  destruct (chosen c j first (td_depth x) nz) eqn:Ec.
  - rewrite ob_say, E. eexists. split; [reflexivity|]. eapply rows_show; [reflexivity|apply chosen_R; exact Ec|apply pierce_line_R|exact Hrows].
  - rewrite ob_ok, E. exists lines. split; [reflexivity|]. eapply rows_skip; [reflexivity| |exact Hrows].
    intros F. apply chosen_R in F. fold nz in F. congruence.
Qed.
Lemma rows_iff : forall sel (row row' : timedist R -> string -> Prop) j l lines, (forall x s, row x s -> row' x s) ->
  rows sel row j l lines -> rows sel row' j l lines.
Proof. intros sel row row' j l lines H Hr. induction Hr; econstructor; eauto. Qed.
Lemma pierce_row_iff : forall (P Q : Prop) x s, (P <-> Q) -> pierce_row P x s -> pierce_row Q x s.
Proof. intros P Q x s H [dd [wd [wz [wt [A [B C]]]]]]. exists dd, wd, wz, wt. split; [tauto|]. split; [tauto|exact C]. Qed.

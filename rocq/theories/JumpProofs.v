(** Proofs for property C70: the depths at which velocities jump. *)
From Coq Require Import ZArith Bool List String Ascii Reals Lia Lra Sorted.
From Verif Require Import Base Num PyStr VelocityModel NameSpec VelSpec VelProofs JumpSpec SlowRealProofs SlowProofs.
Import ListNotations.
Local Open Scope R_scope.

(** the depths between layers at which a velocity jumps *)
Definition inner (ls : list (vlayer R)) : list R :=
  map (fun ab => vl_botDepth (fst ab)) (filter (fun ab => discon_between (fst ab) (snd ab)) (adjacent ls)).

Lemma inner_cons : forall a b ls, inner (a :: b :: ls) =
  ((if discon_between a b then [vl_botDepth a] else []) ++ inner (b :: ls))%list.
Proof. intros a b ls. unfold inner. change (adjacent (a :: b :: ls)) with ((a, b) :: adjacent (b :: ls)). cbn [filter fst snd].
  destruct (discon_between a b); reflexivity. Qed.

Lemma last_nth : forall {A} (l : list A) z, l <> [] -> nth_error l (List.length l - 1) = Some (last l z).
Proof.
  induction l as [|a l IH]; intros z H; [contradiction|]. destruct l as [|b l]; [reflexivity|].
  specialize (IH z ltac:(discriminate)). cbn [List.length] in *. 
  replace (S (S (List.length l)) - 1)%nat with (S (S (List.length l) - 1)) by lia. exact IH.
Qed.

Lemma last_cons : forall {A} (l : list A) f, nth_error (f :: l) (List.length (f :: l) - 1) = Some (last l f).
Proof.
  intros A l f. rewrite (last_nth (f :: l) f) by discriminate. f_equal.
  destruct l as [|a l]; [reflexivity|]. cbn [last]. revert a. induction l as [|b l IH]; intros a; [reflexivity|]. exact (IH b).
Qed.

(** what the code returns *)
Lemma listed_eq : forall (m : vmodel R) a ls, vm_layers m = a :: ls ->
  getDisconDepths m = Ok (vl_topDepth a :: inner (a :: ls) ++ [vl_botDepth (last ls a)]).
Proof.
  intros m a ls E. unfold getDisconDepths. rewrite E, py_index_last. reflexivity.
Qed.

Section Order.
  Lemma ctg : forall a b (ls : list (vlayer R)), contiguous (a :: b :: ls) -> vl_botDepth a = vl_topDepth b.
  Proof. intros a b ls H. apply Reqb_eq. exact (contiguous_head _ _ _ H). Qed.
  Lemma thk : forall (ls : list (vlayer R)) a, thick ls -> In a ls -> vl_topDepth a < vl_botDepth a.
  Proof. intros ls a H I. apply Rltb_lt. exact (H _ I). Qed.

  Lemma order : forall ls a, contiguous (a :: ls) -> thick (a :: ls) ->
    StronglySorted Rlt (inner (a :: ls) ++ [vl_botDepth (last ls a)]) /\
    Forall (fun x => vl_botDepth a <= x) (inner (a :: ls) ++ [vl_botDepth (last ls a)]).
  Proof.
    induction ls as [|b ls IH]; intros a C K.
    - cbn. split; [repeat constructor|]. constructor; [lra|constructor].
    - destruct (IH b (contiguous_tail _ _ C) (thick_tail _ _ K)) as [S1 F1].
      pose proof (ctg _ _ _ C) as E. pose proof (thk _ b K ltac:(right; left; reflexivity)) as B.
      assert (EL : last (b :: ls) a = last ls b).
      { clear. revert b. induction ls as [|c ls IH]; intros b; [reflexivity|]. cbn [last]. destruct ls; [reflexivity|]. exact (IH b). }
      rewrite EL, inner_cons, <- app_assoc.
      assert (F2 : Forall (fun x => vl_botDepth a < x) (inner (b :: ls) ++ [vl_botDepth (last ls b)])).
      { eapply Forall_impl; [|exact F1]. cbn. intros x Hx. lra. }
      assert (F3 : Forall (fun x => vl_botDepth a <= x) (inner (b :: ls) ++ [vl_botDepth (last ls b)])).
      { eapply Forall_impl; [|exact F2]. cbn. intros x Hx. lra. }
      destruct (discon_between a b); cbn [app]; [|split; assumption].
      split; [constructor; assumption|]. constructor; [lra|assumption].
  Qed.
End Order.

Lemma inner_in : forall (ls : list (vlayer R)) x, In x (inner ls) <->
  exists i a b, nth_layer ls i a /\ nth_layer ls (i + 1) b /\ x = vl_botDepth a /\ (vl_botP a <> vl_topP b \/ vl_botS a <> vl_topS b).
Proof.
  intros ls x. unfold inner. rewrite in_map_iff. split.
  - intros [[a b] [<- H]]. apply filter_In in H. destruct H as [H D]. apply In_nth_error in H. destruct H as [k H].
    apply adjacent_nth in H. destruct H as [Ha Hb]. exists (Z.of_nat k), a, b. cbn [fst snd] in *.
    split; [split; [lia|rewrite Nat2Z.id; exact Ha]|]. split; [split; [lia|]|].
    + replace (Z.to_nat (Z.of_nat k + 1)) with (S k) by lia. exact Hb.
    + split; [reflexivity|]. unfold discon_between in D. apply orb_true_iff in D. destruct D as [D|D]; [left|right];
        intros E; rewrite (proj2 (Reqb_eq _ _) E) in D; discriminate.
  - intros [i [a [b [Ha [Hb [-> D]]]]]]. exists (a, b). split; [reflexivity|]. apply filter_In. split.
    + destruct Ha as [Hi Ha]. destruct Hb as [_ Hb]. replace (Z.to_nat (i + 1)) with (S (Z.to_nat i)) in Hb by lia.
      apply (nth_error_In _ (Z.to_nat i)). apply adjacent_nth. split; assumption.
    + cbn [fst snd]. unfold discon_between. apply orb_true_iff.
      destruct D as [D|D]; [left|right]; rewrite (proj2 (Reqb_ne _ _) D); reflexivity.
Qed.

Lemma val_P : forall (l : vlayer R) tv bv, values l "P" tv bv <-> tv = vl_topP l /\ bv = vl_botP l.
Proof.
  intros l tv bv. rewrite values_iff. change (prop_sel l "P") with (Some (vl_topP l, vl_botP l)).
  split; [intros H; inversion H; auto|intros [-> ->]; reflexivity].
Qed.
Lemma val_S : forall (l : vlayer R) tv bv, values l "S" tv bv <-> tv = vl_topS l /\ bv = vl_botS l.
Proof.
  intros l tv bv. rewrite values_iff. change (prop_sel l "S") with (Some (vl_topS l, vl_botS l)).
  split; [intros H; inversion H; auto|intros [-> ->]; reflexivity].
Qed.

(** between neighbouring layers both sides can be evaluated *)
Lemma sides : forall (m : vmodel R) i a b w ta ba tb bb, contiguous (vm_layers m) -> thick (vm_layers m) ->
  nth_layer (vm_layers m) i a -> nth_layer (vm_layers m) (i + 1) b -> values a w ta ba -> values b w tb bb ->
  evaluateAbove m (vl_botDepth a) w = Ok ba /\ evaluateBelow m (vl_botDepth a) w = Ok tb.
Proof.
  intros m i a b w ta ba tb bb C K Ha Hb Va Vb.
  assert (E : vl_botDepth a = vl_topDepth b) by (apply Reqb_eq; exact (C _ _ _ Ha Hb)).
  pose proof (thk _ a K (nth_layer_In _ _ _ Ha)) as A. pose proof (thk _ b K (nth_layer_In _ _ _ Hb)) as B.
  split.
  - apply evaluateAbove_iff; [assumption|assumption|]. exists i, a, ta, ba. split; [exact Ha|]. split; [lra|]. split; [exact Va|].
    symmetry. apply line_ends. exact A.
  - apply evaluateBelow_iff; [assumption|assumption|]. exists (i + 1)%Z, b, tb, bb. split; [exact Hb|]. split; [lra|]. split; [exact Vb|].
    rewrite E. symmetry. apply line_ends. exact B.
Qed.

Lemma inner_jump : forall (m : vmodel R) x, contiguous (vm_layers m) -> thick (vm_layers m) ->
  (In x (inner (vm_layers m)) <-> jumps m "P" x \/ jumps m "S" x).
Proof.
  intros m x C K. split.
  - intros H. apply inner_in in H. destruct H as [i [a [b [Ha [Hb [-> D]]]]]].
    destruct D as [D|D]; [left|right].
    + destruct (sides m i a b "P" _ _ _ _ C K Ha Hb (proj2 (val_P a _ _) (conj eq_refl eq_refl)) (proj2 (val_P b _ _) (conj eq_refl eq_refl))) as [A B].
      exists (vl_botP a), (vl_topP b). auto.
    + destruct (sides m i a b "S" _ _ _ _ C K Ha Hb (proj2 (val_S a _ _) (conj eq_refl eq_refl)) (proj2 (val_S b _ _) (conj eq_refl eq_refl))) as [A B].
      exists (vl_botS a), (vl_topS b). auto.
  - intros J. destruct (in_dec Req_EM_T x (inner (vm_layers m))) as [H|H]; [exact H|exfalso].
    assert (Q : forall i a b, nth_layer (vm_layers m) i a -> nth_layer (vm_layers m) (i + 1) b -> vl_botDepth a = x ->
              vl_botP a = vl_topP b /\ vl_botS a = vl_topS b).
    { intros i a b Ha Hb E. split.
      - destruct (Req_EM_T (vl_botP a) (vl_topP b)) as [X|X]; [exact X|exfalso]. apply H. apply inner_in. exists i, a, b. auto.
      - destruct (Req_EM_T (vl_botS a) (vl_topS b)) as [X|X]; [exact X|exfalso]. apply H. apply inner_in. exists i, a, b. auto. }
    destruct J as [[u [v [A [B D]]]]|[u [v [A [B D]]]]]; apply D.
    + apply (evaluate_agree m x "P" u v C K); [|exact A|exact B]. intros i a b ta ba tb bb Ha Hb E Va Vb.
      apply val_P in Va, Vb. destruct (Q _ _ _ Ha Hb E) as [X _]. destruct Va as [_ ->], Vb as [-> _]. exact X.
    + apply (evaluate_agree m x "S" u v C K); [|exact A|exact B]. intros i a b ta ba tb bb Ha Hb E Va Vb.
      apply val_S in Va, Vb. destruct (Q _ _ _ Ha Hb E) as [_ X]. destruct Va as [_ ->], Vb as [-> _]. exact X.
Qed.

Lemma listed : forall (m : vmodel R) l, contiguous (vm_layers m) -> thick (vm_layers m) ->
  getDisconDepths m = Ok l -> lists (fun x => model_end m x \/ jumps m "P" x \/ jumps m "S" x) l.
Proof.
  intros m l C K H. destruct (vm_layers m) as [|a ls] eqn:E.
  { unfold getDisconDepths in H. rewrite E in H. discriminate. }
  rewrite (listed_eq _ _ _ E) in H. assert (El : l = vl_topDepth a :: inner (a :: ls) ++ [vl_botDepth (last ls a)]) by congruence.
  subst l. clear H. destruct (order ls a C K) as [S1 F1]. pose proof (thk _ a K (or_introl eq_refl)) as A. split.
  - constructor; [exact S1|]. eapply Forall_impl; [|exact F1]. cbn. intros x Hx. lra.
  - intros x. rewrite <- E in C, K. pose proof (inner_jump m x C K) as J. rewrite E in J. rewrite <- J.
    assert (X : model_end m x <-> x = vl_topDepth a \/ x = vl_botDepth (last ls a)).
    { unfold model_end. rewrite E, last_cons. cbn [nth_error]. split.
      - intros [[y [Y ->]]|[y [Y ->]]]; inversion Y; auto.
      - intros [->| ->]; [left|right]; eexists; eauto. }
    rewrite X. cbn [In]. rewrite in_app_iff. cbn [In]. intuition.
Qed.

(** Queries come to an end: lemmas (property C68). *)
From Coq Require Import ZArith Bool List String Arith Lia Reals Lra.
From Verif Require Import Base Num PyStr VelocityModel SlownessLayer SlownessModel TauModel Legs
  SeismicPhase Pierce TauPTime SlowSpec SlowAddProofs SlowBuildProofs SlowRealProofs TimeProps TauProofs EndSpec EndProofs FinProofs.
Import ListNotations.

Lemma ends_fin : forall A (r : result A), fin r -> ends (fun _ => r).
Proof. intros A r H. exists O, r. auto. Qed.
Lemma ends_bind : forall A B (f : nat -> result A) (g : nat -> A -> result B), ends f ->
  (forall a n, (forall k, (n <= k)%nat -> f k = Ok a) -> ends (fun k => g k a)) -> ends (fun k => bind (f k) (g k)).
Proof.
  intros A B f g [n [r [Hr Hn]]] Hg. destruct r as [a|e|]; [|exists n, (Raise e); split; [discriminate|intros k Hk; rewrite Hn by exact Hk; reflexivity]|congruence].
  destruct (Hg a n Hn) as [n' [r' [Hr' Hn']]]. exists (Nat.max n n'), r'. split; [exact Hr'|]. intros k Hk. rewrite Hn by lia. apply Hn'. lia.
Qed.
Lemma ends_mapM : forall A B (f : nat -> A -> result B) l, (forall a, ends (fun k => f k a)) -> ends (fun k => mapM (f k) l).
Proof.
  intros A B f l H. induction l as [|a l IH]; [exact (ends_fin _ (Ok []) ltac:(discriminate))|].
  change (ends (fun k => bind (f k a) (fun b => bind (mapM (f k) l) (fun bs => Ok (b :: bs))))).
  apply ends_bind; [apply H|]. intros b _ _. apply ends_bind; [exact IH|]. intros bs _ _. apply ends_fin. discriminate.
Qed.
Lemma ends_fin_bind : forall A B (r : result A) (g : nat -> A -> result B), fin r -> (forall a, r = Ok a -> ends (fun k => g k a)) ->
  ends (fun k => bind r (g k)).
Proof. intros A B r g Hr Hg. apply (ends_bind A B (fun _ => r)); [apply ends_fin; exact Hr|]. intros a n Ha. apply Hg. exact (Ha n (Nat.le_refl _)). Qed.

Lemma ends_calc : forall (ph : phase R) d, ends (fun n => ph_calcTime n ph d).
Proof.
  intros ph d. apply settled_ends; [apply below_settled; intros; apply e_calc; assumption|].
  destruct (C09_calcTime_terminates ph d) as [f0 H]. exists f0. apply H. lia.
Qed.
Lemma ends_pierce : forall (ph : phase R) d, ends (fun n => calcPierce n ph d).
Proof.
  intros ph d. unfold calcPierce. apply ends_bind; [apply ends_calc|]. intros l _ _. apply ends_fin. apply fin_mapM. intros a. apply f_pfa.
Qed.
Lemma ends_path : forall (ph : phase R) d, (forall w, s_meet (sm_layers (tm_sMod (ph_tMod ph)) w) /\ s_upright (sm_layers (tm_sMod (ph_tMod ph)) w)) ->
  ends (fun n => calcPath n ph d).
Proof.
  intros ph d G. unfold calcPath. apply ends_bind; [apply ends_calc|]. intros l _ _. apply ends_mapM. intros a.
  apply settled_ends; [apply below_settled; intros; apply e_patha; assumption|].
  exists (List.length (sm_P (tm_sMod (ph_tMod ph))) + List.length (sm_S (tm_sMod (ph_tMod ph))))%nat. apply f_pathfa.
  intros w. destruct (G w) as [A B]. split; [exact A|]. split; [exact B|]. destruct w; cbn [sm_layers]; lia.
Qed.
Section Query.
  Variable show : R -> string.
  Lemma correct_depth : forall n wd (t : tmodel R) x wd' t' r, tm_depthCorrect n wd t x = Ok (wd', t', r) -> tm_sourceDepth r = x.
  Proof.
    intros n wd t x wd' t' r Hd. unfold tm_depthCorrect in Hd. if_in Hd; [discriminate|]. if_in Hd; [discriminate|]. inv_as Hd as [[w' s'] d'] Hs. inv_as Hd as k Hk.
    apply (f_equal (fun o => match o with Ok (_, _, q) => tm_sourceDepth q | _ => R0 end)) in Hd. cbn [tm_sourceDepth] in Hd. congruence.
  Qed.
  Lemma recalc_keeps : forall wd (s s' : ttime R), recalcPhases show wd s = Ok s' -> tt_tModDepth s' = tt_tModDepth s.
  Proof. intros wd s s' H. unfold recalcPhases in H. inv_as H as l Hl. inversion H. reflexivity. Qed.
  Lemma ends_ttc : forall wd (s : ttime R) x,
    (tm_sourceDepth (tt_tModDepth s) <> x -> ends (fun n => tm_depthCorrect n wd (tt_tMod s) x)) ->
    ends (fun n => tt_depthCorrect show n wd s x) /\
    forall n wd' s', tt_depthCorrect show n wd s x = Ok (wd', s') -> tm_sourceDepth (tt_tModDepth s') = x /\ tt_sourceDepth s' = x.
  Proof.
    intros wd s x H. unfold tt_depthCorrect.
    destruct (negb (n_eqb (tm_sourceDepth (tt_tModDepth s)) x)) eqn:E.
    - assert (Ne : tm_sourceDepth (tt_tModDepth s) <> x).
      { intros F. apply negb_true_iff in E. rewrite F in E. rewrite (proj2 (Reqb_eq x x) eq_refl) in E. discriminate. }
      split.
      + apply ends_bind; [|intros [w' s'] _ _; apply ends_fin; discriminate].
        apply ends_bind; [exact (H Ne)|]. intros [[w' self] d'] _ _. apply ends_fin.
        apply fin_bind; [apply f_recalc|]. intros; discriminate.
      + intros n wd' s' Hd. inv_as Hd as [w1 s1] H1. inv_as H1 as [[w2 t2] d2] H2. inv_as H1 as s3 H3.
        assert (Es : tt_tModDepth s' = tt_tModDepth s3) by (inversion Hd; inversion H1; subst; reflexivity).
        split; [|inversion Hd; reflexivity]. rewrite Es, (recalc_keeps _ _ _ H3). cbn [tt_tModDepth]. exact (correct_depth _ _ _ _ _ _ _ H2).
    - assert (Eq : tm_sourceDepth (tt_tModDepth s) = x) by (apply negb_false_iff in E; apply Reqb_eq; exact E).
      split; [apply ends_fin; discriminate|]. intros n wd' s' Hd. cbn [bind] in Hd. inversion Hd; subst. auto.
  Qed.
  Lemma ends_calculate : forall wd (s : ttime R) deg, tm_sourceDepth (tt_tModDepth s) = tt_sourceDepth s -> ends (fun n => calculate show n wd s deg).
  Proof.
    intros wd s deg E. unfold calculate. apply ends_bind; [apply (proj1 (ends_ttc wd s (tt_sourceDepth s) (fun F => False_ind _ (F E))))|].
    intros [w' s'] _ _. apply ends_fin_bind; [apply f_recalc|]. intros s2 _.
    apply ends_bind; [|intros; apply ends_fin; discriminate]. unfold tt_calcTime.
    apply ends_bind; [|intros; apply ends_fin; discriminate]. apply ends_mapM. intros ph. apply ends_calc.
  Qed.
  Lemma ends_rerun : forall order wd (s : ttime R) ps x deg c,
    (tm_sourceDepth (tt_tModDepth s) <> x -> ends (fun n => tm_depthCorrect n wd (tt_tMod s) x)) ->
    ends (fun n => tt_rerun show n order wd s ps x deg c).
  Proof.
    intros order wd s ps x deg c H. unfold tt_rerun. apply ends_fin_bind; [apply f_degrees|]. intros d _.
    match goal with |- ends (fun k => bind (tt_depthCorrect show k wd ?u x) _) => destruct (ends_ttc wd u x H) as [A B] end.
    apply ends_bind; [exact A|]. intros [w' s'] n Hn. destruct (B n w' s' (Hn n (Nat.le_refl _))) as [E1 E2].
    apply ends_calculate. congruence.
  Qed.
  Lemma ends_times : forall order wd (t : tmodel R) x deg ps c,
    (tm_sourceDepth t <> x -> ends (fun n => tm_depthCorrect n wd t x)) ->
    ends (fun n => get_travel_times show n order wd t x deg ps c).
  Proof.
    intros. unfold get_travel_times, tt_run. apply ends_bind; [|intros [w' s'] _ _; apply ends_fin; discriminate].
    apply ends_rerun. assumption.
  Qed.
End Query.

(** Property C80: distance and time of a phase at a ray parameter do not depend on the order and direction of its legs, and add up when
    the legs of phases are joined. *)
From Coq Require Import ZArith Bool List String Reals Lia Lra Sorted Permutation.
From Verif Require Import Base Num PyStr VelocityModel SlownessLayer SlownessModel TauModel Legs SeismicPhase
  TauSpec CurveSpec CurveProofs CurveMainProofs CurveProps SlowRealProofs SlowBuildProofs RealRun JoinSpec.
Import ListNotations.
Local Open Scope string_scope.
Local Open Scope list_scope.
Local Open Scope R_scope.

Section Totals.
  Variables (t : tmodel R) (f : tbranch R -> list R) (i : Z).
  (** the sum over legs given by branch and wave type *)
  Inductive sum_over : list (Z * bool) -> R -> Prop :=
  | so_nil : sum_over [] 0
  | so_cons : forall (n : Z) (w : bool) l b x y, at_index (if w then tm_P t else tm_S t) n b -> at_index (f b) i x -> sum_over l y -> sum_over ((n, w) :: l) (x + y).
  Lemma total_sum : forall l y, legs_total t f i l y -> sum_over (map medium l) y.
  Proof. intros l y H. induction H; [constructor|]. econstructor; eassumption. Qed.
  Lemma sum_fun : forall l y, sum_over l y -> forall y', sum_over l y' -> y = y'.
  Proof.
    intros l y H. induction H as [|n w l b x y Hb Hx _ IH]; intros y' H'; inversion H' as [|n' w' l' b' x' y'' Hb' Hx' H'']; subst; [reflexivity|].
    assert (b' = b) by (eapply at_index_fun; eassumption). subst b'. assert (x' = x) by (eapply at_index_fun; eassumption). subst. rewrite (IH _ H''). reflexivity.
  Qed.
  Lemma sum_perm : forall l l', Permutation l l' -> forall y, sum_over l y -> sum_over l' y.
  Proof.
    intros l l' P. induction P as [|a l l' _ IH|a b l|l l' l'' _ IH1 _ IH2]; intros y H.
    - exact H.
    - inversion H; subst. econstructor; [eassumption|eassumption|]. apply IH. assumption.
    - inversion H as [|n w l0 b0 x y0 B0 X0 H0]; subst. inversion H0 as [|n' w' l1 b1 x1 y1 B1 X1 H1]; subst.
      replace (x + (x1 + y1)) with (x1 + (x + y1)) by ring. econstructor; [eassumption|eassumption|]. econstructor; eassumption.
    - apply IH2, IH1, H.
  Qed.
  Lemma sum_app : forall l y, sum_over l y -> forall l' y', sum_over l' y' -> sum_over (l ++ l') (y + y').
  Proof.
    intros l y H. induction H as [|n w l b x y Hb Hx _ IH]; intros l' y' H'; cbn [app]; [rewrite Rplus_0_l; exact H'|].
    rewrite Rplus_assoc. econstructor; [exact Hb|exact Hx|apply IH; exact H'].
  Qed.
End Totals.

Lemma last_sample_fun : forall l p i j, last_sample l p i -> last_sample l p j -> i = j.
Proof. intros l p i j Hi Hj. pose proof (last_sample_le l p p i j ltac:(lra) Hi Hj). pose proof (last_sample_le l p p j i ltac:(lra) Hj Hi). lia. Qed.

Section Model.
  Variables (show : R -> string) (w : list R) (t : tmodel R) (tid : Z).
  Hypothesis Hlen : List.length (tm_S t) = List.length (tm_P t).
  Hypothesis Dec : decreasing (tm_rayParams t).

  (** Each point of the curve comes from the last sample that is not below its ray parameter. *)
  Theorem C80_sample : forall name ph p d tm, plain show w t tid name ph -> In (p, d, tm) (curve_of ph) ->
    exists i, last_sample (tm_rayParams t) p i /\ legs_total t tb_dist i (ph_seq ph) d /\ legs_total t tb_time i (ph_seq ph) tm.
  Proof.
    intros name ph p d tm [H [Hne [Hr [Nd [Nh Hz]]]]] Hin.
    destruct (C33_sum_of_legs_no_zone show w t tid name ph H Hne Hlen Hr Nd Nh Hz) as [lo [hi [Hlo [Hhi [[L [_ C]]|[L [d0 [t0 [Ec [Td Tt]]]]]]]]]].
    - apply In_nth_error in Hin. destruct Hin as [k Hk]. destruct (C k p d tm Hk) as [C1 [C2 C3]]. exists (lo + Z.of_nat k)%Z.
      destruct Hlo as [L0 _]. split; [|auto]. split; [lia|]. apply at_index_nonneg in C1; [|lia]. split; [exists p; split; [exact C1|lra]|].
      intros j r Hj Hrj. exact (nth_decreasing _ _ _ _ _ Dec Hj C1 Hrj).
    - rewrite Ec in Hin. exists lo. rewrite <- L in Hhi. destruct Hin as [E|[E|[]]]; injection E as <- <- <-; auto.
  Qed.

  (** Two phases whose legs pass the same branches as the same wave types have, at the same ray parameter, the same distance and time. *)
  Theorem C80_order : forall n1 n2 A B p d1 t1 d2 t2, plain show w t tid n1 A -> plain show w t tid n2 B ->
    same_media (ph_seq A) (ph_seq B) -> In (p, d1, t1) (curve_of A) -> In (p, d2, t2) (curve_of B) -> d1 = d2 /\ t1 = t2.
  Proof.
    intros n1 n2 A B p d1 t1 d2 t2 PA PB Sm IA IB.
    destruct (C80_sample n1 A p d1 t1 PA IA) as [i [Li [Di Ti]]]. destruct (C80_sample n2 B p d2 t2 PB IB) as [j [Lj [Dj Tj]]].
    assert (j = i) by (eapply last_sample_fun; eassumption). subst j. split.
    - eapply (sum_fun t tb_dist i); [apply (sum_perm t tb_dist i _ _ Sm), total_sum; exact Di|apply total_sum; exact Dj].
    - eapply (sum_fun t tb_time i); [apply (sum_perm t tb_time i _ _ Sm), total_sum; exact Ti|apply total_sum; exact Tj].
  Qed.

  (** If the legs of C are those of A and of B together, its distance and time are the sums of theirs. *)
  Theorem C80_join : forall n1 n2 n3 A B C p d1 t1 d2 t2 d3 t3, plain show w t tid n1 A -> plain show w t tid n2 B -> plain show w t tid n3 C ->
    same_media (ph_seq C) (ph_seq A ++ ph_seq B) ->
    In (p, d1, t1) (curve_of A) -> In (p, d2, t2) (curve_of B) -> In (p, d3, t3) (curve_of C) -> d3 = d1 + d2 /\ t3 = t1 + t2.
  Proof.
    intros n1 n2 n3 A B C p d1 t1 d2 t2 d3 t3 PA PB PC Sm IA IB IC.
    destruct (C80_sample n1 A p d1 t1 PA IA) as [i [Li [Di Ti]]]. destruct (C80_sample n2 B p d2 t2 PB IB) as [j [Lj [Dj Tj]]].
    destruct (C80_sample n3 C p d3 t3 PC IC) as [k [Lk [Dk Tk]]].
    assert (j = i) by (eapply last_sample_fun; eassumption). assert (k = i) by (eapply last_sample_fun; eassumption). subst j k.
    unfold same_media in Sm. rewrite map_app in Sm. split.
    - eapply (sum_fun t tb_dist i); [apply (sum_perm t tb_dist i _ _ Sm), total_sum; exact Dk|apply sum_app; apply total_sum; assumption].
    - eapply (sum_fun t tb_time i); [apply (sum_perm t tb_time i _ _ Sm), total_sum; exact Tk|apply sum_app; apply total_sum; assumption].
  Qed.
End Model.
Print Assumptions C80_sample.
Print Assumptions C80_order.
Print Assumptions C80_join.

(** ** Hypotheses met: P, S, PS and SP of a model with three branches *)
Lemma ex_plain : forall name ph, newPhase x_show [] (x_t [] []) 0 name = Ok ph -> ph_rayParams ph <> [] -> ph_max ph <= 4 -> ~ diffracted name -> ~ head_wave name ->
  plain x_show [] (x_t [] []) 0 name ph.
Proof.
  intros name ph H Hne Hm Nd Nh. split; [exact H|]. split; [exact Hne|]. split; [exists 4; split; [left; reflexivity|exact Hm]|]. split; [exact Nd|]. split; [exact Nh|].
  intros z [[]|[]].
Qed.
Example C80_ex : exists P S PS SP,
  (plain x_show [] (x_t [] []) 0 "P" P /\ plain x_show [] (x_t [] []) 0 "S" S /\ plain x_show [] (x_t [] []) 0 "PS" PS /\ plain x_show [] (x_t [] []) 0 "SP" SP) /\
  (same_media (ph_seq PS) (ph_seq SP) /\ ph_seq PS <> ph_seq SP /\ same_media (ph_seq SP) (ph_seq P ++ ph_seq S)) /\
  curve_of PS = [(4, 4, 20); (3, 20, 52); (2, 40, 76); (1, 72, 100)] /\
  (exists d tm d' tm', In (3, d, tm) (curve_of P) /\ In (3, d', tm') (curve_of S) /\ d + d' = 20 /\ tm + tm' = 52).
Proof.
  eassert (HP : newPhase x_show [] (x_t [] []) 0 "P" = Ok _) by run. eassert (HS : newPhase x_show [] (x_t [] []) 0 "S" = Ok _) by run.
  eassert (HPS : newPhase x_show [] (x_t [] []) 0 "PS" = Ok _) by run. eassert (HSP : newPhase x_show [] (x_t [] []) 0 "SP" = Ok _) by run.
  match type of HP with _ = Ok ?p => set (P := p) in * end. match type of HS with _ = Ok ?p => set (S := p) in * end.
  match type of HPS with _ = Ok ?p => set (PS := p) in * end. match type of HSP with _ = Ok ?p => set (SP := p) in * end.
  exists P, S, PS, SP. split.
  { split; [|split; [|split]]; apply ex_plain; try assumption; try discriminate; try (cbn; lra); intros [X|X]; not_in X. }
  assert (Ms : same_media (ph_seq SP) (ph_seq P ++ ph_seq S)).
  { unfold same_media. rewrite map_app. etransitivity; [|apply Permutation_app_comm]. rewrite <- map_app. reflexivity. }
  split; [split; [|split; [cbn; discriminate|exact Ms]]|].
  { unfold same_media in *. etransitivity; [|symmetry; exact Ms]. reflexivity. }
  split; [reflexivity|].
  assert (EP : exists d tm, nth_error (curve_of P) 1 = Some (3, d, tm)) by (cbn; eauto). assert (ES : exists d tm, nth_error (curve_of S) 1 = Some (3, d, tm)) by (cbn; eauto).
  destruct EP as [d [tm EP]], ES as [d' [tm' ES]]. exists d, tm, d', tm'. split; [eapply nth_error_In; exact EP|]. split; [eapply nth_error_In; exact ES|].
  cbn in EP, ES. injection EP as <- <-. injection ES as <- <-. lra.
Qed.

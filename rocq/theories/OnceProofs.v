(** Proofs for C76. *)
From Coq Require Import ZArith Bool List String Reals Lia Lra Psatz.
From Verif Require Import Base Num TauModel SeismicPhase TimeSpec CalcTimeProofs TimeProps ChordSpec ChordProofs EchoSpec EchoProofs OnceSpec.
Import ListNotations.
Local Open Scope list_scope.
Local Open Scope R_scope.

Definition one_pass (l : list R) (i : nat) (s : R) : Prop :=
  exists d0 d1, nth_error l i = Some d0 /\ nth_error l (S i) = Some d1 /\ TimeSpec.between d0 s d1 /\ (s = d1 -> S (S i) = List.length l).

(** the step at which a growing sequence passes a number *)
Lemma grow_step : forall (l : list R) (f : R -> R) s, (2 <= List.length l)%nat ->
  (forall i j x y, (i < j)%nat -> nth_error l i = Some x -> nth_error l j = Some y -> f x < f y) ->
  (exists d d', In d l /\ In d' l /\ f d <= s <= f d') ->
  exists i d0 d1, nth_error l i = Some d0 /\ nth_error l (S i) = Some d1 /\ f d0 <= s <= f d1 /\ (s = f d1 -> S (S i) = List.length l).
Proof.
  induction l as [|a l IH]; intros f s L G [d [d' [Hd [Hd' B]]]]; [cbn in L; lia|].
  destruct l as [|b l]; [cbn in L; lia|].
  assert (Gt : forall i j x y, (i < j)%nat -> nth_error (b :: l) i = Some x -> nth_error (b :: l) j = Some y -> f x < f y)
    by (intros i j x y Hij Hx Hy; apply (G (S i) (S j) x y); [lia|exact Hx|exact Hy]).
  assert (A : f a <= s).
  { apply In_nth_error in Hd. destruct Hd as [[|k] Hk]; [injection Hk as ->; lra|]. pose proof (G 0%nat (S k) a d ltac:(lia) eq_refl Hk). lra. }
  destruct l as [|c l].
  - exists 0%nat, a, b. split; [reflexivity|]. split; [reflexivity|]. split; [|reflexivity]. split; [exact A|].
    pose proof (G 0%nat 1%nat a b ltac:(lia) eq_refl eq_refl). destruct Hd' as [->|[->|[]]]; lra.
  - destruct (Rlt_or_le s (f b)) as [Lb|Lb].
    + exists 0%nat, a, b. split; [reflexivity|]. split; [reflexivity|]. split; [lra|]. intros; lra.
    + destruct (IH f s ltac:(cbn; lia) Gt) as [i [d0 [d1 [H0 [H1 [H2 H3]]]]]].
      { exists b, d'. split; [left; reflexivity|]. destruct Hd' as [<-|Hd']; [|split; [exact Hd'|lra]].
        exfalso. pose proof (G 0%nat 1%nat a b ltac:(lia) eq_refl eq_refl). lra. }
      exists (S i), d0, d1. split; [exact H0|]. split; [exact H1|]. split; [exact H2|]. intros E. cbn [List.length] in *. rewrite (H3 E). reflexivity.
Qed.
Lemma pass_exists : forall l s, (2 <= List.length l)%nat -> grows l \/ shrinks l -> spanned l s -> exists i, one_pass l i s.
Proof.
  intros l s L [G|G] [d [d' [Hd [Hd' B]]]].
  - destruct (grow_step l (fun x => x) s L G) as [i [d0 [d1 [H0 [H1 [H2 H3]]]]]]; [eauto|].
    exists i, d0, d1. split; [exact H0|]. split; [exact H1|]. split; [left; exact H2|exact H3].
  - destruct (grow_step l (fun x => - x) (- s) L) as [i [d0 [d1 [H0 [H1 [H2 H3]]]]]].
    { intros i j x y Hij Hx Hy. pose proof (G i j x y Hij Hx Hy). lra. } { exists d', d. split; [exact Hd'|]. split; [exact Hd|lra]. }
    exists i, d0, d1. split; [exact H0|]. split; [exact H1|]. split; [right; lra|]. intros E. apply H3. lra.
Qed.
Lemma pass_once : forall l i j s, grows l \/ shrinks l -> one_pass l i s -> one_pass l j s -> i = j.
Proof.
  assert (K : forall l i j s, grows l \/ shrinks l -> one_pass l i s -> one_pass l j s -> (i < j)%nat -> False).
  { intros l i j s G [d0 [d1 [H0 [H1 [B E]]]]] [e0 [e1 [J0 [J1 [B' E']]]]] Hij.
    assert (Lj : (S j < List.length l)%nat) by (apply nth_error_Some; congruence).
    assert (X : s <> d1) by (intros X; specialize (E X); lia).
    assert (Y : S i = j \/ (S i < j)%nat) by lia.
    destruct G as [G|G]; pose proof (G i (S i) d0 d1 ltac:(lia) H0 H1) as U; pose proof (G j (S j) e0 e1 ltac:(lia) J0 J1) as V;
      (destruct Y as [<-|Y]; [assert (e0 = d1) by congruence; subst e0|pose proof (G (S i) j d1 e0 Y H1 J0) as W]);
      destruct B, B'; lra. }
  intros l i j s G Hi Hj. destruct (Nat.lt_trichotomy i j) as [X|[X|X]]; [exfalso; exact (K l i j s G Hi Hj X)|exact X|exfalso; exact (K l j i s G Hj Hi X)].
Qed.

Lemma once : forall fuel (ph : phase R) deg l x, ph_calcTime fuel ph deg = Ok l ->
  List.length (ph_rayParams ph) = List.length (ph_dist ph) -> (2 <= List.length (ph_dist ph))%nat -> shrinks (ph_rayParams ph) ->
  grows (ph_dist ph) \/ shrinks (ph_dist ph) -> (forall d, In d (ph_dist ph) -> 0 <= d <= PI /\ d <= ph_maxDist ph) ->
  folded deg x -> x <> 0 ->
  (spanned (ph_dist ph) (rad x) /\ exists a, l = [a] /\ ar_dist a = rad x) \/ (~ spanned (ph_dist ph) (rad x) /\ l = []).
Proof.
  intros fuel ph deg l x Hc Ln L2 Hp G Hd [Hx Cx] X0. pose proof PI_RGT_0 as HP. fold (rad deg) in *.
  pose proof (C07_exact fuel ph deg l Hc ltac:(intros d Id; specialize (Hd d Id); lra)) as Ex. fold (rad deg) in Ex.
  assert (Hr : 0 <= rad x <= PI) by (unfold rad; split; [nra|nra]).
  assert (C1 : cos (deg * PI / 180) <> 1).
  { fold (rad deg). rewrite <- Cx. intros E. rewrite <- cos_0 in E. apply cos_inj in E; [|lra|lra]. unfold rad in E. assert (x * PI = 0) by lra. nra. }
  pose proof (C07_reported_once fuel ph deg l Hc C1) as Nd.
  assert (P : forall i s, passes (ph_dist ph) (ph_rayParams ph) i s <-> one_pass (ph_dist ph) i s).
  { intros i s. split.
    - intros [d0 [d1 [p0 [p1 [A [B [_ [_ [C [D _]]]]]]]]]]. exists d0, d1. auto.
    - intros [d0 [d1 [A [B [C D]]]]]. assert (Li : (S i < List.length (ph_dist ph))%nat) by (apply nth_error_Some; congruence).
      destruct (nth_error (ph_rayParams ph) i) as [p0|] eqn:E0; [|apply nth_error_None in E0; lia].
      destruct (nth_error (ph_rayParams ph) (S i)) as [p1|] eqn:E1; [|apply nth_error_None in E1; lia].
      exists d0, d1, p0, p1. do 6 (split; [first [assumption|reflexivity]|]). intros ->. exfalso. pose proof (Hp i (S i) p1 p1 ltac:(lia) E0 E1). lra. }
  assert (One : forall a, In a l -> ar_dist a = rad x /\ exists i, ar_index a = Z.of_nat i /\ one_pass (ph_dist ph) i (rad x)).
  { intros a Ha. destruct (C07_no_arrival_invented fuel ph deg l a Hc Ha) as [i [Ei Pa]].
    destruct (proj1 (Ex i (ar_dist a)) ltac:(eauto)) as [Ca _]. apply P in Pa.
    assert (Ed : ar_dist a = rad x).
    { destruct Pa as [d0 [d1 [A [B [C _]]]]]. apply nth_error_In in A, B. apply Hd in A, B. unfold TimeSpec.between in C.
      apply cos_inj; [lra|lra|congruence]. }
    rewrite Ed in Pa. eauto. }
  assert (Sp : forall i, one_pass (ph_dist ph) i (rad x) -> spanned (ph_dist ph) (rad x)).
  { intros i [d0 [d1 [A [B [C _]]]]]. apply nth_error_In in A, B. unfold spanned. destruct C as [C|C]; [exists d0, d1|exists d1, d0]; auto. }
  destruct l as [|a [|a' l]].
  - right. split; [|reflexivity]. intros S. destruct (pass_exists _ _ L2 G S) as [i Pi]. apply P in Pi.
    destruct (proj2 (Ex i (rad x))) as [a [[] _]]. split; [exact Cx|exact Pi].
  - left. destruct (One a (or_introl eq_refl)) as [Ed [i [_ Pi]]]. split; [exact (Sp i Pi)|]. eauto.
  - exfalso. destruct (One a (or_introl eq_refl)) as [Ed [i [Ei Pi]]]. destruct (One a' (or_intror (or_introl eq_refl))) as [Ed' [i' [Ei' Pi']]].
    pose proof (pass_once _ _ _ _ G Pi Pi') as <-. cbn in Nd. inversion Nd as [|? ? N _]. apply N. left. congruence.
Qed.

(** the farther a line passes from the centre, the less of the sphere it spans *)
Lemma angle_mono : forall a a' r, 0 <= a < a' -> a' <= r -> 0 < r -> line_angle a' r < line_angle a r.
Proof.
  intros a a' r Ha La Hr. destruct (angle_straight a r ltac:(lra) Hr) as [A [B _]]. destruct (angle_straight a' r ltac:(lra) Hr) as [A' [B' _]].
  destruct (Rlt_or_le (line_angle a' r) (line_angle a r)) as [L|L]; [exact L|]. exfalso.
  assert (cos (line_angle a' r) <= cos (line_angle a r)) by (apply cos_decr_1; pose proof PI_RGT_0; lra). nra.
Qed.
(** and the more of the shell between two spheres *)
Lemma echo_mono : forall a a' q r, 0 <= a < a' -> a' <= q -> 0 < q -> q < r ->
  line_angle a r - line_angle a q < line_angle a' r - line_angle a' q.
Proof.
  intros a a' q r Ha La Hq Hr. pose proof PI_RGT_0 as HP.
  destruct (echo_ok a q r ltac:(lra) Hq Hr) as [A [B C]]. destruct (echo_ok a' q r ltac:(lra) Hq Hr) as [A' [B' C']]. cbv zeta in *.
  pose proof (echo_tangent a q r _ ltac:(lra) Hq Hr ltac:(split; [apply (proj1 A')|lra]) B') as T. rewrite C' in T.
  pose proof (echo_tangent a' q r _ ltac:(lra) Hq Hr ltac:(split; [apply (proj1 A)|lra]) B) as T'. rewrite C in T'.
  set (x := line_angle a r - line_angle a q) in *. set (x' := line_angle a' r - line_angle a' q) in *.
  assert (W : x <= x') by nra. destruct W as [W|W]; [exact W|]. exfalso. rewrite W, C' in C.
  assert (Q : forall u s, 0 <= u <= s -> 0 < s -> 0 <= line_length u s /\ line_length u s * line_length u s = s * s - u * u).
  { intros u s Hu Hs. destruct (angle_in u s (proj1 Hu) Hs (proj2 Hu)) as [_ ->]. split; [apply sqrt_pos|apply sqrt_sqrt; nra]. }
  destruct (Q a r ltac:(lra) ltac:(lra)) as [N1 E1]. destruct (Q a q ltac:(lra) Hq) as [N2 E2].
  destruct (Q a' r ltac:(lra) ltac:(lra)) as [N3 E3]. destruct (Q a' q ltac:(lra) Hq) as [N4 E4].
  set (R1 := line_length a r) in *. set (Q1 := line_length a q) in *. set (R2 := line_length a' r) in *. set (Q2 := line_length a' q) in *.
  assert (D : (R1 - Q1) * (R1 + Q1) = (R1 - Q1) * (R2 + Q2)).
  { replace ((R1 - Q1) * (R2 + Q2)) with ((R2 - Q2) * (R2 + Q2)) by (rewrite C; reflexivity). nra. }
  assert (P : 0 < (R1 - Q1) * (R1 + Q1)) by nra.
  assert (Z : R1 - Q1 <> 0) by (intros Z; rewrite Z in P; lra).
  apply Rmult_eq_reg_l in D; [|exact Z]. assert (R1 = R2) by lra. nra.
Qed.

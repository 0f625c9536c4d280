(** Property C84: a depth phase (pP, sP, pPKP, ...) is later than its direct phase by the two upgoing rays. *)
From Coq Require Import ZArith Bool List String Reals Lia Lra Sorted Permutation.
From Verif Require Import Base Num PyStr VelocityModel SlownessLayer SlownessModel TauModel Legs SeismicPhase
  TauSpec CurveSpec CurveProofs CurveMainProofs CurveProps SlowRealProofs SlowBuildProofs RealRun NameSpec RouteSpec RouteProps
  JoinSpec JoinProps SurfaceSpec SurfaceProps AppendSpec AppendProps DepthSpec.
Import ListNotations.
Local Open Scope string_scope.
Local Open Scope list_scope.
Local Open Scope R_scope.

Lemma branches_split : forall a b c, (0 <= a <= b)%Z -> (b <= c)%Z -> RouteSpec.branches a c = RouteSpec.branches a b ++ RouteSpec.branches b c.
Proof.
  intros a b c H1 H2. unfold RouteSpec.branches. rewrite <- map_app. f_equal.
  replace (Z.to_nat c - Z.to_nat a)%nat with ((Z.to_nat b - Z.to_nat a) + (Z.to_nat c - Z.to_nat b))%nat by lia. rewrite seq_app.
  do 2 f_equal. lia.
Qed.
Lemma down_split : forall w a b c, (0 <= a <= b)%Z -> (b <= c)%Z -> down w a c = down w a b ++ down w b c.
Proof. intros w a b c H1 H2. unfold down. rewrite (branches_split a b c H1 H2), map_app. reflexivity. Qed.
Lemma up_down : forall w a b, Permutation (map of_crossing (up w a b)) (map of_crossing (down w a b)).
Proof.
  intros w a b. unfold up, down. rewrite !map_map. cbn [of_crossing]. apply Permutation_map. symmetry. apply Permutation_rev.
Qed.

Section Rays.
  Variables moho cmb iocb n : Z.
  (** the same legs from the source and from the surface *)
  Lemma start_changes : forall src m l p, mantle_leg m (String.eqb m "P") -> rays moho cmb iocb n src (m :: l) p ->
    exists r, p = down (String.eqb m "P") src cmb ++ r /\ rays moho cmb iocb n 0 (m :: l) (down (String.eqb m "P") 0 cmb ++ r).
  Proof.
    intros src m l p Hm H.
    assert (One : forall q pq, ray moho cmb iocb n src q pq -> hd "" q = m -> exists r, pq = down (String.eqb m "P") src cmb ++ r /\ ray moho cmb iocb n 0 q (down (String.eqb m "P") 0 cmb ++ r)).
    { intros q pq Hq. destruct Hq as [x w Hx|x w y v Hx Hy|x w k w' path y v Hx Hk Hy|x w Hx]; cbn [hd]; intros E.
      - subst x. assert (w = String.eqb m "P") by (destruct Hx; reflexivity). subst w. eexists. split; [reflexivity|]. apply ra_turn. exact Hx.
      - subst x. assert (w = String.eqb m "P") by (destruct Hx; reflexivity). subst w. eexists. split; [reflexivity|]. apply ra_reflect; assumption.
      - subst x. assert (w = String.eqb m "P") by (destruct Hx; reflexivity). subst w. eexists. split; [reflexivity|]. eapply ra_core; eassumption.
      - exfalso. subst m. inversion Hm; destruct Hx; discriminate. }
    remember (m :: l) as q eqn:Eq. destruct H as [start q p Hq|start q p l' p' Hq Hr].
    - destruct (One q p Hq ltac:(rewrite Eq; reflexivity)) as [r [-> Hr]]. exists r. split; [reflexivity|]. apply rs_one. exact Hr.
    - assert (E : hd "" q = m). { destruct q as [|a q]; [inversion Hq|]. injection Eq as <- _. reflexivity. }
      destruct (One q p Hq E) as [r [-> Hr']]. exists (r ++ p'). rewrite !app_assoc. split; [reflexivity|]. apply rs_more; assumption.
  Qed.
End Rays.

Section Model.
  Variables (show : R -> string) (w : list R) (t : tmodel R) (tid : Z).
  Hypothesis Hs : shallow t.
  Hypothesis Dec : decreasing (tm_rayParams t).
  Let Hlen := proj2 (proj2 (proj2 Hs)).

  (** With [A] the direct phase of first leg [m], [D] the phase that goes up as [x] first, [X] that upgoing ray alone and [U] the upgoing ray
      of the type of [m]: at one ray parameter, distance and time of [D] are those of [A], [X] and [U] together. *)
  Theorem C84_depth : forall x m u l q A D X U p dA tA dD tD dX tX dU tU,
    (x = "p" \/ x = "s") -> upgoing m u ->
    rays (tm_mohoBranch t) (tm_cmbBranch t) (tm_iocbBranch t) (Z.of_nat (List.length (tm_P t))) (tm_sourceBranch t) (m :: l) q ->
    plain show w t tid (join (m :: l)) A -> plain show w t tid (join (x :: m :: l)) D -> plain show w t tid (join [x]) X -> plain show w t tid (join [u]) U ->
    In (p, dA, tA) (curve_of A) -> In (p, dD, tD) (curve_of D) -> In (p, dX, tX) (curve_of X) -> In (p, dU, tU) (curve_of U) ->
    dD = dA + dX + dU /\ tD = tA + tX + tU.
  Proof.
    intros x m u l q A D X U p dA tA dD tD dX tX dU tU Hx Hu Hq PA PD PX PU IA ID IX IU.
    destruct (C80_sample show w t tid Hlen Dec _ A p dA tA PA IA) as [i [Li [A1 A2]]]. destruct (C80_sample show w t tid Hlen Dec _ D p dD tD PD ID) as [i2 [Li2 [D1 D2]]].
    destruct (C80_sample show w t tid Hlen Dec _ X p dX tX PX IX) as [i3 [Li3 [X1 X2]]]. destruct (C80_sample show w t tid Hlen Dec _ U p dU tU PU IU) as [i4 [Li4 [U1 U2]]].
    assert (i2 = i) by (eapply last_sample_fun; eassumption). assert (i3 = i) by (eapply last_sample_fun; eassumption). assert (i4 = i) by (eapply last_sample_fun; eassumption). subst i2 i3 i4.
    apply total_sum in A1, A2, D1, D2, X1, X2, U1, U2.
    assert (Hm : mantle_leg m (String.eqb m "P")) by (destruct Hu as [[-> _]|[-> _]]; constructor).
    assert (Hul : up_leg u (String.eqb m "P")) by (destruct Hu as [[-> ->]|[-> ->]]; constructor).
    assert (Hxl : exists v, up_leg x v) by (destruct Hx as [->| ->]; eexists; constructor). destruct Hxl as [v Hxl].
    destruct (start_changes _ _ _ _ _ _ _ _ Hm Hq) as [r [-> Hr]]. set (y := String.eqb m "P") in *.
    destruct Hs as [S0 [S1 [S2 S3]]].
    rewrite (whole_media show w t tid Hs _ _ A (te_down _ _ _ _ _ _ _ (ar_plain _ _ _ _ _ _ _ Hq)) PA) in A1, A2.
    rewrite (whole_media show w t tid Hs _ _ X (te_up _ _ _ _ _ _ _ Hxl) PX) in X1, X2.
    rewrite (whole_media show w t tid Hs _ _ U (te_up _ _ _ _ _ _ _ Hul) PU) in U1, U2.
    rewrite (whole_media show w t tid Hs _ _ D (te_depth _ _ _ _ _ _ _ _ _ Hxl (ar_plain _ _ _ _ _ _ _ Hr)) PD) in D1, D2.
    assert (P : Permutation (map of_crossing (up v 0 (tm_sourceBranch t) ++ down y 0 (tm_cmbBranch t) ++ r))
      ((map of_crossing (down y (tm_sourceBranch t) (tm_cmbBranch t) ++ r) ++ map of_crossing (up v 0 (tm_sourceBranch t))) ++ map of_crossing (up y 0 (tm_sourceBranch t)))).
    { rewrite (down_split y 0 (tm_sourceBranch t) (tm_cmbBranch t)) by lia. rewrite <- app_assoc, map_app. rewrite (map_app _ (down y 0 _)).
      etransitivity; [apply Permutation_app_comm|]. rewrite <- !app_assoc. etransitivity; [apply Permutation_app_comm|]. rewrite <- !app_assoc. apply Permutation_app_head, Permutation_app_head.
      symmetry. apply up_down. }
    split.
    - eapply (sum_fun t tb_dist i); [apply (sum_perm t tb_dist i _ _ P); exact D1|]. apply sum_app; [apply sum_app|]; assumption.
    - eapply (sum_fun t tb_time i); [apply (sum_perm t tb_time i _ _ P); exact D2|]. apply sum_app; [apply sum_app|]; assumption.
  Qed.
End Model.
Print Assumptions C84_depth.

(** ** Hypotheses met: S, pS, p and s from a source below the first branch *)
Example C84_ex : exists A D X U, plain x_show [] (q_t 1) 0 (join ["S"]) A /\ plain x_show [] (q_t 1) 0 (join ["p"; "S"]) D /\
  plain x_show [] (q_t 1) 0 (join ["p"]) X /\ plain x_show [] (q_t 1) 0 (join ["s"]) U /\
  shallow (q_t 1) /\ decreasing (tm_rayParams (q_t 1)) /\ upgoing "S" "s" /\ (exists p, rays 1 2 3 4 1 ["S"] p) /\
  In (3, 8, 19) (curve_of A) /\ In (3, 12, 33) (curve_of D) /\ In (3, 2, 7) (curve_of X) /\ In (3, 2, 7) (curve_of U).
Proof.
  eassert (H1 : newPhase x_show [] (q_t 1) 0 "S" = Ok _) by run. eassert (H2 : newPhase x_show [] (q_t 1) 0 "pS" = Ok _) by run.
  eassert (H3 : newPhase x_show [] (q_t 1) 0 "p" = Ok _) by run. eassert (H4 : newPhase x_show [] (q_t 1) 0 "s" = Ok _) by run.
  match type of H1 with _ = Ok ?p => set (A := p) in * end. match type of H2 with _ = Ok ?p => set (D := p) in * end.
  match type of H3 with _ = Ok ?p => set (X := p) in * end. match type of H4 with _ = Ok ?p => set (U := p) in * end.
  exists A, D, X, U.
  split; [apply q1_plain; [exact H1|discriminate|cbn; lra|intros [Y|Y]; not_in Y|intros [Y|Y]; not_in Y]|].
  split; [apply q1_plain; [exact H2|discriminate|cbn; lra|intros [Y|Y]; not_in Y|intros [Y|Y]; not_in Y]|].
  split; [apply q1_plain; [exact H3|discriminate|cbn; lra|intros [Y|Y]; not_in Y|intros [Y|Y]; not_in Y]|].
  split; [apply q1_plain; [exact H4|discriminate|cbn; lra|intros [Y|Y]; not_in Y|intros [Y|Y]; not_in Y]|].
  split; [repeat split; cbn; lia|]. split; [exact q_decreasing|]. split; [right; split; reflexivity|].
  split; [eexists; apply rs_one, ra_turn, ml_S|].
  cbn. do 3 (split; [left; reflexivity|]). left; reflexivity.
Qed.

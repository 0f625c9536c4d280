(** Property C83: what a further surface reflection adds does not depend on the way to it, for any source depth. *)
From Coq Require Import ZArith Bool List String Reals Lia Lra Sorted Permutation.
From Verif Require Import Base Num PyStr VelocityModel SlownessLayer SlownessModel TauModel Legs SeismicPhase
  TauSpec CurveSpec CurveProofs CurveMainProofs CurveProps SlowRealProofs SlowBuildProofs RealRun NameSpec RouteSpec RouteProps
  JoinSpec JoinProps SurfaceSpec SurfaceProps AppendSpec.
Import ListNotations.
Local Open Scope string_scope.
Local Open Scope list_scope.
Local Open Scope R_scope.

Section Text.
  Variables source moho cmb iocb n : Z.
  Lemma from_app : forall start l p l' p', all_rays_from moho cmb iocb n start l p -> rays moho cmb iocb n 0 l' p' -> all_rays_from moho cmb iocb n start (l ++ l') (p ++ p').
  Proof.
    intros start l p l' p' H H'. induction H as [start l p H|start l p H|start l p l1 p1 H _ IH].
    - apply ar_plain, rays_app; assumption.
    - apply ar_more; [exact H|apply ar_plain; exact H'].
    - rewrite <- !app_assoc. apply ar_more; [exact H|apply IH; exact H'].
  Qed.
  Lemma textbook_app : forall l p l' p', textbook source moho cmb iocb n l p -> rays moho cmb iocb n 0 l' p' -> textbook source moho cmb iocb n (l ++ l') (p ++ p').
  Proof.
    intros l p l' p' H H'. destruct H as [l p H|x w H|x w l p Hx H].
    - apply te_down, from_app; assumption.
    - cbn [app]. apply te_depth; [exact H|apply ar_plain; exact H'].
    - rewrite <- app_assoc. cbn [app]. apply te_depth; [exact Hx|apply from_app; assumption].
  Qed.
End Text.

Lemma sum_app_inv : forall t f i l l' y, sum_over t f i (l ++ l') y -> exists y1 y2, sum_over t f i l y1 /\ sum_over t f i l' y2 /\ y = y1 + y2.
Proof.
  intros t f i l l'. induction l as [|a l IH]; intros y H; cbn [app] in H.
  - exists 0, y. split; [constructor|]. split; [exact H|lra].
  - inversion H as [|n w l0 b x y0 Hb Hx H0]; subst. destruct (IH _ H0) as [y1 [y2 [A [B ->]]]]. exists (x + y1), y2. split; [econstructor; eassumption|]. split; [exact B|lra].
Qed.

Section Model.
  Variables (show : R -> string) (w : list R) (t : tmodel R) (tid : Z).
  Hypothesis Hs : shallow t.
  Hypothesis Dec : decreasing (tm_rayParams t).
  (** legs [l] with crossings [p]: a whole phase; a part that starts and ends at the surface *)
  Let whole l p := textbook (tm_sourceBranch t) (tm_mohoBranch t) (tm_cmbBranch t) (tm_iocbBranch t) (Z.of_nat (List.length (tm_P t))) l p.
  Let part l p := rays (tm_mohoBranch t) (tm_cmbBranch t) (tm_iocbBranch t) (Z.of_nat (List.length (tm_P t))) 0 l p.
  Let Hlen := proj2 (proj2 (proj2 Hs)).

  Lemma whole_media : forall l p ph, whole l p -> plain show w t tid (join l) ph -> map medium (ph_seq ph) = map of_crossing p.
  Proof.
    intros l p ph Hp [H [Hne [Hr [Nd [Nh _]]]]]. destruct Hs as [S0 [S1 [S2 S3]]].
    destruct (C32_sequence show w t tid l p ph S0 S1 S2 S3 Hp H) as [E|[E _]].
    - rewrite <- E, map_map. apply map_ext. intros s. reflexivity.
    - exfalso. destruct (C33_sum_of_legs show w t tid (join l) ph H Hne S3 Hr Nd Nh) as [lo [hi [base [c1 [o1 [o2 [_ [_ [M _]]]]]]]]].
      rewrite E, Rlit_IZR in M. lra.
  Qed.

  (** Appending a part [l] to two phases [l1], [l2] adds the same distance and the same time to both, at the same ray parameter. *)
  Theorem C83_increment : forall l1 p1 l2 p2 l q A1 A2 B1 B2 p d1 t1 d2 t2 e1 u1 e2 u2,
    whole l1 p1 -> whole l2 p2 -> part l q ->
    plain show w t tid (join l1) A1 -> plain show w t tid (join l2) A2 -> plain show w t tid (join (l1 ++ l)) B1 -> plain show w t tid (join (l2 ++ l)) B2 ->
    In (p, d1, t1) (curve_of A1) -> In (p, d2, t2) (curve_of A2) -> In (p, e1, u1) (curve_of B1) -> In (p, e2, u2) (curve_of B2) ->
    e1 - d1 = e2 - d2 /\ u1 - t1 = u2 - t2.
  Proof.
    intros l1 p1 l2 p2 l q A1 A2 B1 B2 p d1 t1 d2 t2 e1 u1 e2 u2 W1 W2 Wl PA1 PA2 PB1 PB2 IA1 IA2 IB1 IB2.
    destruct (C80_sample show w t tid Hlen Dec _ A1 p d1 t1 PA1 IA1) as [i [Li [D1 T1]]]. destruct (C80_sample show w t tid Hlen Dec _ A2 p d2 t2 PA2 IA2) as [i2 [Li2 [D2 T2]]].
    destruct (C80_sample show w t tid Hlen Dec _ B1 p e1 u1 PB1 IB1) as [i3 [Li3 [E1 U1]]]. destruct (C80_sample show w t tid Hlen Dec _ B2 p e2 u2 PB2 IB2) as [i4 [Li4 [E2 U2]]].
    assert (i2 = i) by (eapply last_sample_fun; eassumption). assert (i3 = i) by (eapply last_sample_fun; eassumption). assert (i4 = i) by (eapply last_sample_fun; eassumption). subst i2 i3 i4.
    apply total_sum in D1, T1, D2, T2, E1, U1, E2, U2.
    rewrite (whole_media _ _ A1 W1 PA1) in D1, T1. rewrite (whole_media _ _ A2 W2 PA2) in D2, T2.
    rewrite (whole_media _ _ B1 (textbook_app _ _ _ _ _ _ _ _ _ W1 Wl) PB1), map_app in E1, U1. rewrite (whole_media _ _ B2 (textbook_app _ _ _ _ _ _ _ _ _ W2 Wl) PB2), map_app in E2, U2.
    destruct (sum_app_inv _ _ _ _ _ _ E1) as [x1 [y1 [X1 [Y1 ->]]]]. destruct (sum_app_inv _ _ _ _ _ _ E2) as [x2 [y2 [X2 [Y2 ->]]]].
    destruct (sum_app_inv _ _ _ _ _ _ U1) as [v1 [z1 [V1 [Z1 ->]]]]. destruct (sum_app_inv _ _ _ _ _ _ U2) as [v2 [z2 [V2 [Z2 ->]]]].
    rewrite (sum_fun _ _ _ _ _ X1 _ D1), (sum_fun _ _ _ _ _ X2 _ D2), (sum_fun _ _ _ _ _ Y1 _ Y2), (sum_fun _ _ _ _ _ V1 _ T1), (sum_fun _ _ _ _ _ V2 _ T2), (sum_fun _ _ _ _ _ Z1 _ Z2).
    lra.
  Qed.
  (** After the first surface reflection the parts may come in any order. *)
  Theorem C83_order : forall l1 p1 l q l' q' A B p d1 t1 d2 t2, whole l1 p1 -> part l q -> part l' q' ->
    plain show w t tid (join (l1 ++ l ++ l')) A -> plain show w t tid (join (l1 ++ l' ++ l)) B ->
    In (p, d1, t1) (curve_of A) -> In (p, d2, t2) (curve_of B) -> d1 = d2 /\ t1 = t2.
  Proof.
    intros l1 p1 l q l' q' A B p d1 t1 d2 t2 W1 Wl Wl' PA PB IA IB.
    apply (C80_order show w t tid Hlen Dec _ _ A B p d1 t1 d2 t2 PA PB); [|exact IA|exact IB].
    unfold same_media. rewrite (whole_media _ _ A (textbook_app _ _ _ _ _ _ _ _ _ W1 (rays_app _ _ _ _ _ _ _ _ _ Wl Wl')) PA),
      (whole_media _ _ B (textbook_app _ _ _ _ _ _ _ _ _ W1 (rays_app _ _ _ _ _ _ _ _ _ Wl' Wl)) PB), !map_app.
    apply Permutation_app_head, Permutation_app_comm.
  Qed.
End Model.
Print Assumptions C83_increment.
Print Assumptions C83_order.

(** ** Hypotheses met: P, PP, pP and pPP from a source below the first branch *)
Lemma q1_plain : forall name ph, newPhase x_show [] (q_t 1) 0 name = Ok ph -> ph_rayParams ph <> [] -> ph_max ph <= 4 -> ~ diffracted name -> ~ head_wave name ->
  plain x_show [] (q_t 1) 0 name ph.
Proof.
  intros name ph H Hne Hm Nd Nh. split; [exact H|]. split; [exact Hne|]. split; [exists 4; split; [left; reflexivity|exact Hm]|]. split; [exact Nd|]. split; [exact Nh|].
  intros z [[]|[]].
Qed.
Example C83_ex : exists A1 A2 B1 B2, plain x_show [] (q_t 1) 0 (join ["P"]) A1 /\ plain x_show [] (q_t 1) 0 (join ["p"; "P"]) A2 /\
  plain x_show [] (q_t 1) 0 (join (["P"] ++ ["P"])) B1 /\ plain x_show [] (q_t 1) 0 (join (["p"; "P"] ++ ["P"])) B2 /\
  shallow (q_t 1) /\ (exists p, textbook 1 1 2 3 4 ["P"] p) /\ (exists p, textbook 1 1 2 3 4 ["p"; "P"] p) /\ (exists p, rays 1 2 3 4 0 ["P"] p) /\
  exists p d1 t1 d2 t2 e1 u1 e2 u2, In (p, d1, t1) (curve_of A1) /\ In (p, d2, t2) (curve_of A2) /\ In (p, e1, u1) (curve_of B1) /\ In (p, e2, u2) (curve_of B2) /\
    d1 <> d2 /\ e1 - d1 = e2 - d2 /\ e1 - d1 = 10.
Proof.
  eassert (H1 : newPhase x_show [] (q_t 1) 0 "P" = Ok _) by run. eassert (H2 : newPhase x_show [] (q_t 1) 0 "pP" = Ok _) by run.
  eassert (H3 : newPhase x_show [] (q_t 1) 0 "PP" = Ok _) by run. eassert (H4 : newPhase x_show [] (q_t 1) 0 "pPP" = Ok _) by run.
  match type of H1 with _ = Ok ?p => set (A1 := p) in * end. match type of H2 with _ = Ok ?p => set (A2 := p) in * end.
  match type of H3 with _ = Ok ?p => set (B1 := p) in * end. match type of H4 with _ = Ok ?p => set (B2 := p) in * end.
  exists A1, A2, B1, B2.
  split; [apply q1_plain; [exact H1|discriminate|cbn; lra|intros [X|X]; not_in X|intros [X|X]; not_in X]|].
  split; [apply q1_plain; [exact H2|discriminate|cbn; lra|intros [X|X]; not_in X|intros [X|X]; not_in X]|].
  split; [apply q1_plain; [exact H3|discriminate|cbn; lra|intros [X|X]; not_in X|intros [X|X]; not_in X]|].
  split; [apply q1_plain; [exact H4|discriminate|cbn; lra|intros [X|X]; not_in X|intros [X|X]; not_in X]|].
  split; [repeat split; cbn; lia|].
  split; [eexists; apply te_down, ar_plain, rs_one, ra_turn, ml_P|]. split; [eexists; apply te_depth; [apply ul_p|apply ar_plain, rs_one, ra_turn, ml_P]|].
  split; [eexists; apply rs_one, ra_turn, ml_P|].
  exists 3, 8, 19, 12, 33, 18, 45, 22, 59. cbn. do 4 (split; [left; reflexivity|]). lra.
Qed.

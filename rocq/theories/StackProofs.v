(** Proofs about the continuity of the coarsely sampled layer stacks. *)
From Coq Require Import ZArith Bool List String Reals Lra Lia.
From Verif Require Import Base Num VelocityModel SlownessLayer SlownessModel VelSpec VelProofs
  SlowSpec SlowProofs SlowAddProofs SlowBuildProofs CritSpec CritProofs SlowRealProofs StackSpec.
Import ListNotations.
Local Open Scope string_scope.
Local Open Scope list_scope.
Local Open Scope num_scope.
Local Open Scope R_scope.

(** ** going back through sampling *)
Section Back.
  Context {T : Type} {N : Num T} {O : NumOrd T}.
  Local Open Scope num_scope.

  Lemma splice_join_back : forall p f (l : list (slayer T)), cuts p f l -> s_join (splice f l) -> s_join l.
  Proof.
    intros p f l. induction l as [|y l IH]; intros Hc Hm; [intros [|i]; discriminate|].
    rewrite splice_cons in Hm. destruct l as [|z l]; [apply s_join_one|].
    destruct (splice_head p f z l (cuts_tail _ _ _ _ Hc)) as [z' [l' [E [_ E1]]]].
    apply s_join_cons. destruct (f (sl_id y)) as [[a b]|] eqn:Ef; cbn [app] in Hm.
    - apply (Hc y a b) in Ef; [|left; reflexivity].
      destruct Ef as [[H1 [H2 [H3 [H4 [H5 [H6 H7]]]]]] H0].
      apply s_join_tail in Hm. split.
      + rewrite E in Hm. apply s_join_cons in Hm. rewrite <- H6, <- E1. tauto.
      + apply IH; [eapply cuts_tail; eassumption|eapply s_join_tail; exact Hm].
    - split.
      + rewrite E in Hm. apply s_join_cons in Hm. rewrite <- E1. tauto.
      + apply IH; [eapply cuts_tail; eassumption|eapply s_join_tail; exact Hm].
  Qed.

  Lemma addSlowness_join_back : forall (m : smodel T) p w m' v, addSlowness m p w = Ok m' -> ids_ok m ->
    s_join (sm_layers m' v) -> s_join (sm_layers m v).
  Proof.
    intros m p w m' v H Hid. apply addSlowness_spec in H; [|assumption].
    destruct H as [_ [_ [_ [f [A [B [C [D _]]]]]]]].
    assert (K : sm_layers m' v = splice f (sm_layers m v) /\ cuts p f (sm_layers m v)).
    { destruct (Bool.bool_dec v w) as [->|Hne].
      - split; [assumption|exact D].
      - assert (v = negb w) by (destruct v, w; try reflexivity; exfalso; apply Hne; reflexivity). subst v.
        split; [assumption|]. apply cuts_other; assumption. }
    destruct K as [K1 K2]. rewrite K1. apply splice_join_back with p. assumption.
  Qed.
End Back.

Lemma R_ok : forall x : R, n_ok x.
Proof. intros x. apply Reqb_eq. reflexivity. Qed.

Lemma samples_join : forall (m m' : smodel R) v, samples m m' -> ids_ok m ->
  (s_join (sm_layers m' v) <-> s_join (sm_layers m v)).
Proof.
  intros m m' v H. induction H as [m|m p w m1 m2 H S IH]; intros Hid; [tauto|].
  pose proof (addSlowness_spec m p w m1 H Hid) as [Hid1 _]. rewrite (IH Hid1). split.
  - eapply addSlowness_join_back; eassumption.
  - destruct (addSlowness_keeps m p w m1 v H Hid) as [_ [K _]]. apply K. apply R_ok.
Qed.

(** ** lists by their last element *)
Definition adj {A} (Q : A -> A -> Prop) (l : list A) : Prop :=
  forall i u v, nth_error l i = Some u -> nth_error l (S i) = Some v -> Q u v.
Lemma adj_one : forall {A} (Q : A -> A -> Prop) x, adj Q [x].
Proof. intros A Q x [|[|i]] u v H1 H2; discriminate. Qed.
Lemma adj_snoc : forall {A} (Q : A -> A -> Prop) l u x,
  adj Q ((l ++ [u]) ++ [x]) <-> adj Q (l ++ [u]) /\ Q u x.
Proof.
  intros A Q l u x. split.
  - intros H. split.
    + intros i a b Ha Hb. apply (H i a b); rewrite nth_error_app1; try assumption;
        apply nth_error_Some; congruence.
    + apply (H (List.length l)).
      * rewrite <- app_assoc, nth_error_app2, Nat.sub_diag by lia. reflexivity.
      * rewrite <- app_assoc, nth_error_app2 by lia.
        replace (S (List.length l) - List.length l)%nat with 1%nat by lia. reflexivity.
  - intros [H1 H2] i a b Ha Hb.
    destruct (Nat.lt_ge_cases (S i) (List.length (l ++ [u]))) as [L|L].
    + rewrite nth_error_app1 in Ha, Hb by lia. eapply H1; eassumption.
    + assert (E : S i = List.length (l ++ [u])).
      { apply Nat.le_antisymm; [|assumption].
        assert (S i < List.length ((l ++ [u]) ++ [x]))%nat by (apply nth_error_Some; congruence).
        rewrite app_length in H. cbn in H. lia. }
      rewrite nth_error_app2 in Hb by lia. rewrite E, Nat.sub_diag in Hb. inversion Hb; subst b.
      rewrite app_length in E. cbn in E. rewrite nth_error_app1 in Ha by (rewrite app_length; cbn; lia).
      rewrite nth_error_app2 in Ha by lia. replace (i - List.length l)%nat with 0%nat in Ha by lia.
      inversion Ha; subst a. assumption.
Qed.

(** ** the loop *)
Section Start.
  Variable m : smodel R.
  Let vm := sm_vMod m.
  Let innerS := sm_allowInnerCoreS m.
  Hypothesis Hc : contiguous (vm_layers vm).
  Hypothesis Ht : thick (vm_layers vm).
  Hypothesis Hl : forall l, In l (vm_layers vm) -> layer_ok l.
  Hypothesis Hf : fluid_runs (vm_layers vm) (sm_fluid m).

  (** the S stack follows the P velocity in this layer *)
  Definition as_P (v : vlayer R) : Prop :=
    vl_topS v = 0 \/ (innerS = false /\ vm_iocb vm <= vl_topDepth v).
  Lemma as_P_iff : forall v, In v (vm_layers vm) ->
    (depthInFluid m (vl_topDepth v) || (negb innerS && n_leb (vm_iocb vm) (vl_topDepth v)) = true <-> as_P v).
  Proof.
    intros v Hv. unfold as_P. rewrite orb_true_iff, andb_true_iff, negb_true_iff.
    assert (A : depthInFluid m (vl_topDepth v) = true <-> vl_topS v = 0).
    { unfold depthInFluid, in_fluid. rewrite existsb_exists. split.
      - intros [z [Hz Eb]]. apply andb_true_iff in Eb. destruct Eb as [E1 E2].
        apply Rleb_le in E1. apply Rltb_lt in E2.
        assert (F : fluid_layer v) by (eapply runs_fluid; eauto).
        apply Reqb_eq in F. rewrite n_0_R in F. assumption.
      - intros E. assert (F : fluid_layer v) by (apply Reqb_eq; rewrite n_0_R; assumption).
        destruct (fluid_in_zone _ _ _ Hf Hc Ht Hv F) as [z [Hz [Z1 Z2]]]. exists z. split; [assumption|].
        apply andb_true_iff. split; [apply Rleb_le|apply Rltb_lt]; assumption. }
    rewrite A. assert (B : n_leb (vm_iocb vm) (vl_topDepth v) = true <-> vm_iocb vm <= vl_topDepth v) by apply Rleb_le.
    rewrite B. tauto.
  Qed.

  (** slowness at the bottom / top of a layer *)
  Definition bot_of (w : bool) (v : vlayer R) : R := (6371 - vl_botDepth v) / (if w then vl_botP v else vl_botS v).
  Definition top_of (w : bool) (v : vlayer R) : R := (6371 - vl_topDepth v) / (if w then vl_topP v else vl_topS v).

  Lemma ends_R : forall w (v : vlayer R) tp bp, ends w v tp bp ->
    tp = top_of w v /\ bp = bot_of w v /\
    (if w then vl_topP v else vl_topS v) <> 0 /\ (if w then vl_botP v else vl_botS v) <> 0.
  Proof.
    intros w v tp bp [E1 E2]. apply py_div_R_inv in E1, E2. destruct E1 as [N1 E1], E2 as [N2 E2].
    cbn [n_sub Num_R] in E1, E2. assert (E6 : @n_lit R _ 6371 0 = 6371) by (exact (Rlit_0 6371)).
    rewrite E6 in *. unfold top_of, bot_of. auto.
  Qed.

  Definition joins (u v : vlayer R) : Prop :=
    innerS = true \/ ~ (vl_topDepth u < vm_iocb vm <= vl_topDepth v) \/
    vl_topS u = 0 \/ vl_botS u = vl_botP u \/ vl_botDepth u = 6371.

  Definition stack_inv (seen : list (vlayer R)) (prev : vlayer R) (Ps Ss : list (slayer R)) : Prop :=
    (exists d0, seen = d0 ++ [prev]) /\
    (exists P0 yp, Ps = P0 ++ [yp] /\ sl_botDepth yp = vl_botDepth prev /\ sl_botP yp = bot_of true prev) /\
    (exists S0 ys, Ss = S0 ++ [ys] /\ sl_botDepth ys = vl_botDepth prev /\
       ((as_P prev /\ sl_botP ys = bot_of true prev) \/ (~ as_P prev /\ sl_botP ys = bot_of false prev))) /\
    s_meet Ps /\ s_meet Ss /\ s_join Ps /\ (s_join Ss <-> adj joins seen).

  Lemma meet_snoc : forall l (u x : slayer R), s_meet ((l ++ [u]) ++ [x]) <->
    s_meet (l ++ [u]) /\ sl_botDepth u = sl_topDepth x.
  Proof.
    intros l u x. etransitivity; [apply (adj_snoc (fun a b => n_eqb (sl_botDepth a) (sl_topDepth b) = true))|].
    rewrite Reqb_eq. reflexivity.
  Qed.
  Lemma join_snoc : forall l (u x : slayer R), s_join ((l ++ [u]) ++ [x]) <->
    s_join (l ++ [u]) /\ sl_botP u = sl_topP x.
  Proof.
    intros l u x. etransitivity; [apply (adj_snoc (fun a b => n_eqb (sl_botP a) (sl_topP b) = true))|].
    rewrite Reqb_eq. reflexivity.
  Qed.

  Lemma layer_facts : forall v, In v (vm_layers vm) ->
    0 < vl_topP v /\ 0 < vl_botP v /\ (vl_topS v = 0 <-> vl_botS v = 0) /\ vl_topDepth v < vl_botDepth v.
  Proof.
    intros v Hv. pose proof (Hl v Hv) as [_ [A [B [_ [_ C]]]]]. apply Rltb_lt in A, B. rewrite n_0_R in A, B.
    rewrite !Reqb_eq, n_0_R in C. assert (vl_topDepth v < vl_botDepth v) by (apply Rltb_lt, Ht, Hv). auto.
  Qed.

  (** the layers a step appends *)
  Lemma coarse_step_out : forall Ps Ss next prev v st', In v (vm_layers vm) ->
    coarse_step m (Ps, Ss, next, prev) v = Ok st' ->
    exists Pz Sz next' cP cS, st' = (Ps ++ Pz ++ [cP], Ss ++ Sz ++ [cS], next', v) /\
      sl_topDepth cP = vl_topDepth v /\ sl_botDepth cP = vl_botDepth v /\
      sl_topP cP = top_of true v /\ sl_botP cP = bot_of true v /\
      sl_topDepth cS = vl_topDepth v /\ sl_botDepth cS = vl_botDepth v /\
      ((as_P v /\ sl_topP cS = top_of true v /\ sl_botP cS = bot_of true v) \/
       (~ as_P v /\ vl_topS v <> 0 /\ vl_botS v <> 0 /\ sl_topP cS = top_of false v /\ sl_botP cS = bot_of false v)) /\
      ((Pz = [] /\ Sz = [] /\ vl_botP prev = vl_topP v /\
        (vl_botS prev = vl_topS v \/ (innerS = false /\ vm_iocb vm <= vl_topDepth v))) \/
       exists zP zS, Pz = [zP] /\ Sz = [zS] /\ (vl_botP prev <> vl_topP v \/ vl_botS prev <> vl_topS v) /\ vl_botP prev <> 0 /\ vl_topP v <> 0 /\
         sl_topDepth zP = vl_botDepth prev /\ sl_botDepth zP = vl_botDepth prev /\
         sl_topP zP = (6371 - vl_botDepth prev) / vl_botP prev /\
         sl_botP zP = (6371 - vl_botDepth prev) / vl_topP v /\
         ((zS = zP /\ ((vl_botS prev = 0 /\ vl_topS v = 0) \/ (innerS = false /\ vm_iocb vm <= vl_botDepth prev))) \/
          (~ (vl_botS prev = 0 /\ vl_topS v = 0) /\ (innerS = true \/ vl_botDepth prev < vm_iocb vm) /\
           sl_topDepth zS = vl_botDepth prev /\ sl_botDepth zS = vl_botDepth prev /\
           (vl_botS prev = 0 -> sl_topP zS = (6371 - vl_botDepth prev) / vl_botP prev) /\
           (vl_botS prev <> 0 -> sl_topP zS = (6371 - vl_botDepth prev) / vl_botS prev) /\
           (vl_topS v = 0 -> sl_botP zS = (6371 - vl_botDepth prev) / vl_topP v) /\
           (vl_topS v <> 0 -> sl_botP zS = (6371 - vl_botDepth prev) / vl_topS v)))).
  Proof.
    intros Ps Ss next prev v st' Hv H. unfold coarse_step in H. fold vm in H. fold innerS in H.
    inv_as H as [[Pa Sa] na] Ha. inv_as H as cP HcP. inv_as H as cS HcS.
    apply create_from_vlayer_iff in HcP. destruct HcP as [A1 [A2 [A3 A4]]].
    apply ends_R in A4. destruct A4 as [A4 [A5 [A6 A7]]].
    assert (HS : sl_topDepth cS = vl_topDepth v /\ sl_botDepth cS = vl_botDepth v /\
      ((as_P v /\ sl_topP cS = top_of true v /\ sl_botP cS = bot_of true v) \/
       (~ as_P v /\ vl_topS v <> 0 /\ vl_botS v <> 0 /\ sl_topP cS = top_of false v /\ sl_botP cS = bot_of false v))).
    { pose proof (as_P_iff v Hv) as Ia.
      match type of HcS with (if ?b then _ else _) = _ => change b with (depthInFluid m (vl_topDepth v) || (negb innerS && n_leb (vm_iocb vm) (vl_topDepth v))) in HcS end.
      destruct (depthInFluid m (vl_topDepth v) || (negb innerS && n_leb (vm_iocb vm) (vl_topDepth v))) eqn:Eb.
      - inversion HcS; subst cS. split; [assumption|]. split; [assumption|]. left. split; [apply Ia; reflexivity|auto].
      - apply create_from_vlayer_iff in HcS. destruct HcS as [B1 [B2 [B3 B4]]].
        apply ends_R in B4. destruct B4 as [B4 [B5 [B6 B7]]]. split; [assumption|]. split; [assumption|].
        right. split; [intros X; apply Ia in X; discriminate|]. auto. }
    match type of Ha with (if ?b then _ else _) = _ => destruct b eqn:Ej end.
    - inv_as Ha as zP HzP. inv_as Ha as zS HzS. inversion Ha; subst Pa Sa na. clear Ha.
      apply create_from_vlayer_iff in HzP. destruct HzP as [B1 [B2 [B3 B4]]].
      apply ends_R in B4. destruct B4 as [B4 [B5 [B6 B7]]]. cbn [vl_topDepth vl_botDepth vl_topP vl_botP] in *.
      unfold top_of, bot_of in B4, B5. cbn [vl_topDepth vl_botDepth vl_topP vl_botP] in B4, B5.
      inversion H; subst st'. exists [zP], [zS]. eexists. exists cP, cS.
      split; [rewrite <- !app_assoc; reflexivity|].
      do 4 (split; [assumption|]). destruct HS as [S1 [S2 S3]]. do 3 (split; [assumption|]).
      right. exists zP, zS. do 2 (split; [reflexivity|]). split.
      { apply orb_true_iff in Ej. destruct Ej as [Ej|Ej]; [left|right; apply andb_true_iff in Ej; destruct Ej as [Ej _]];
          apply negb_true_iff in Ej; apply Reqb_ne in Ej; exact Ej. }
      do 6 (split; [assumption|]).
      match type of HzS with (if ?b then _ else _) = _ => destruct b eqn:Eb end.
      + left. inversion HzS; subst zS. split; [reflexivity|]. apply orb_true_iff in Eb. destruct Eb as [Eb|Eb].
        * left. apply andb_true_iff in Eb. rewrite !Reqb_eq, n_0_R in Eb. exact Eb.
        * right. apply andb_true_iff in Eb. destruct Eb as [E1 E2]. apply negb_true_iff in E1. apply Rleb_le in E2. auto.
      + right. apply orb_false_iff in Eb. destruct Eb as [E1 E2].
        apply create_from_vlayer_iff in HzS. destruct HzS as [C1 [C2 [C3 C4]]].
        apply ends_R in C4. destruct C4 as [C4 [C5 [C6 C7]]]. unfold top_of, bot_of in C4, C5.
        cbn [vl_topDepth vl_botDepth vl_topS vl_botS] in *.
        split; [intros [X Y]; rewrite X, Y in E1; apply andb_false_iff in E1;
                destruct E1 as [E1|E1]; apply Reqb_ne in E1; apply E1; rewrite n_0_R; reflexivity|].
        split.
        { apply andb_false_iff in E2. destruct E2 as [E2|E2]; [left; apply negb_false_iff; assumption|right].
          destruct (Rlt_or_le (vl_botDepth prev) (vm_iocb vm)) as [X|X]; [exact X|].
          apply Rleb_le in X. exfalso. exact (eq_true_false_abs _ X E2). }
        split; [assumption|]. split; [assumption|].
        assert (Q : forall (a b c dd : R), (if n_eqb a n_0 then b else c) = (if n_eqb a n_0 then b else c) ->
           (a = 0 -> dd / (if n_eqb a n_0 then b else c) = dd / b) /\
           (a <> 0 -> dd / (if n_eqb a n_0 then b else c) = dd / c)).
        { intros a b c dd _. destruct (n_eqb a n_0) eqn:Y.
          - apply Reqb_eq in Y. rewrite n_0_R in Y. split; intros X; [reflexivity|contradiction].
          - apply Reqb_ne in Y. rewrite n_0_R in Y. split; intros X; [contradiction|reflexivity]. }
        rewrite C4, C5.
        split; [intros X; apply Q; auto|]. split; [intros X; apply Q; auto|].
        split; [intros X; apply Q; auto|intros X; apply Q; auto].
    - inversion Ha; subst Pa Sa na. inversion H; subst st'. exists [], []. eexists. exists cP, cS.
      split; [reflexivity|]. do 4 (split; [assumption|]). destruct HS as [S1 [S2 S3]]. do 3 (split; [assumption|]).
      left. do 2 (split; [reflexivity|]). apply orb_false_iff in Ej. destruct Ej as [E1 E2].
      apply negb_false_iff in E1. apply Reqb_eq in E1. split; [assumption|].
      apply andb_false_iff in E2. destruct E2 as [E2|E2].
      + left. apply negb_false_iff in E2. apply Reqb_eq in E2. assumption.
      + right. apply orb_false_iff in E2. destruct E2 as [E2 E3]. split; [assumption|].
        apply Rltb_ge in E3. apply Rnot_lt_le in E3. exact E3.
  Qed.

  Lemma quot_eq : forall D a b : R, a <> 0 -> b <> 0 -> (D / a = D / b <-> a = b \/ D = 0).
  Proof.
    intros D a b Ha Hb. split.
    - intros E. apply (f_equal (fun x => x * (a * b))) in E.
      replace (D / a * (a * b)) with (D * b) in E by (field; assumption).
      replace (D / b * (a * b)) with (D * a) in E by (field; assumption).
      destruct (Req_dec D 0) as [Z|Z]; [right; exact Z|left].
      apply Rmult_eq_reg_l with D; [symmetry; exact E|exact Z].
    - intros [-> | ->]; [reflexivity|]. unfold Rdiv. rewrite !Rmult_0_l. reflexivity.
  Qed.

  Lemma stack_step : forall seen prev Ps Ss next v Ps' Ss' next' v',
    stack_inv seen prev Ps Ss -> In prev (vm_layers vm) -> In v (vm_layers vm) ->
    vl_botDepth prev = vl_topDepth v ->
    coarse_step m (Ps, Ss, next, prev) v = Ok (Ps', Ss', next', v') ->
    v' = v /\ stack_inv (seen ++ [v]) v Ps' Ss'.
  Proof.
    intros seen prev Ps Ss next v Ps' Ss' next' v' [[d0 ->] [[P0 [yp [-> [Bp1 Bp2]]]] [[S0 [ys [-> [Bs1 Bs2]]]] [M1 [M2 [J1 J2]]]]]]
      Hp Hv Eb H.
    apply coarse_step_out in H; [|exact Hv].
    destruct H as [Pz [Sz [nx [cP [cS [E [A1 [A2 [A3 [A4 [A5 [A6 [A7 Z]]]]]]]]]]]]].
    inversion E; subst Ps' Ss' nx v'. clear E. split; [reflexivity|].
    destruct (layer_facts prev Hp) as [F1 [F2 [F3 F4]]]. destruct (layer_facts v Hv) as [G1 [G2 [G3 G4]]].
    assert (Ft : forall w, top_of w v = (6371 - vl_botDepth prev) / (if w then vl_topP v else vl_topS v))
      by (intros w; unfold top_of; rewrite Eb; reflexivity).
    assert (Nb : vl_botP prev <> 0) by lra. assert (Nt : vl_topP v <> 0) by lra.
    (* both stacks meet, the P stack joins, and what the S stack needs *)
    assert (K : s_meet ((P0 ++ [yp]) ++ Pz ++ [cP]) /\ s_meet ((S0 ++ [ys]) ++ Sz ++ [cS]) /\
                s_join ((P0 ++ [yp]) ++ Pz ++ [cP]) /\
                (s_join ((S0 ++ [ys]) ++ Sz ++ [cS]) <-> s_join (S0 ++ [ys]) /\ joins prev v)).
    { destruct Z as [[-> [-> [Z1 Z2]]]|[zP [zS [-> [-> [ZJ [Z1 [Z2 [Z3 [Z4 [Z5 [Z6 Z7]]]]]]]]]]]].
      - cbn [app]. rewrite !meet_snoc, !join_snoc. split; [split; [exact M1|congruence]|].
        split; [split; [exact M2|congruence]|]. split.
        { split; [exact J1|]. rewrite Bp2, A3, Ft. unfold bot_of. rewrite Z1. reflexivity. }
        assert (X : sl_botP ys = sl_topP cS <-> joins prev v); [|tauto].
        unfold joins, bot_of in *. rewrite !Ft in A7. unfold as_P in *.
        destruct Bs2 as [[B1 B2]|[B1 B2]], A7 as [[C1 [C2 _]]|[C1 [C2 [C3 [C4 _]]]]].
        + rewrite B2, C2, Z1. split; [intros _|reflexivity].
          destruct B1 as [B1|[B1 B3]]; [auto|]. right. left. lra.
        + exfalso. destruct Z2 as [Z2|Z2]; [|tauto]. destruct B1 as [B1|[B1 B3]].
          * apply F3 in B1. congruence.
          * apply C1. right. split; [exact B1|lra].
        + assert (IS : innerS = false /\ vm_iocb vm <= vl_topDepth v).
          { destruct C1 as [C1|C1]; [|exact C1]. destruct Z2 as [Z2|Z2]; [|exact Z2].
            exfalso. apply B1. left. apply F3. congruence. }
          destruct IS as [IS1 IS2].
          assert (TS : vl_topS prev <> 0) by tauto. assert (BS : vl_botS prev <> 0) by tauto.
          assert (TI : vl_topDepth prev < vm_iocb vm).
          { apply Rnot_le_lt. intros X. apply B1. right. auto. }
          rewrite B2, C2, <- Z1. rewrite quot_eq by assumption. split.
          * intros [X|X]; [auto|]. do 4 right. lra.
          * intros [X|[X|[X|[X|X]]]]; [congruence|exfalso; apply X; lra|contradiction|auto|right; lra].
        + assert (ES : vl_botS prev = vl_topS v) by tauto. rewrite B2, C4, ES. split; [intros _|reflexivity].
          destruct innerS; [auto|]. right. left. intros X. apply C1. right. split; [reflexivity|lra].
      - replace ((P0 ++ [yp]) ++ [zP] ++ [cP]) with (((P0 ++ [yp]) ++ [zP]) ++ [cP]) by (rewrite <- !app_assoc; reflexivity).
        replace ((S0 ++ [ys]) ++ [zS] ++ [cS]) with (((S0 ++ [ys]) ++ [zS]) ++ [cS]) by (rewrite <- !app_assoc; reflexivity).
        assert (DS : sl_topDepth zS = vl_botDepth prev /\ sl_botDepth zS = vl_botDepth prev).
        { destruct Z7 as [[-> _]|[_ [_ [X [Y _]]]]]; auto. }
        destruct DS as [DS1 DS2].
        rewrite !meet_snoc, !join_snoc. split; [split; [split; [exact M1|congruence]|congruence]|].
        split; [split; [split; [exact M2|congruence]|congruence]|]. split.
        { split; [split; [exact J1|]|].
          - rewrite Bp2, Z5. reflexivity.
          - rewrite Z6, A3, Ft. reflexivity. }
        assert (X : sl_botP ys = sl_topP zS /\ sl_botP zS = sl_topP cS <-> joins prev v); [|tauto].
        unfold joins, bot_of in *. rewrite !Ft in A7. unfold as_P in *.
        destruct Z7 as [[-> [[Q1 Q2]|[Q1 Q2]]]|[Q1 [Q2 [_ [_ [Q3 [Q4 [Q5 Q6]]]]]]]].
        + assert (vl_topS prev = 0) by tauto. destruct Bs2 as [[_ B2]|[B1 _]]; [|tauto].
          destruct A7 as [[_ [C2 _]]|[C1 _]]; [|tauto]. rewrite B2, Z5, Z6, C2. tauto.
        + destruct A7 as [[_ [C2 _]]|[C1 _]]; [|exfalso; apply C1; right; split; [exact Q1|lra]].
          rewrite Z6, C2. destruct Bs2 as [[B1 B2]|[B1 B2]].
          * rewrite B2, Z5. split; [intros _|auto]. destruct B1 as [B1|[_ B1]]; [auto|]. right. left. lra.
          * assert (TS : vl_topS prev <> 0) by tauto. assert (BS : vl_botS prev <> 0) by tauto.
            assert (TI : vl_topDepth prev < vm_iocb vm).
            { apply Rnot_le_lt. intros X. apply B1. right. auto. }
            rewrite B2, Z5, quot_eq by assumption. split.
            -- intros [[X|X] _]; [auto|]. do 4 right. lra.
            -- intros [X|[X|[X|[X|X]]]]; (split; [|reflexivity]); [congruence|exfalso; apply X; lra|contradiction|auto|right; lra].
        + clear M1 M2 J1 J2 Bp1 Bp2 Bs1 Z1 Z2 Z3 Z4 Z5 Z6 A1 A2 A3 A4 A5 A6 Ft F1 F2 G1 G2 G3 G4 Nb Nt DS1 DS2 ZJ.
          assert (L : innerS = true \/ vl_topDepth v < vm_iocb vm)
            by (destruct Q2 as [Q2|Q2]; [left; exact Q2|right; rewrite <- Eb; exact Q2]).
          assert (JJ : innerS = true \/ ~ (vl_topDepth prev < vm_iocb vm <= vl_topDepth v)).
          { destruct L as [L|L]; [left; exact L|right]. intros [_ X]. exact (Rlt_not_le _ _ L X). }
          split; [intros _; destruct JJ as [JJ|JJ]; [left; exact JJ|right; left; exact JJ]|intros _].
          assert (U1 : ~ (innerS = false /\ vm_iocb vm <= vl_topDepth prev)).
          { intros [X1 X2]. destruct L as [L|L]; [congruence|]. rewrite <- Eb in L.
            exact (Rlt_not_le _ _ (Rlt_trans _ _ _ F4 L) X2). }
          assert (U2 : ~ (innerS = false /\ vm_iocb vm <= vl_topDepth v)).
          { intros [X1 X2]. destruct L as [L|L]; [congruence|]. exact (Rlt_not_le _ _ L X2). }
          split.
          * destruct Bs2 as [[B1 B2]|[B1 B2]].
            -- rewrite B2. symmetry. apply Q3. apply F3. destruct B1 as [B1|B1]; [exact B1|contradiction].
            -- rewrite B2. symmetry. apply Q4. intros X. apply B1. left. apply F3. exact X.
          * destruct A7 as [[C1 [C2 _]]|[C1 [C2 [C3 [C4 _]]]]].
            -- rewrite C2. apply Q5. destruct C1 as [C1|C1]; [exact C1|contradiction].
            -- rewrite C4. apply Q6. exact C2. }
    destruct K as [K1 [K2 [K3 K4]]]. split; [exists (d0 ++ [prev]); reflexivity|].
    split; [exists ((P0 ++ [yp]) ++ Pz), cP; split; [rewrite app_assoc; reflexivity|auto]|].
    split.
    { exists ((S0 ++ [ys]) ++ Sz), cS. split; [rewrite app_assoc; reflexivity|]. split; [assumption|]. tauto. }
    do 3 (split; [assumption|]). rewrite K4, adj_snoc, J2. reflexivity.
  Qed.

  Lemma stack_first : forall first next st', In first (vm_layers vm) ->
    coarse_step m ([], [], next, vl_surface first) first = Ok st' ->
    exists Ps Ss next', st' = (Ps, Ss, next', first) /\ stack_inv [first] first Ps Ss.
  Proof.
    intros first next st' Hv H. apply coarse_step_out in H; [|exact Hv].
    destruct H as [Pz [Sz [nx [cP [cS [E [A1 [A2 [A3 [A4 [A5 [A6 [A7 Z]]]]]]]]]]]]].
    subst st'.
    destruct Z as [[-> [-> _]]|[zP [zS [-> [-> [ZJ [Z1 [Z2 [Z3 [Z4 [Z5 [Z6 Z7]]]]]]]]]]]]; cbn [app].
    - exists [cP], [cS], nx. split; [reflexivity|].
      split; [exists []; reflexivity|]. split; [exists [], cP; auto|].
      split; [exists [], cS; split; [reflexivity|]; split; [assumption|]; tauto|].
      split; [apply s_meet_one|]. split; [apply s_meet_one|]. split; [apply s_join_one|].
      split; intros _; [apply adj_one|apply s_join_one].
    - exfalso. cbn [vl_surface vl_botP vl_botS] in ZJ. tauto.
  Qed.

  Lemma stack_fold : forall ls seen prev Ps Ss next st',
    stack_inv seen prev Ps Ss -> vm_layers vm = seen ++ ls ->
    foldM (coarse_step m) ls (Ps, Ss, next, prev) = Ok st' ->
    exists Ps' Ss' next' prev', st' = (Ps', Ss', next', prev') /\ stack_inv (vm_layers vm) prev' Ps' Ss'.
  Proof.
    induction ls as [|v ls IH]; intros seen prev Ps Ss next st' HI E H; cbn [foldM] in H.
    - inversion H; subst. exists Ps, Ss, next, prev. split; [reflexivity|]. rewrite E, app_nil_r. exact HI.
    - inv_as H as [[[Pa Sa] na] pa] Ha. pose proof HI as [[d0 Ed] _].
      assert (Hp : In prev (vm_layers vm)) by (rewrite E, Ed, !in_app_iff; left; right; left; reflexivity).
      assert (Hv : In v (vm_layers vm)) by (rewrite E, in_app_iff; right; left; reflexivity).
      assert (Eb : vl_botDepth prev = vl_topDepth v).
      { pose proof Hc as X. rewrite E, Ed, <- app_assoc in X. apply contiguous_app_r in X. cbn [app] in X.
        apply contiguous_head in X. apply Reqb_eq in X. exact X. }
      destruct (stack_step _ _ _ _ _ _ _ _ _ _ HI Hp Hv Eb Ha) as [-> HI'].
      eapply IH; [exact HI'| |exact H]. rewrite E, <- app_assoc. reflexivity.
  Qed.

  Lemma joins_all : adj joins (vm_layers vm) <-> innerS = true \/ P_from_inner_core vm.
  Proof.
    unfold joins, P_from_inner_core, on_top_of. split.
    - intros H. destruct innerS eqn:Ei; [auto|right]. intros u v [i [H1 H2]] X.
      destruct (H i u v H1 H2) as [Y|[Y|Y]]; [discriminate|contradiction|exact Y].
    - intros [H|H] i u v H1 H2; [auto|].
      destruct (Rlt_or_le (vl_topDepth u) (vm_iocb vm)) as [X|X]; [|right; left; lra].
      destruct (Rle_or_lt (vm_iocb vm) (vl_topDepth v)) as [Y|Y]; [|right; left; lra].
      right. right. apply (H u v); [exists i; auto|lra].
  Qed.

  Lemma coarse_start_stack : forall m0, coarse_start m m0 ->
    s_meet (sm_P m0) /\ s_meet (sm_S m0) /\ s_join (sm_P m0) /\
    (s_join (sm_S m0) <-> innerS = true \/ P_from_inner_core vm).
  Proof.
    intros m0 [first [Ps [Ss [next [v [Hi [Hfold ->]]]]]]]. cbn [sm_set_layers sm_P sm_S].
    fold vm in Hi, Hfold.
    assert (El : exists f ls, vm_layers vm = f :: ls).
    { clear - Hi. destruct (vm_layers vm) as [|f ls]; [discriminate|eauto]. }
    destruct El as [f [ls El]]. rewrite El in Hi, Hfold.
    change (@Ok (vlayer R) f = Ok first) in Hi. inversion Hi; subst first. cbn [foldM] in Hfold.
    inv_as Hfold as st Ha. assert (In f (vm_layers vm)) as Hv by (rewrite El; left; reflexivity).
    apply stack_first in Ha; [|exact Hv]. destruct Ha as [Pa [Sa [na [-> HI]]]].
    eapply (stack_fold ls) in Hfold; [|exact HI|exact El].
    destruct Hfold as [Ps' [Ss' [n' [p' [E [_ [_ [_ [A [B [C D]]]]]]]]]]]. inversion E; subst.
    split; [exact A|]. split; [exact B|]. split; [exact C|]. rewrite D, joins_all. reflexivity.
  Qed.
End Start.

(** ** coarseSample *)
Lemma coarse_continuous : forall fuel (m m1 m' : smodel R),
  v_validate (sm_vMod m) = Ok true -> thick (vm_layers (sm_vMod m)) ->
  findCriticalPoints m = Ok m1 -> coarseSample fuel m1 = Ok m' ->
  (forall w, s_meet (sm_layers m' w)) /\ s_join (sm_P m') /\
  (s_join (sm_S m') <-> sm_allowInnerCoreS m = true \/ P_from_inner_core (sm_vMod m)).
Proof.
  intros fuel m m1 m' Hv Ht Hf H.
  apply coarse_samples in H. destruct H as [m0 [H0 Hs]].
  assert (Hne : vm_layers (sm_vMod m) <> []).
  { intros En. destruct H0 as [first [_ [_ [_ [_ [Hi _]]]]]].
    pose proof (findCritical_spec _ _ Hf) as [F1 _]. rewrite F1, En in Hi. discriminate. }
  apply (validate_iff _ (model_numbers_R _) Hne) in Hv. destruct Hv as [_ [Hco Hl]].
  pose proof (findCritical_exact _ _ Hf) as [_ [_ [_ Fl]]].
  pose proof (findCritical_spec _ _ Hf) as [F1 [F2 [F3 _]]]. pose proof (findCritical_inner _ _ Hf) as F4.
  rewrite <- F1 in Hco, Hl, Ht, Fl. rewrite <- F4, <- F1.
  pose proof (coarse_start_stack m1 Hco Ht Hl Fl m0 H0) as [A [B [C D]]].
  assert (Hid : ids_ok m0) by (apply coarse_start_spec in H0; apply H0).
  pose proof (samples_keep _ _ Hs Hid) as [_ [_ K]]. split.
  - intros w. destruct (K w) as [K1 _]. apply K1. destruct w; assumption.
  - pose proof (samples_join m0 m' true Hs Hid) as J1. pose proof (samples_join m0 m' false Hs Hid) as J2.
    cbn [sm_layers] in J1, J2. rewrite J1, J2. split; [exact C|exact D].
Qed.

(** ** the constructor *)
Lemma createSample_continuous : forall {L : Libm R} fuel (m m' : smodel R), createSample fuel m = Ok m' ->
  thick (vm_layers (sm_vMod m)) -> sm_allowInnerCoreS m = false -> P_from_inner_core (sm_vMod m).
Proof.
  intros L fuel m m' H Ht Hi. pose proof H as H'. apply createSample_built in H'; [|apply R_ok].
  destruct H' as [_ [_ [_ [G _]]]]. specialize (G false). destruct G as [_ [_ [J _]]]. cbn [sm_layers] in J.
  apply createSample_steps in H.
  destruct H as [m1 [m0 [m5 [crit [Hv [Hf [Hc [Hs [Hm [E Hval]]]]]]]]]].
  assert (Hne : vm_layers (sm_vMod m) <> []).
  { intros En. destruct Hc as [first [_ [_ [_ [_ [Hix _]]]]]].
    pose proof (findCritical_spec _ _ Hf) as [F1 _]. cbn [sm_set_radius sm_vMod] in F1. rewrite F1, En in Hix. discriminate. }
  apply (validate_iff _ (model_numbers_R _) Hne) in Hv. destruct Hv as [_ [Hco Hl]].
  pose proof (findCritical_exact _ _ Hf) as [_ [_ [_ Fl]]].
  pose proof (findCritical_spec _ _ Hf) as [F1 _]. pose proof (findCritical_inner _ _ Hf) as F4.
  cbn [sm_set_radius sm_vMod sm_radius sm_allowInnerCoreS] in *.
  rewrite <- F1 in Hco, Hl, Ht, Fl. rewrite <- F1.
  assert (Hid : ids_ok m0) by (apply coarse_start_spec in Hc; apply Hc).
  pose proof (coarse_start_stack m1 Hco Ht Hl Fl m0 Hc) as [_ [_ [_ D]]].
  rewrite E in J. cbn [sm_set_crit sm_S] in J.
  apply (samples_join m0 m5 false Hs Hid) in J. cbn [sm_layers] in J. apply D in J.
  destruct J as [J|J]; [congruence|exact J].
Qed.

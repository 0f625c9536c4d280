(** Proofs for property C72: which models the two checks of the sampling leave alone. *)
From Coq Require Import ZArith Bool List String Reals Lia Lra.
From Verif Require Import Base Num PyStr VelocityModel VelSpec VelProofs SlownessLayer SlownessModel
  SlowSpec SlowProofs SlowAddProofs SlowBuildProofs CritSpec CritProofs SlowRealProofs SampleProofs FallProofs CheckSpec CheckProofs FixSpec.
Import ListNotations.
Local Open Scope list_scope.
Local Open Scope R_scope.

Lemma between_iff : forall y q, strictly_contains y q = true <-> between y q.
Proof.
  intros y q. unfold strictly_contains, between. rewrite n_0_R. cbn [n_ltb n_mul n_sub Num_R].
  rewrite Rltb_lt. split; intros H.
  - destruct (Rlt_le_dec q (sl_topP y)) as [A|A]; destruct (Rlt_le_dec (sl_botP y) q) as [B|B]; [left; lra|exfalso; nra|exfalso|].
    + assert (0 <= (q - sl_topP y) * (q - sl_botP y)) by (apply Rmult_le_pos; lra). lra.
    + right. destruct A as [A|A]; [|subst; exfalso; lra]. destruct B as [B|B]; [lra|subst; exfalso; lra].
  - destruct H as [H|H]; [apply Rmult_lt_0_compat; lra|].
    replace ((sl_topP y - q) * (q - sl_botP y)) with ((q - sl_topP y) * (sl_botP y - q)) by lra. apply Rmult_lt_0_compat; lra.
Qed.
Lemma parts_ceil : forall x s n, 0 < s -> parts x s n <-> n = Rceil (x / s).
Proof.
  intros x s n Hs. unfold parts. pose proof (Rceil_ub (x / s)) as [A B].
  assert (E : x = x / s * s) by (field; lra). split.
  - intros [C D].
    assert (C' : IZR n - 1 < x / s) by (apply (Rmult_lt_reg_r s); lra).
    assert (D' : x / s <= IZR n) by (apply (Rmult_le_reg_r s); lra).
    assert (X : IZR (n - 1) < IZR (Rceil (x / s))) by (rewrite minus_IZR; lra). apply lt_IZR in X.
    assert (Y : IZR (Rceil (x / s)) < IZR (n + 1)) by (rewrite plus_IZR; lra). apply lt_IZR in Y. lia.
  - intros ->. split.
    + rewrite E at 2. apply Rmult_lt_compat_r; lra.
    + rewrite E at 1. apply Rmult_le_compat_r; lra.
Qed.

(** ** loops that only ever add layers *)
Section Grow.
  Context {A : Type} (f : smodel R -> A -> result (smodel R)).
  Hypothesis G : forall m a m', f m a = Ok m' -> m' = m \/ (tot m < tot m')%nat.
  Lemma grow_fold : forall ks m m', foldM f ks m = Ok m' -> (m' = m /\ forall k, In k ks -> f m k = Ok m) \/ (tot m < tot m')%nat.
  Proof.
    induction ks as [|k ks IH]; intros m m' H; cbn [foldM] in H.
    - left. split; [congruence|]. intros k [].
    - inv_as H as m1 H1. pose proof (G _ _ _ H1) as G1. apply IH in H. destruct G1 as [->|G1].
      + destruct H as [[E H]|H]; [left|right; exact H]. split; [exact E|]. intros k' [<-|Hk]; auto.
      + right. destruct H as [[-> _]|H]; lia.
  Qed.
  Lemma grow_idx : forall get fuel i m m', for_idx fuel get i f m = Ok m' ->
    (m' = m /\ forall j a, (i <= j)%nat -> nth_error (get m) j = Some a -> f m a = Ok m) \/ (tot m < tot m')%nat.
  Proof.
    intros get. induction fuel as [|fuel IH]; intros i m m' H; [discriminate|]. cbn [for_idx] in H.
    destruct (nth_error (get m) i) as [a|] eqn:E.
    - inv_as H as m1 H1. pose proof (G _ _ _ H1) as G1. apply IH in H. destruct G1 as [->|G1].
      + destruct H as [[Em H]|H]; [left|right; exact H]. split; [exact Em|]. intros j b Hj Hb.
        destruct (Nat.eq_dec j i) as [->|N]; [congruence|]. apply (H j); [lia|exact Hb].
      + right. destruct H as [[-> _]|H]; lia.
    - left. split; [congruence|]. intros j b Hj Hb. apply nth_error_None in E.
      assert (j < List.length (get m))%nat by (apply nth_error_Some; congruence). lia.
  Qed.
End Grow.
Lemma fixed_fold : forall {A} (f : smodel R -> A -> result (smodel R)) m ks, (forall k, In k ks -> f m k = Ok m) -> foldM f ks m = Ok m.
Proof.
  intros A f m. induction ks as [|k ks IH]; intros H; [reflexivity|]. cbn [foldM]. rewrite H by (left; reflexivity). cbn [bind].
  apply IH. intros j Hj. apply H. right. exact Hj.
Qed.
Lemma fixed_idx : forall {A} (f : smodel R -> A -> result (smodel R)) get m, (forall a, In a (get m) -> f m a = Ok m) ->
  forall fuel i, (List.length (get m) < fuel + i)%nat -> (i <= List.length (get m))%nat -> for_idx fuel get i f m = Ok m.
Proof.
  intros A f get m H. induction fuel as [|fuel IH]; intros i L1 L2; [lia|]. cbn [for_idx].
  destruct (nth_error (get m) i) as [a|] eqn:E; [|reflexivity]. rewrite H by (eapply nth_error_In; exact E). cbn [bind].
  assert (i < List.length (get m))%nat by (apply nth_error_Some; congruence). apply IH; lia.
Qed.

(** ** a sample that lies in no layer *)
Lemma addS_none : forall vm radius innerS p w other next todo fuel done,
  (List.length todo < fuel)%nat ->
  (forall y, In y todo -> strictly_contains y p = false /\ exists v, layer_velocities vm w y = Ok v) ->
  addS_go (T := R) fuel vm radius innerS p w done todo other next = Ok (rev done ++ todo, other, next).
Proof.
  induction todo as [|y todo IH]; intros fuel done L H; (destruct fuel as [|fuel]; [cbn in L; lia|]); cbn [addS_go].
  - rewrite app_nil_r. reflexivity.
  - destruct (H y (or_introl eq_refl)) as [Hy [[tv bv] Hv]]. rewrite Hv. cbn [bind]. rewrite Hy.
    assert (X : addS_go fuel vm radius innerS p w (y :: done) todo other next = Ok (rev done ++ y :: todo, other, next)).
    { rewrite IH; [|cbn in L; lia|intros z Hz; apply H; right; exact Hz]. cbn [rev]. rewrite <- app_assoc. reflexivity. }
    rewrite X. rewrite rev_append_rev. destruct (negb w && (negb innerS && _)); [reflexivity|]. destruct (negb w && _); reflexivity.
Qed.
Lemma known_velocities : forall m w y, known m -> In y (sm_layers m w) -> exists v, layer_velocities (sm_vMod m) w y = Ok v.
Proof.
  intros m w y K Hy. destruct (K w y Hy) as [a [b [A B]]]. unfold layer_velocities.
  destruct w; rewrite A, B; cbn [bind]; destruct (negb (n_eqb (sl_topDepth y) (sl_botDepth y))); eauto.
Qed.
Lemma both_none : forall m q, known m -> untouched m q -> addBoth m q = Ok m.
Proof.
  intros m q K U.
  assert (X : forall w, addSlowness m q w = Ok m).
  { intros w. unfold addSlowness. rewrite addS_none.
    - cbn [bind rev app]. destruct w; destruct m; reflexivity.
    - lia.
    - intros y Hy. split; [|apply known_velocities; assumption].
      destruct (strictly_contains y q) eqn:E; [|reflexivity]. apply between_iff in E. destruct (U w y Hy E). }
  unfold addBoth. rewrite X. cbn [bind]. apply X.
Qed.
Lemma both_fixed : forall m q, addBoth m q = Ok m -> forall y, In y (sm_P m) \/ (solid m /\ In y (sm_S m)) -> ~ between y q.
Proof.
  intros m q H y Hy B. apply between_iff in B. destruct Hy as [Hy|[S Hy]].
  - pose proof (both_splits m m q true y H Hy B (or_introl eq_refl)). lia.
  - pose proof (both_splits m m q false y H Hy B (or_intror S)). lia.
Qed.

(** ** slowness *)
Lemma ray_grows : forall m y m', rayInc_body m y = Ok m' -> m' = m \/ (tot m < tot m')%nat.
Proof.
  intros m y m' H. unfold rayInc_body in H. if_in H; [|left; congruence]. inv_as H as q Hq. inv_as H as del Hd.
  apply (grow_fold (fun m k => addBoth m _)) in H; [destruct H as [[E _]|H]; auto|]. intros a k b. apply both_same.
Qed.
Definition ray_q (y : slayer R) (n k : Z) : R := sl_topP y + IZR k * ((sl_topP y - sl_botP y) / IZR n).
Lemma ray_fixed : forall m y n k, rayInc_body m y = Ok m -> 0 < sm_maxDeltaP m -> sm_maxDeltaP m < Rabs (sl_topP y - sl_botP y) ->
  parts (Rabs (sl_topP y - sl_botP y)) (sm_maxDeltaP m) n -> (1 <= k < n)%Z -> addBoth m (ray_q y n k) = Ok m.
Proof.
  intros m y n k H P W Pn K. apply parts_ceil in Pn; [|exact P]. unfold rayInc_body in H.
  assert (W' : n_ltb (sm_maxDeltaP m) (n_abs (n_sub (sl_topP y) (sl_botP y))) = true) by (apply Rltb_lt; exact W). rewrite W' in H.
  rewrite py_div_R in H by lra. cbn [bind] in H. cbn [n_abs n_sub n_ceil n_add n_mul Num_R] in H. rewrite <- Pn in H. rewrite n_int_R in H.
  assert (0 < IZR n) by (apply IZR_lt; lia). rewrite py_div_R in H by lra. cbn [bind] in H.
  apply (grow_fold (fun m k => addBoth m _)) in H; [|intros a j b; apply both_same]. destruct H as [[_ H]|H]; [|lia].
  specialize (H k (proj2 (zrange_In _ _ _) K)). rewrite n_int_R in H. exact H.
Qed.
Lemma ray_kept : forall m y, 0 < sm_maxDeltaP m ->
  (sm_maxDeltaP m < Rabs (sl_topP y - sl_botP y) -> forall n k, parts (Rabs (sl_topP y - sl_botP y)) (sm_maxDeltaP m) n -> (1 <= k < n)%Z -> addBoth m (ray_q y n k) = Ok m) ->
  rayInc_body m y = Ok m.
Proof.
  intros m y P H. unfold rayInc_body.
  destruct (n_ltb (sm_maxDeltaP m) (n_abs (n_sub (sl_topP y) (sl_botP y)))) eqn:W; [|reflexivity]. apply Rltb_lt in W. specialize (H W).
  rewrite py_div_R by lra. cbn [bind]. cbn [n_abs n_sub n_ceil n_add n_mul Num_R] in *. set (n := Rceil (Rabs (sl_topP y - sl_botP y) / sm_maxDeltaP m)) in *.
  assert (Pn : parts (Rabs (sl_topP y - sl_botP y)) (sm_maxDeltaP m) n) by (apply parts_ceil; [exact P|reflexivity]).
  assert (N : 0 < IZR n).
  { destruct Pn as [_ Pn]. destruct (Rlt_le_dec 0 (IZR n)) as [|X]; [assumption|]. exfalso. nra. }
  rewrite n_int_R. rewrite py_div_R by lra. cbn [bind]. apply fixed_fold. intros k Hk. apply zrange_In in Hk. rewrite n_int_R. apply H; assumption.
Qed.

(** ** depth *)
Lemma depth_sample : forall m w z q, depthInc_p m (negb w) z = Ok q <-> sample m w z q.
Proof.
  intros m w z q. unfold sample, velocity.
  assert (TS : forall v, toSlowness (sm_radius m) v z = Ok q <-> v <> 0 /\ q = (sm_radius m - z) / v).
  { intros v. unfold toSlowness. rewrite n_0_R. destruct (@n_eqb R Num_R v 0) eqn:E.
    - apply Reqb_eq in E. split; [discriminate|]. intros [X _]. contradiction.
    - assert (V : v <> 0) by (apply Reqb_ne; exact E). rewrite py_div_R by exact V. cbn [n_sub Num_R]. split; [intros X; split; [exact V|congruence]|intros [_ ->]; reflexivity]. }
  unfold depthInc_p. destruct w; cbn [negb].
  - destruct (evaluateAbove (sm_vMod m) z "P") as [v| |]; cbn [bind].
    + rewrite TS. split; [intros [A B]; exists v; auto|]. intros [v' [A B]]. assert (v' = v) by congruence. subst; exact B.
    + split; [discriminate|]. intros [v [A _]]. discriminate.
    + split; [discriminate|]. intros [v [A _]]. discriminate.
  - destruct (evaluateAbove (sm_vMod m) z "S") as [u| |]; cbn [bind].
    2,3: split; [discriminate|]; intros [v [[u [A _]] _]]; discriminate.
    destruct (n_eqb u n_0 || (negb (sm_allowInnerCoreS m) && n_leb (vm_iocb (sm_vMod m)) z)) eqn:E.
    + assert (E' : u = 0 \/ (sm_allowInnerCoreS m = false /\ vm_iocb (sm_vMod m) <= z)).
      { rewrite n_0_R in E. apply orb_true_iff in E. destruct E as [E|E]; [left; apply Reqb_eq; exact E|right].
        apply andb_true_iff in E. destruct E as [E1 E2]. apply negb_true_iff in E1. apply Rleb_le in E2. auto. }
      destruct (evaluateAbove (sm_vMod m) z "P") as [v| |] eqn:Ev; cbn [bind].
      * rewrite TS. split.
        -- intros [A B]. exists v. split; [|auto]. exists u. split; [reflexivity|]. right. auto.
        -- intros [v' [[u' [A [[B [C D]]|[B C]]]] F]]; assert (u' = u) by congruence; subst u'.
           ++ exfalso. destruct E' as [E'|[E1 E2]]; [congruence|]. destruct C as [C|C]; [congruence|lra].
           ++ assert (v' = v) by congruence. subst. exact F.
      * split; [discriminate|]. intros [v [[u' [A [[B [C D]]|[B C]]]] F]]; [|discriminate]. assert (u' = u) by congruence. subst.
        exfalso. destruct E' as [E'|[E1 E2]]; [contradiction|]. destruct C as [C|C]; [congruence|lra].
      * split; [discriminate|]. intros [v [[u' [A [[B [C D]]|[B C]]]] F]]; [|discriminate]. assert (u' = u) by congruence. subst.
        exfalso. destruct E' as [E'|[E1 E2]]; [contradiction|]. destruct C as [C|C]; [congruence|lra].
    + cbn [bind]. rewrite TS. apply orb_false_iff in E. destruct E as [E1 E2]. rewrite n_0_R in E1. assert (U : u <> 0) by (apply Reqb_ne; exact E1).
      assert (E' : sm_allowInnerCoreS m = true \/ z < vm_iocb (sm_vMod m)).
      { apply andb_false_iff in E2. destruct E2 as [E2|E2]; [left; apply negb_false_iff; exact E2|right]. apply Rleb_false in E2. lra. }
      split.
      * intros [A B]. exists u. split; [|auto]. exists u. split; [reflexivity|]. left. auto.
      * intros [v [[u' [A [[B [C D]]|[B C]]]] F]]; assert (u' = u) by congruence; subst u'; [subst v; exact F|].
        exfalso. destruct B as [B|[B1 B2]]; [contradiction|]. destruct E' as [E'|E']; [congruence|lra].
Qed.
Lemma depth_grows : forall b m y m', depthInc_body b m y = Ok m' -> m' = m \/ (tot m < tot m')%nat.
Proof.
  intros fb m y m' H. unfold depthInc_body in H. if_in H; [|left; congruence]. inv_as H as q Hq. inv_as H as del Hd.
  apply grow_fold in H; [destruct H as [[E _]|H]; auto|]. intros a k b X. inv_as X as p Hp. eapply both_same; exact X.
Qed.
Definition depth_z (y : slayer R) (n k : Z) : R := sl_topDepth y + IZR k * ((sl_botDepth y - sl_topDepth y) / IZR n).
Lemma depth_fixed : forall m w y n k, depthInc_body (negb w) m y = Ok m -> 0 < sm_maxDepthInterval m -> sm_maxDepthInterval m < sl_botDepth y - sl_topDepth y ->
  parts (sl_botDepth y - sl_topDepth y) (sm_maxDepthInterval m) n -> (1 <= k < n)%Z -> exists q, sample m w (depth_z y n k) q /\ addBoth m q = Ok m.
Proof.
  intros m w y n k H P W Pn K. apply parts_ceil in Pn; [|exact P]. unfold depthInc_body in H.
  assert (W' : n_ltb (sm_maxDepthInterval m) (n_sub (sl_botDepth y) (sl_topDepth y)) = true) by (apply Rltb_lt; exact W). rewrite W' in H.
  rewrite py_div_R in H by lra. cbn [bind] in H. cbn [n_abs n_sub n_ceil n_add n_mul Num_R] in H. rewrite <- Pn in H. rewrite n_int_R in H.
  assert (0 < IZR n) by (apply IZR_lt; lia). rewrite py_div_R in H by lra. cbn [bind] in H.
  apply grow_fold in H; [|intros a j b X; inv_as X as p Hp; eapply both_same; exact X]. destruct H as [[_ H]|H]; [|lia].
  specialize (H k (proj2 (zrange_In _ _ _) K)). cbv beta in H. rewrite n_int_R in H. inv_as H as q Hq. exists q. split; [|exact H].
  apply depth_sample. exact Hq.
Qed.
Lemma depth_kept : forall m w y, 0 < sm_maxDepthInterval m ->
  (sm_maxDepthInterval m < sl_botDepth y - sl_topDepth y -> forall n k, parts (sl_botDepth y - sl_topDepth y) (sm_maxDepthInterval m) n -> (1 <= k < n)%Z ->
     exists q, sample m w (depth_z y n k) q /\ addBoth m q = Ok m) ->
  depthInc_body (negb w) m y = Ok m.
Proof.
  intros m w y P H. unfold depthInc_body.
  destruct (n_ltb (sm_maxDepthInterval m) (n_sub (sl_botDepth y) (sl_topDepth y))) eqn:W; [|reflexivity]. apply Rltb_lt in W. specialize (H W).
  rewrite py_div_R by lra. cbn [bind]. cbn [n_abs n_sub n_ceil n_add n_mul Num_R] in *. set (n := Rceil ((sl_botDepth y - sl_topDepth y) / sm_maxDepthInterval m)) in *.
  assert (Pn : parts (sl_botDepth y - sl_topDepth y) (sm_maxDepthInterval m) n) by (apply parts_ceil; [exact P|reflexivity]).
  assert (N : 0 < IZR n).
  { destruct Pn as [_ Pn]. destruct (Rlt_le_dec 0 (IZR n)) as [|X]; [assumption|]. exfalso. nra. }
  rewrite n_int_R. rewrite py_div_R by lra. cbn [bind]. apply fixed_fold. intros k Hk. apply zrange_In in Hk. rewrite n_int_R.
  destruct (H n k Pn Hk) as [q [A B]]. apply depth_sample in A. unfold depth_z in A. rewrite A. exact B.
Qed.

(** C69: adding a slowness sample to a tau branch, and the difference of two branches when
    samples were added. *)
From Coq Require Import ZArith Bool List String Arith Reals Lia Lra.
From Verif Require Import Base Num PyStr VelocityModel VelSpec SlownessLayer SlownessModel SlowSpec SlowProofs SlowAddProofs SlowBuildProofs
  SlowRealProofs StackProofs TauModel TauSpec TauProofs Toy RealRun SlowRun BuildRun TwoRun InsertSpec InsertProofs.
Import ListNotations.
Local Open Scope list_scope.
Local Open Scope num_scope.

(** C69: what [insert] does, exactly. *)
Theorem C69_insert :
  forall {T} {N : Num T} {O : NumOrd T} {L : Libm T} fuel (m : smodel T) (b b' : tbranch T) p (i : nat),
  let ls := sm_layers m (tb_isP b) in
  s_meet ls -> s_upright ls -> n_ok (tb_top b) -> n_ok (tb_bot b) -> (List.length ls <= fuel)%nat ->
  (i <= List.length (tb_dist b))%nat -> (i <= List.length (tb_time b))%nat -> (i <= List.length (tb_tau b))%nat ->
  (tb_insert fuel b p m (Z.of_nat i) = Ok b' <->
   exists k j y z dist time tau,
     deepest ls (tb_top b) k /\ nth_error ls k = Some y /\ sl_topDepth y =? tb_top b = true /\
     shallowest ls (tb_bot b) j /\ nth_error ls j = Some z /\ sl_botDepth z =? tb_bot b = true /\
     inserted m (tb_isP b) p y j dist time tau /\
     put_in i dist (tb_dist b) (tb_dist b') /\ put_in i time (tb_time b) (tb_time b') /\ put_in i tau (tb_tau b) (tb_tau b') /\
     tb_top b' = tb_top b /\ tb_bot b' = tb_bot b /\ tb_isP b' = tb_isP b /\
     tb_maxRP b' = tb_maxRP b /\ tb_minTurnRP b' = tb_minTurnRP b /\ tb_minRP b' = tb_minRP b).
Proof.
  intros T N O L fuel m b b' p i ls Hm Hu Ot Ob Hf I1 I2 I3. subst ls. split.
  - intros H. unfold tb_insert in H. inv_as H as tn Htn. inv_as H as bn Hbn. inv_as H as y Hy. inv_as H as z Hz.
    destruct (sl_topDepth y =? tb_top b) eqn:E1; [|discriminate]. destruct (sl_botDepth z =? tb_bot b) eqn:E2; [|discriminate].
    cbn [negb orb] in H. inv_as H as td Htd. inv_as H as d1 Hd. inv_as H as t1 Ht. inv_as H as u1 Hu1.
    apply below_sound in Htn; [|assumption..]. apply above_sound in Hbn; [|assumption..].
    destruct Htn as [Tn Td]. destruct Hbn as [Bn Bs]. apply layer_py_Z in Hy; [|assumption]. apply layer_py_Z in Hz; [|assumption].
    rewrite <- (Z2Nat.id bn) in Htd by assumption. apply insert_inserted in Htd.
    apply shift_set in Hd; [|assumption]. apply shift_set in Ht; [|assumption]. apply shift_set in Hu1; [|assumption].
    inversion H; subst b'. clear H. cbn [tb_top tb_bot tb_isP tb_maxRP tb_minTurnRP tb_minRP tb_dist tb_time tb_tau].
    exists (Z.to_nat tn), (Z.to_nat bn), y, z, (td_dist td), (td_time td), (td_time td - p * td_dist td). tauto.
  - intros [k [j [y [z [dist [time [tau [Dk [Hy [E1 [Sj [Hz [E2 [Hi [P1 [P2 [P3 [Q1 [Q2 [Q3 [Q4 [Q5 Q6]]]]]]]]]]]]]]]]]]]]]].
    unfold tb_insert. rewrite (proj2 (below_iff_s fuel m _ _ k Hm Hu Ot Hf) Dk), (proj2 (above_iff_s fuel m _ _ j Hm Hu Ob Hf) Sj). cbn [bind].
    apply layer_py in Hy, Hz. rewrite Hy, Hz. cbn [bind]. rewrite E1, E2. cbn [negb orb].
    apply inserted_insert in Hi. destruct Hi as [td [Htd [-> [-> ->]]]]. rewrite Htd. cbn [bind].
    rewrite (proj2 (shift_set _ _ _ _ I1) P1), (proj2 (shift_set _ _ _ _ I2) P2). cbn [bind].
    rewrite (proj2 (shift_set _ _ _ _ I3) P3). cbn [bind]. destruct b'. cbn in *. subst. reflexivity.
Qed.

(** C69: the difference of two branches when no P sample is new; a new S sample is not
    taken account of. *)
Theorem C69_difference_no_P :
  forall {T} {N : Num T} {O : NumOrd T} {L : Libm T} fuel (m : smodel T) (b top c : tbranch T) iS rp,
  (forall w, s_meet (sm_layers m w)) -> (forall w, s_upright (sm_layers m w)) -> tb_bot top <? tb_bot b = true ->
  tb_difference fuel b top (-1) iS m rp = Ok c ->
  lower_part b top c /\
  less_plain (tb_dist b) (tb_dist top) (tb_dist c) /\ less_plain (tb_time b) (tb_time top) (tb_time c) /\
  less_plain (tb_tau b) (tb_tau top) (tb_tau c).
Proof.
  intros T N O L fuel m b top c iS rp Hm Hu Lt H. unfold tb_difference in H. inv_as H as [tn bn] Hc.
  apply checks_spec in Hc; [|assumption..]. destruct Hc as [Ep _].
  change (-1 =? -1)%Z with true in H. cbn [negb bind] in H. inv_as H as tdS HS.
  inversion H; subst c. unfold lower_part, less_plain. cbn [tb_top tb_bot tb_isP tb_maxRP tb_minTurnRP tb_minRP tb_dist tb_time tb_tau].
  split; [tauto|]. split; [|split]; (split; [apply sub_length|]; intros i a0 b0 Ha Hb; apply sub_nth; exists a0, b0; tauto).
Qed.

(** C69: the difference when one sample is new: the distances have no entry for it, and the
    times and taus end with it. *)
Theorem C69_difference_one :
  forall {T} {N : Num T} {O : NumOrd T} {L : Libm T} fuel (m : smodel T) (b top c : tbranch T) (p : nat) iS rp,
  (forall w, s_meet (sm_layers m w)) -> (forall w, s_upright (sm_layers m w)) -> tb_bot top <? tb_bot b = true ->
  (forall f, In f [tb_dist; tb_time; tb_tau] -> (p <= List.length (f b))%nat /\ List.length (f top) = S (List.length (f b))) ->
  iS = (-1)%Z \/ iS = Z.of_nat p ->
  tb_difference fuel b top (Z.of_nat p) iS m rp = Ok c ->
  lower_part b top c /\
  exists r dist time tau, nth_error rp p = Some r /\ slowness_below m true (tb_bot top) r /\
    collects m (tb_isP b) (tb_bot top) (tb_bot b) (tb_minRP top) r dist time tau /\
    less_skipped (tb_dist b) (tb_dist top) p (tb_dist c) /\
    less_cut (tb_time b) (tb_time top) p time (tb_time c) /\ less_cut (tb_tau b) (tb_tau top) p tau (tb_tau c).
Proof.
  intros T N O L fuel m b top c p iS rp Hm Hu Lt Hl HiS H. unfold tb_difference in H. inv_as H as [tn bn] Hc.
  apply checks_spec in Hc; [|assumption..]. destruct Hc as [Ep [HP [_ [i [j [y [z [-> [-> [Hy [E1 [Hz E2]]]]]]]]]]]].
  destruct (HP ltac:(lia)) as [r [Hr Sr]]. clear HP.
  replace (negb (Z.of_nat p =? -1)%Z) with true in H by (destruct (Z.eqb_spec (Z.of_nat p) (-1)); [lia|reflexivity]).
  rewrite Hr in H. cbn [bind] in H. inv_as H as tdP HtP. inv_as HtP as td Htd. inversion HtP; subst tdP. clear HtP.
  replace (negb (iS =? -1)%Z && negb (iS =? Z.of_nat p)%Z) with false in H
    by (destruct HiS as [-> | ->]; rewrite ?Z.eqb_refl; cbn [negb andb]; rewrite ?andb_false_r; reflexivity).
  cbn [bind] in H. replace (Z.of_nat p + 1)%Z with (Z.of_nat (S p)) in H by lia. rewrite !slice_head, !slice_tail in H.
  inversion H; subst c. clear H. unfold lower_part. cbn [tb_top tb_bot tb_isP tb_maxRP tb_minTurnRP tb_minRP tb_dist tb_time tb_tau].
  split; [tauto|].
  apply py_index_nonneg in Hr; [|lia]. rewrite Nat2Z.id in Hr.
  exists r, (td_dist td), (td_time td), (td_time td - r * td_dist td). split; [assumption|]. split; [assumption|].
  split.
  { apply calcTimeDist_spec in Htd; [|apply nth_error_Some; congruence]. unfold collects. split; [reflexivity|].
    destruct Htd as [Htd|[Htd [incs Hi]]]; [left; assumption|right]. split; [assumption|]. exists i, j, y, z, incs. tauto. }
  assert (Hd : (p <= List.length (tb_dist b))%nat /\ List.length (tb_dist top) = S (List.length (tb_dist b))) by (apply Hl; cbn; tauto).
  assert (Ht : (p <= List.length (tb_time b))%nat /\ List.length (tb_time top) = S (List.length (tb_time b))) by (apply Hl; cbn; tauto).
  assert (Hta : (p <= List.length (tb_tau b))%nat /\ List.length (tb_tau top) = S (List.length (tb_tau b))) by (apply Hl; cbn; tauto).
  assert (Cut : forall own tp v, (p <= List.length own)%nat -> List.length tp = S (List.length own) ->
    less_cut own tp p v (list_sub (firstn p own) tp ++ [v])).
  { intros own tp v H1 H2. assert (Len : List.length (list_sub (firstn p own) tp) = p) by (rewrite sub_length, firstn_length; lia).
    split; [rewrite app_length, Len; cbn; lia|]. split; [rewrite nth_error_app2, Len, Nat.sub_diag by lia; reflexivity|].
    intros k a0 b0 Hk Ha Hb. rewrite nth_error_app1 by lia. apply sub_nth. exists a0, b0. split; [|tauto].
    rewrite nth_firstn. destruct (Nat.ltb_spec k p); [assumption|lia]. }
  split; [|split; apply Cut; tauto].
  change (match tb_dist top with [] => [] | _ :: l => skipn p l end) with (skipn (S p) (tb_dist top)).
  assert (Len : List.length (list_sub (firstn p (tb_dist b)) (tb_dist top)) = p) by (rewrite sub_length, firstn_length; lia).
  rewrite firstn_app, Len, Nat.sub_diag. cbn [firstn]. rewrite app_nil_r, firstn_all2 by lia.
  split; [rewrite app_length, Len, sub_length, !skipn_length; lia|].
  intros k a0 Ha. assert (k < List.length (tb_dist b))%nat by (apply nth_error_Some; congruence).
  destruct (Nat.ltb_spec k p).
  - destruct (nth_error (tb_dist top) k) as [x|] eqn:Ex; [|apply nth_error_None in Ex; lia]. exists x. split; [reflexivity|].
    rewrite nth_error_app1 by lia. apply sub_nth. exists a0, x. rewrite nth_firstn. destruct (Nat.ltb_spec k p); [tauto|lia].
  - destruct (nth_error (tb_dist top) (S k)) as [x|] eqn:Ex; [|apply nth_error_None in Ex; lia]. exists x. split; [reflexivity|].
    rewrite nth_error_app2, Len by lia. apply sub_nth. exists a0, x. rewrite !nth_skipn.
    replace (p + (k - p))%nat with k by lia. replace (S p + (k - p))%nat with (S k) by lia. tauto.
Qed.

(** C69: the difference when two samples are new, the one of S before the one of P: the
    values for the P sample stand one place after its ray parameter. *)
Theorem C69_difference_two :
  forall {T} {N : Num T} {O : NumOrd T} {L : Libm T} fuel (m : smodel T) (b top c : tbranch T) (s p : nat) rp,
  (forall w, s_meet (sm_layers m w)) -> (forall w, s_upright (sm_layers m w)) -> tb_bot top <? tb_bot b = true ->
  (forall f, In f [tb_time; tb_tau] -> List.length (f b) = List.length (tb_dist b)) ->
  (s < p <= List.length (tb_dist b))%nat ->
  tb_difference fuel b top (Z.of_nat p) (Z.of_nat s) m rp = Ok c ->
  lower_part b top c /\
  exists rS dS tS uS rP dP tP uP,
    nth_error rp s = Some rS /\ slowness_below m false (tb_bot top) rS /\
    collects m (tb_isP b) (tb_bot top) (tb_bot b) (tb_minRP top) rS dS tS uS /\
    nth_error rp p = Some rP /\ slowness_below m true (tb_bot top) rP /\
    collects m (tb_isP b) (tb_bot top) (tb_bot b) (tb_minRP top) rP dP tP uP /\
    less_two (tb_dist b) (tb_dist top) s p dS dP (tb_dist c) /\
    less_two (tb_time b) (tb_time top) s p tS tP (tb_time c) /\
    less_two (tb_tau b) (tb_tau top) s p uS uP (tb_tau c).
Proof.
  intros T N O L fuel m b top c s p rp Hm Hu Lt Hl Hsp H. unfold tb_difference in H. inv_as H as [tn bn] Hc.
  apply checks_spec in Hc; [|assumption..]. destruct Hc as [Ep [HP [HS [i [j [y [z [-> [-> [Hy [E1 [Hz E2]]]]]]]]]]]].
  destruct (HP ltac:(lia)) as [rP [HrP SrP]]. destruct (HS ltac:(lia)) as [rS [HrS SrS]]. clear HP HS.
  replace (negb (Z.of_nat p =? -1)%Z) with true in H by (destruct (Z.eqb_spec (Z.of_nat p) (-1)); [lia|reflexivity]).
  rewrite HrP in H. cbn [bind] in H. inv_as H as tdP HtP. inv_as HtP as tP Htd. inversion HtP; subst tdP. clear HtP.
  replace (negb (Z.of_nat s =? -1)%Z && negb (Z.of_nat s =? Z.of_nat p)%Z) with true in H
    by (destruct (Z.eqb_spec (Z.of_nat s) (-1)); [lia|]; destruct (Z.eqb_spec (Z.of_nat s) (Z.of_nat p)); [lia|]; reflexivity).
  rewrite HrS in H. cbn [bind] in H. inv_as H as tdS HtS. inv_as HtS as tS HtdS. inversion HtS; subst tdS. clear HtS.
  cbn [bind] in H. inv_as H as d1 Hd. inv_as H as t1 Ht. inv_as H as u1 Hu1.
  inversion H; subst c. clear H. unfold lower_part. cbn [tb_top tb_bot tb_isP tb_maxRP tb_minTurnRP tb_minRP tb_dist tb_time tb_tau].
  split; [tauto|].
  apply py_index_nonneg in HrP; [|lia]. apply py_index_nonneg in HrS; [|lia]. rewrite Nat2Z.id in HrP, HrS.
  assert (Col : forall r td, calcTimeDist m (tb_isP b) (tb_minRP top) (Z.of_nat i) (Z.of_nat j) r = Ok td ->
    collects m (tb_isP b) (tb_bot top) (tb_bot b) (tb_minRP top) r (td_dist td) (td_time td) (td_time td - r * td_dist td)).
  { intros r td Hr. apply calcTimeDist_spec in Hr; [|apply nth_error_Some; congruence]. unfold collects. split; [reflexivity|].
    destruct Hr as [Hr|[Hr [incs Hi]]]; [left; assumption|right]. split; [assumption|]. exists i, j, y, z, incs. tauto. }
  exists rS, (td_dist tS), (td_time tS), (td_time tS - rS * td_dist tS), rP, (td_dist tP), (td_time tP), (td_time tP - rP * td_dist tP).
  split; [assumption|]. split; [assumption|]. split; [apply Col; assumption|]. split; [assumption|]. split; [assumption|]. split; [apply Col; assumption|].
  assert (L1 : List.length (tb_time b) = List.length (tb_dist b)) by (apply Hl; cbn; tauto).
  assert (L2 : List.length (tb_tau b) = List.length (tb_dist b)) by (apply Hl; cbn; tauto).
  rewrite <- L1 in Ht. rewrite <- L2 in Hu1.
  split; [|split]; eapply diff_both_spec; try eassumption; rewrite ?L1, ?L2; assumption.
Qed.

(** C69, over real numbers: if the ray crosses the layers from the surface down to the top of
    the branch, the new sample counts the layers above the branch as well. *)
Theorem C69_insert_excess :
  forall {L : Libm R} fuel (m : smodel R) (b b' : tbranch R) p (i k : nat),
  let ls := sm_layers m (tb_isP b) in
  s_meet ls -> s_upright ls -> (List.length ls <= fuel)%nat ->
  (i <= List.length (tb_dist b))%nat -> (i <= List.length (tb_time b))%nat -> (i <= List.length (tb_tau b))%nat ->
  tb_top b <? tb_bot b = true ->
  deepest ls (tb_top b) k -> (forall q y, (q <= k)%nat -> nth_error ls q = Some y -> crosses p y) ->
  (forall y, In y ls -> ~ spans y p) ->
  tb_insert fuel b p m (Z.of_nat i) = Ok b' ->
  exists j above incs,
    shallowest ls (tb_bot b) j /\ List.length above = k /\
    (forall q x, nth_error above q = Some x -> layerTimeDist m p (Z.of_nat q) (tb_isP b) = Ok x) /\
    descends m (tb_isP b) p k j incs /\
    put_in i (sum_dist above + sum_dist incs) (tb_dist b) (tb_dist b') /\
    put_in i (sum_time above + sum_time incs) (tb_time b) (tb_time b') /\
    put_in i (sum_time above + sum_time incs - p * (sum_dist above + sum_dist incs)) (tb_tau b) (tb_tau b').
Proof.
  intros L fuel m b b' p i k ls Hm Hu Hf I1 I2 I3 Lt Dk Hc Hs H. subst ls.
  apply C69_insert in H; [|first [assumption|apply R_ok]..].
  destruct H as [k' [j [y [z [dist [time [tau [Dk' [Hy [E1 [Sj [Hz [E2 [Hi [P1 [P2 [P3 _]]]]]]]]]]]]]]]]].
  assert (k' = k).
  { destruct Dk as [[y1 [A1 A2]] A3]. destruct Dk' as [[y2 [B1 B2]] B3]. pose proof (A3 _ _ B1 B2). pose proof (B3 _ _ A1 A2). lia. }
  subst k'. destruct Hi as [incs [-> [-> [-> Hi]]]].
  destruct Hi as [[_ [H2 [H3 H4]]]|[Hi _]]; [|exfalso; apply Hi; destruct (Hc k y ltac:(lia) Hy); split; assumption].
  assert (Kj : (k <= j)%nat).
  { destruct (Nat.le_gt_cases k j) as [G|G]; [assumption|exfalso].
    pose proof (s_sorted _ k j z y Hm Hu Hz Hy G) as G1. apply Rleb_le in G1. apply Reqb_eq in E1, E2. apply Rltb_lt in Lt. lra. }
  assert (Hn : (k < List.length incs)%nat).
  { destruct (Nat.le_gt_cases (List.length incs) k) as [G|G]; [exfalso|assumption].
    destruct H4 as [H4|[y' [Hy' Hp]]]; [lia|]. destruct (Hc _ _ G Hy') as [_ C]. apply Rleb_le in C. apply Rltb_lt in Hp. lra. }
  assert (Cr : forall q x, nth_error incs q = Some x -> forall y, nth_error (sm_layers m (tb_isP b)) q = Some y -> crosses p y).
  { intros q x Hx y' Hy'. destruct (H3 q x Hx) as [G _]. unfold layerTimeDist in G. apply layer_py in Hy'. rewrite Hy' in G. cbn [bind] in G.
    if_in G; [discriminate|]. if_in G; [discriminate|].
    destruct (p >? py_min (sl_topP y') (sl_botP y')) eqn:E; [discriminate|]. apply Rltb_ge in E. unfold py_min in E.
    split; apply Rleb_le; destruct (sl_botP y' <? sl_topP y') eqn:E'; [apply Rltb_lt in E'|apply Rltb_ge in E'|apply Rltb_lt in E'|apply Rltb_ge in E']; lra. }
  exists j, (firstn k incs), (skipn k incs). split; [assumption|]. split; [apply firstn_length_le; lia|].
  split; [intros q x Hq; rewrite nth_firstn in Hq; destruct (q <? k)%nat; [|discriminate]; apply H3; assumption|].
  split.
  - unfold descends. rewrite skipn_length. split; [lia|]. split; [|split].
    + intros q y' Hq Hy'. destruct (nth_error incs (k + q)) as [x|] eqn:Ex; [|apply nth_error_None in Ex; lia]. exact (Cr _ _ Ex _ Hy').
    + intros q x Hq. rewrite nth_skipn in Hq. apply H3. assumption.
    + replace (k + (List.length incs - k))%nat with (List.length incs) by lia. destruct H4 as [H4|[y' [Hy' Hp]]]; [left; assumption|right].
      exists y'. split; [assumption|]. split; [|apply Hs; eapply nth_error_In; exact Hy'].
      intros [_ C]. apply Rleb_le in C. apply Rltb_lt in Hp. lra.
  - assert (Sum : forall (f : timedist R -> R) l a, fold_left (fun s x => (s + f x)%R) l a = (a + fold_left (fun s x => (s + f x)%R) l 0)%R).
    { intros f. induction l as [|x l IH]; intros a; cbn [fold_left]; [lra|]. rewrite IH, (IH (0 + f x)%R). lra. }
    assert (Sp : forall f : timedist R -> R, fold_left (fun s x => (s + f x)%R) incs 0%R =
      (fold_left (fun s x => (s + f x)%R) (firstn k incs) 0 + fold_left (fun s x => (s + f x)%R) (skipn k incs) 0)%R).
    { intros f. rewrite <- (firstn_skipn k incs) at 1. rewrite fold_left_app, Sum. reflexivity. }
    assert (S1 : sum_dist incs = sum_dist (firstn k incs) + sum_dist (skipn k incs)).
    { unfold sum_dist. rewrite n_0_R. exact (Sp td_dist). }
    assert (S2 : sum_time incs = sum_time (firstn k incs) + sum_time (skipn k incs)).
    { unfold sum_time. rewrite n_0_R. exact (Sp td_time). }
    rewrite <- S1, <- S2. tauto.
Qed.

(** C69: in a branch that starts at the surface the new sample is what the branch would
    hold had it been made with it. *)
Theorem C69_insert_surface :
  forall {L : Libm R} fuel (m : smodel R) (b b' : tbranch R) p (i : nat),
  let ls := sm_layers m (tb_isP b) in
  s_meet ls -> s_upright ls -> (List.length ls <= fuel)%nat ->
  (i <= List.length (tb_dist b))%nat -> (i <= List.length (tb_time b))%nat -> (i <= List.length (tb_tau b))%nat ->
  tb_top b <? tb_bot b = true -> p <=? tb_maxRP b = true ->
  deepest ls (tb_top b) 0 -> (forall y, nth_error ls 0 = Some y -> crosses p y) ->
  (forall y, In y ls -> ~ spans y p) ->
  tb_insert fuel b p m (Z.of_nat i) = Ok b' ->
  exists dist time tau, ray_values m (tb_isP b) b p dist time tau /\
    put_in i dist (tb_dist b) (tb_dist b') /\ put_in i time (tb_time b) (tb_time b') /\ put_in i tau (tb_tau b) (tb_tau b').
Proof.
  intros L fuel m b b' p i ls Hm Hu Hf I1 I2 I3 Lt Hp Dk Hc Hs H.
  destruct (C69_insert_excess fuel m b b' p i 0 Hm Hu Hf I1 I2 I3 Lt Dk) as [j [above [incs [Sj [La [_ [D [P1 [P2 P3]]]]]]]]]; try assumption.
  { intros [|q] y Hq; [apply Hc|lia]. }
  destruct above; [|discriminate].
  assert (Z1 : sum_dist (T := R) [] + sum_dist incs = sum_dist incs) by (unfold sum_dist at 1; cbn [fold_left]; rewrite n_0_R; cbn; lra).
  assert (Z2 : sum_time (T := R) [] + sum_time incs = sum_time incs) by (unfold sum_time at 1; cbn [fold_left]; rewrite n_0_R; cbn; lra).
  rewrite Z1 in P1, P3. rewrite Z2 in P2, P3.
  exists (sum_dist incs), (sum_time incs), (sum_time incs - p * sum_dist incs). split; [|tauto].
  split; [reflexivity|]. right. split; [assumption|]. exists 0%nat, j, incs. tauto.
Qed.

(** The ball of constant velocity in two layers (TwoRun.v): a vertical ray put into the lower
    of the two branches that meet at 3000 km gets the angle of the upper one as well, while put
    into the whole branch it gets what that branch holds for it. *)
Example C69_excess_ex : exists e tA xA tB xB, let m := two_sm e two_c' in
  s_meet (sm_layers m true) /\ s_upright (sm_layers m true) /\
  deepest (sm_layers m true) 3000%R 1 /\ deepest (sm_layers m true) 0%R 0 /\
  (forall y, In y (sm_layers m true) -> crosses 0%R y /\ ~ spans y 0%R) /\
  (exists b', tb_insert 20 (two_bot true) 0%R m 2 = Ok b' /\ tb_dist b' = [0; 0; xB + PI / 2; PI / 2]%R /\ tb_time b' = [0; 0; tB + 3371; 3371]%R) /\
  (exists b', tb_insert 20 (two_tb tA xA tB xB true) 0%R m 2 = Ok b' /\ tb_dist b' = [0; xA; xB + PI / 2; xB + PI / 2]%R).
Proof.
  destruct two_built as [e _]. destruct (two_first 3371 ltac:(lra)) as [tA [iA [bA _]]]. destruct (two_first 0 ltac:(lra)) as [tB [iB [bB [LB _]]]].
  exists e, tA, (bA - iA)%R, tB, (bB - iB)%R. cbv zeta. set (xB := (bB - iB)%R) in *.
  destruct (two_stack e two_c' true) as [Hm Hu]. destruct (two_layer e two_c' true) as [G1 G2].
  destruct (two_number e two_c' true) as [N1 [N2 [N3 [N4 N5]]]].
  assert (LN : (List.length (sm_layers (two_sm e two_c') true) <= 20)%nat) by (cbn; lia).
  split; [exact Hm|]. split; [exact Hu|].
  split; [exact (proj1 (below_iff_s 20 _ true _ 1 Hm Hu (R_ok _) LN) N2)|]. split; [exact (proj1 (below_iff_s 20 _ true _ 0 Hm Hu (R_ok _) LN) N1)|].
  split.
  { intros y [<-|[<-|[]]]; (split; [split; apply Rleb_le; cbn; lra|]; intros H; apply Rltb_lt in H; rewrite n_0_R in H; cbn in H; lra). }
  assert (Q : forall x : R, n_eqb x x = true) by (intro; apply Reqb_eq; lra).
  assert (Le : forall x y : R, (x <= y)%R -> n_leb x y = true) by (intros; now apply Rleb_le).
  assert (NL : forall x y : R, (y <= x)%R -> n_ltb x y = false) by (intros; apply Rltb_ge; lra).
  assert (IS : insert_sum (two_sm e two_c') true 0%R (zrange 0 2) (td_new 0%R) = Ok (mkTD 0 (tB + 3371) (xB + PI / 2) 0)%R).
  { change (zrange 0 2) with [0; 1]%Z. cbn [insert_sum]. rewrite G1, G2. cbn [bind sl_botP]. rewrite !NL by lra. rewrite LB, two_through. cbn [bind].
    unfold td_add, td_new. cbn [td_p td_time td_dist td_depth]. rewrite n_0_R. cbn [n_add Num_R]. do 2 f_equal; lra. }
  split; eexists; unfold tb_insert, two_bot, two_tb; cbn [tb_top tb_bot tb_isP tb_dist tb_time tb_tau];
    rewrite ?N1, ?N2, N5; cbn [bind]; rewrite ?G1, G2; cbn [bind sl_topDepth sl_botDepth sl_topP sl_botP];
    rewrite !Q; cbn [negb orb]; rewrite !Le by lra; cbn [andb]; change (1 + 1)%Z with 2%Z; rewrite IS; cbn [bind td_dist td_time];
    (split; [reflexivity|]); cbn; repeat split; reflexivity.
Qed.

(** Not hypothetical.  In doubles: a sample put into the crust, the first branch, repeats
    what the branch holds for that ray. *)
Definition nth_b (l : list (tbranch b64)) (n : nat) : tbranch b64 := nth n l (mkTB n_0 n_0 true n_0 n_0 n_0 [] [] []).
Example C69_insert_ex :
  let b := nth_b (tm_P toy_tMod) 0 in
  match tb_insert 50 b (nth 8 (tm_rayParams toy_tMod) n_0) toy_sMod 8 with
  | Ok b' => nth 8 (tb_dist b') n_0 = nth 8 (tb_dist b) n_0 /\ nth 9 (tb_dist b') n_0 = nth 8 (tb_dist b) n_0 /\
             n_0 <? nth 8 (tb_dist b) n_0 = true /\ List.length (tb_tau b') = S (List.length (tb_tau b))
  | _ => False
  end.
Proof. vm_compute. repeat split; reflexivity. Qed.

(** C69: in a deeper branch, here the mantle, the new sample differs from what the branch
    holds for that ray. *)
Theorem C69_deeper_refuted :
  exists (m : smodel b64) (b b' : tbranch b64) rp i p old new,
    createBranch 50 m (tb_top b) (tb_bot b) (tb_isP b) (tb_maxRP b) rp = Ok b /\
    nth_error rp i = Some p /\ nth_error (tb_dist b) i = Some old /\ n_0 <? old = true /\
    tb_insert 50 b p m (Z.of_nat i) = Ok b' /\ nth_error (tb_dist b') i = Some new /\ old + n_lit 1 (-3) <? new = true.
Proof.
  set (b := nth_b (tm_P toy_tMod) 1). set (p := nth 8 (tm_rayParams toy_tMod) n_0).
  set (b' := result_get (tb_insert 50 b p toy_sMod 8) b).
  exists toy_sMod, b, b', (tm_rayParams toy_tMod), 8%nat, p, (nth 8 (tb_dist b) n_0), (nth 8 (tb_dist b') n_0).
  vm_compute. repeat split; reflexivity.
Qed.

(** A model in doubles with a layer boundary at 1000 km, and the slownesses there. *)
Definition cut_model : smodel b64 * b64 * b64 :=
  Eval vm_compute in
  result_get (let! (_, a) := splitLayer 50 toy_sMod (d 1000 0) false in
              let! (_, b) := splitLayer 50 (si_sMod a) (d 1000 0) true in
              Ok (si_sMod b, si_rayParam a, si_rayParam b)) (toy_sMod, n_0, n_0).
Definition cut_m : smodel b64 := fst (fst cut_model).
(** place of a new ray parameter, and the ray parameters with it *)
Definition more (rp : list b64) (p : b64) : nat * list b64 :=
  let a := filter (fun x => p <? x) rp in (List.length a, a ++ p :: filter (fun x => x <=? p) rp).
Definition one_more := Eval vm_compute in more (tm_rayParams toy_tMod) (snd cut_model).
Definition two_more := Eval vm_compute in
  let (s, r) := more (tm_rayParams toy_tMod) (snd (fst cut_model)) in (s, more r (snd cut_model)).
Definition mantle : tbranch b64 := Eval vm_compute in nth_b (tm_P toy_tMod) 1.
Definition upper (rp : list b64) : result (tbranch b64) := createBranch 50 cut_m (tb_top mantle) (d 1000 0) true (tb_maxRP mantle) rp.
Definition lower (rp : list b64) : result (tbranch b64) :=
  let! top := upper rp in createBranch 50 cut_m (d 1000 0) (tb_bot mantle) true (tb_minRP top) rp.

Definition rp_1 : list b64 := snd one_more.
Definition top_1 : tbranch b64 := Eval vm_compute in result_get (upper rp_1) mantle.
Definition low_1 : tbranch b64 := Eval vm_compute in result_get (lower rp_1) mantle.
Definition diff_1 : tbranch b64 := Eval vm_compute in
  result_get (tb_difference 50 mantle top_1 (Z.of_nat (fst one_more)) (-1) cut_m rp_1) mantle.
Definition rp_2 : list b64 := snd (snd two_more).
Definition top_2 : tbranch b64 := Eval vm_compute in result_get (upper rp_2) mantle.
Definition low_2 : tbranch b64 := Eval vm_compute in result_get (lower rp_2) mantle.
Definition diff_2 : tbranch b64 := Eval vm_compute in
  result_get (tb_difference 50 mantle top_2 (Z.of_nat (fst (snd two_more))) (Z.of_nat (fst two_more)) cut_m rp_2) mantle.
Definition lengths (b : tbranch b64) : list nat := [List.length (tb_dist b); List.length (tb_time b); List.length (tb_tau b)].

(** the hypotheses of the theorems about differences hold for it *)
Example C69_ex :
  (forall w, s_meet (sm_layers cut_m w)) /\ (forall w, s_upright (sm_layers cut_m w)) /\
  (tb_bot top_1 <? tb_bot mantle = true /\ lengths mantle = [13; 13; 13]%nat /\ lengths top_1 = [14; 14; 14]%nat /\ fst one_more = 6%nat) /\
  (tb_bot top_2 <? tb_bot mantle = true /\ fst two_more = 5%nat /\ fst (snd two_more) = 7%nat) /\
  (exists c, tb_difference 50 mantle top_1 (-1) (-1) cut_m rp_1 = Ok c).
Proof.
  assert (Mt : forall ls : list (slayer b64), forallb (fun ab => sl_botDepth (fst ab) =? sl_topDepth (snd ab)) (combine ls (tl ls)) = true -> s_meet ls).
  { intros ls H i a b Ha Hb. rewrite forallb_forall in H. apply (H (a, b)). apply (nth_error_In _ i).
    clear H. revert i Ha Hb. induction ls as [|x ls IH]; intros [|i] Ha Hb; try discriminate; cbn in Ha, Hb; destruct ls as [|y ls]; try discriminate.
    - cbn in Hb. cbn. congruence.
    - cbn [combine tl nth_error]. exact (IH i Ha Hb). }
  assert (Ut : forall ls : list (slayer b64), forallb (fun y => sl_topDepth y <=? sl_botDepth y) ls = true -> s_upright ls).
  { intros ls H y Hy. rewrite forallb_forall in H. exact (H y Hy). }
  split; [intros [|]; apply Mt; vm_compute; reflexivity|]. split; [intros [|]; apply Ut; vm_compute; reflexivity|].
  split; [vm_compute; repeat split; reflexivity|]. split; [vm_compute; repeat split; reflexivity|].
  eexists. vm_compute. reflexivity.
Qed.

(** C69: with one new sample the distances have no entry for it while the times end there:
    the lengths differ from each other and from the number of ray parameters. *)
Theorem C69_one_refuted :
  exists (m : smodel b64) (b top c low : tbranch b64) p rp,
    createBranch 50 m (tb_top b) (tb_bot top) (tb_isP b) (tb_maxRP b) rp = Ok top /\
    createBranch 50 m (tb_bot top) (tb_bot b) (tb_isP b) (tb_minRP top) rp = Ok low /\
    tb_difference 50 b top (Z.of_nat p) (-1) m rp = Ok c /\
    List.length (tb_dist low) = List.length rp /\ List.length (tb_time low) = List.length rp /\
    (List.length (tb_dist c) < List.length rp)%nat /\ (List.length (tb_time c) < List.length (tb_dist c))%nat.
Proof.
  exists cut_m, mantle, top_1, diff_1, low_1, (fst one_more), rp_1.
  vm_compute. repeat split; try reflexivity; repeat constructor.
Qed.

(** C69: with two new samples the entries between the samples are not those of the rays: here
    a ray that reaches the depth of the cut but does not pass it gets a distance of over two
    degrees in the branch below. *)
Theorem C69_two_refuted :
  exists (m : smodel b64) (b top c low : tbranch b64) s p rp,
    createBranch 50 m (tb_top b) (tb_bot top) (tb_isP b) (tb_maxRP b) rp = Ok top /\
    createBranch 50 m (tb_bot top) (tb_bot b) (tb_isP b) (tb_minRP top) rp = Ok low /\
    tb_difference 50 b top (Z.of_nat p) (Z.of_nat s) m rp = Ok c /\ (s < p)%nat /\
    List.length (tb_dist c) = List.length rp /\ List.length (tb_dist low) = List.length rp /\
    nth p (tb_dist low) n_0 = n_0 /\ n_lit 4 (-2) <? nth p (tb_dist c) n_0 = true /\
    n_lit 2 (-1) <? nth (S p) (tb_dist low) n_0 = true /\ nth (S p) (tb_dist c) n_0 = n_0.
Proof.
  exists cut_m, mantle, top_2, diff_2, low_2, (fst two_more), (fst (snd two_more)), rp_2.
  vm_compute. repeat split; try reflexivity; repeat constructor.
Qed.

Print Assumptions C69_insert.
Print Assumptions C69_insert_excess.
Print Assumptions C69_insert_surface.
Print Assumptions C69_deeper_refuted.
Print Assumptions C69_difference_no_P.
Print Assumptions C69_difference_one.
Print Assumptions C69_difference_two.
Print Assumptions C69_one_refuted.
Print Assumptions C69_two_refuted.

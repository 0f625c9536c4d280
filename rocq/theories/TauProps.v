(** Properties C24 to C29: tau models, their branches, branch lookup and depth correction. *)
From Coq Require Import ZArith Bool List String Sorted Reals Lia Lra SpecFloat.
From Verif Require Import Base Num PyStr VelocityModel VelSpec VelProofs SlownessLayer SlownessModel
  SlowSpec SlowProofs SlowAddProofs SlowBuildProofs SlowRealProofs CritSpec CritProofs SplitSpec SplitProofs
  TauModel TauSpec TauProofs TauSplitProofs TauBuildProofs Toy SlowProps CritProps.
Import ListNotations.
Local Open Scope list_scope.
Local Open Scope num_scope.

Example toy_tau_built : newTauModel 200 toy_sMod = Ok toy_tMod.
Proof. vm_compute. reflexivity. Qed.

(** ** C24: ray parameter samples *)
Theorem C24_ray_parameters :
  forall {T} {N : Num T} {O : NumOrd T} {L : Libm T} fuel (m : smodel T) t, newTauModel fuel m = Ok t ->
  (forall v, In v (slownesses (sm_S m)) -> n_ok v) ->
  records (slownesses (sm_S m)) (tm_rayParams t) /\ decreasing (tm_rayParams t) /\
  hd_error (tm_rayParams t) = hd_error (slownesses (sm_S m)) /\
  (forall u p, In u (slownesses (sm_S m)) -> last (tm_rayParams t) p <=? u = true).
Proof.
  intros T N O L fuel m t H Hv. apply newTauModel_inv in H. destruct H as [_ [_ [H _]]].
  apply tauRayParams_spec in H; [|exact Hv]. exact H.
Qed.
Lemma toy_numbers : forall v, In v (slownesses (sm_S toy_sMod)) -> n_ok v.
Proof.
  assert (H : forallb (fun v => v =? v) (slownesses (sm_S toy_sMod)) = true) by (vm_compute; reflexivity).
  intros v Hv. exact (proj1 (forallb_forall _ _) H v Hv).
Qed.
(** 30 slownesses, of which 13 are records: repeated ones and those of the outer core that
    exceed the ones at the bottom of the mantle are left out *)
Example C24_ex :
  newTauModel 200 toy_sMod = Ok toy_tMod /\ (forall v, In v (slownesses (sm_S toy_sMod)) -> n_ok v) /\
  List.length (slownesses (sm_S toy_sMod)) = 30%nat /\ (List.length (tm_rayParams toy_tMod) < 30)%nat /\
  (2 < List.length (tm_rayParams toy_tMod))%nat.
Proof. split; [exact toy_tau_built|]. split; [exact toy_numbers|]. vm_compute. repeat split; lia. Qed.

(** ** C25: branches *)
(** The branches of both wave types lie between neighbouring critical depths; a branch stores
    for every ray the sums over the layers the ray crosses in it. *)
Theorem C25_branches_tile :
  forall {T} {N : Num T} {O : NumOrd T} {L : Libm T} fuel fuel' vm dp Dp dz dx err innerS tol (m : smodel T) t,
  newSlownessModel fuel vm dp Dp dz dx err innerS tol = Ok m -> newTauModel fuel' m = Ok t ->
  n_ok (vm_radius vm) -> contiguous (vm_layers vm) -> thick (vm_layers vm) -> ~ critical_top vm innerS 0 ->
  forall w, tiles (sm_crit m) (branches t w) /\ b_meet (branches t w) /\ b_upright (branches t w) /\
    (forall b, In b (branches t w) -> tb_isP b = w /\ all_rays m w (tm_rayParams t) b).
Proof.
  intros T N O L fuel fuel' vm dp Dp dz dx err innerS tol m t H HT Hr Hc Ht Hq.
  exact (tau_built _ _ _ _ _ H Hr Hc Ht Hq HT).
Qed.
Lemma validated_contiguous : forall (vm : vmodel R) fuel (L : Libm R) dp Dp dz dx err innerS tol m,
  newSlownessModel fuel vm dp Dp dz dx err innerS tol = Ok m -> contiguous (vm_layers vm).
Proof.
  intros vm fuel L dp Dp dz dx err innerS tol m H. apply createSample_steps in H.
  destruct H as [m1 [m0 [m5 [crit [Hv [Hf [Hc _]]]]]]].
  assert (Hne : vm_layers vm <> []).
  { intros En. destruct Hc as [first [_ [_ [_ [_ [Hi _]]]]]].
    pose proof (findCritical_spec _ _ Hf) as [F1 _]. cbn [sm_set_radius sm_vMod sm_init] in F1. rewrite F1, En in Hi. discriminate. }
  apply (validate_iff _ (model_numbers_R _) Hne) in Hv. tauto.
Qed.
(** over the reals thick velocity layers suffice *)
Theorem C25_branches_tile_exact :
  forall {L : Libm R} fuel fuel' vm dp Dp dz dx err innerS tol (m : smodel R) t,
  newSlownessModel fuel vm dp Dp dz dx err innerS tol = Ok m -> newTauModel fuel' m = Ok t ->
  thick (vm_layers vm) ->
  forall w, tiles (sm_crit m) (branches t w) /\ b_meet (branches t w) /\ b_upright (branches t w) /\
    (forall b, In b (branches t w) -> tb_isP b = w /\ all_rays m w (tm_rayParams t) b).
Proof.
  intros L fuel fuel' vm dp Dp dz dx err innerS tol m t H HT Ht.
  pose proof (validated_contiguous _ _ _ _ _ _ _ _ _ _ _ H) as Hc.
  exact (C25_branches_tile _ _ _ _ _ _ _ _ _ _ _ _ H HT (proj2 (Reqb_eq _ _) eq_refl) Hc Ht (C44_surface_once vm innerS)).
Qed.
(** P and S branches have the same ends *)
Theorem C25_same_ends :
  forall {T} {N : Num T} (crit : list (critdepth T)) bs bs', tiles crit bs -> tiles crit bs' ->
  List.length bs = List.length bs' /\
  forall i b b', nth_error bs i = Some b -> nth_error bs' i = Some b' -> tb_top b = tb_top b' /\ tb_bot b = tb_bot b'.
Proof.
  intros T N crit bs bs' [E H] [E' H']. split; [lia|]. intros i b b' Hb Hb'.
  assert (Li : (i < List.length bs)%nat) by (apply nth_error_Some; congruence).
  destruct (nth_error crit i) as [c|] eqn:Ec; [|apply nth_error_None in Ec; lia].
  destruct (nth_error crit (S i)) as [c'|] eqn:Ec'; [|apply nth_error_None in Ec'; lia].
  destruct (H _ _ _ _ Hb Ec Ec') as [-> ->]. destruct (H' _ _ _ _ Hb' Ec Ec') as [-> ->]. auto.
Qed.
Lemma toy_contiguous : contiguous (vm_layers toy_vm).
Proof.
  intros i a b [Ha Ha'] [Hb Hb']. cbn [toy_vm vm_layers] in *.
  destruct (Z.to_nat i) as [|[|[|[|k]]]] eqn:Ei; cbn [nth_error] in Ha';
    [| | | |destruct k; discriminate]; inversion Ha'; subst a; clear Ha';
    replace (Z.to_nat (i + 1)) with (S (Z.to_nat i)) in Hb' by lia; rewrite Ei in Hb'; cbn [nth_error] in Hb';
    inversion Hb'; subst b; vm_compute; reflexivity.
Qed.
Lemma toy_thick : thick (vm_layers toy_vm).
Proof. intros v [<-|[<-|[<-|[<-|[]]]]]; vm_compute; reflexivity. Qed.
Lemma toy_surface : ~ critical_top toy_vm true 0.
Proof.
  intros [v [w [tp [bp [Hv [He H]]]]]]. cbn in Hv. inversion Hv; subst v. clear Hv.
  assert (E : ends true (mkVLayer 0 (d 0 0) (d 35 0) (d 6 0) (d 6 0) (d 35 (-1)) (d 35 (-1)) (d 26 (-1)) (d 26 (-1))) tp bp \/
              ends false (mkVLayer 0 (d 0 0) (d 35 0) (d 6 0) (d 6 0) (d 35 (-1)) (d 35 (-1)) (d 26 (-1)) (d 26 (-1))) tp bp)
    by (unfold ends_of in He; tauto). clear He.
  destruct E as [[E1 E2]|[E1 E2]]; vm_compute in E1, E2; inversion E1; inversion E2; subst tp bp; clear E1 E2;
  destruct H as [H|H]; vm_compute in H; discriminate.
Qed.
Example C25_ex :
  newSlownessModel 200 toy_vm (d 1 (-1)) (d 1000 0) (d 3000 0) (d 1000 0) (d 1000 0) true (d 1 (-16)) = Ok toy_sMod /\
  newTauModel 200 toy_sMod = Ok toy_tMod /\
  n_ok (vm_radius toy_vm) /\ contiguous (vm_layers toy_vm) /\ thick (vm_layers toy_vm) /\ ~ critical_top toy_vm true 0 /\
  forall w, map (fun b => (tb_top b, tb_bot b)) (branches toy_tMod w)
            = [(d 0 0, d 35 0); (d 35 0, d 2889 0); (d 2889 0, d 5154 0); (d 5154 0, d 6371 0)].
Proof.
  split; [exact toy_built|]. split; [exact toy_tau_built|]. split; [reflexivity|].
  split; [exact toy_contiguous|]. split; [exact toy_thick|]. split; [exact toy_surface|].
  intros []; vm_compute; reflexivity.
Qed.

(** The list of branch boundaries starts with the top of the first branch and goes on with the bottom of every branch but the last. *)
Lemma mapM_app : forall {A B} (f : A -> result B) l l' r r', mapM f l = Ok r -> mapM f l' = Ok r' -> mapM f (l ++ l') = Ok (r ++ r').
Proof.
  induction l as [|a l IH]; intros l' r r' H H'; cbn [mapM app] in *.
  - inversion H; subst r. exact H'.
  - inv_as H as b Hb. inv_as H as rs Hrs. inversion H; subst r. rewrite Hb. cbn [bind]. rewrite (IH l' rs r' Hrs H'). reflexivity.
Qed.
Theorem C25_branch_depths : forall {T} {N : Num T} (t : tmodel T),
  (forall l, getBranchDepths t = Ok l <->
     exists b bs, tm_P t = b :: bs /\ l = tb_top b :: map tb_bot (removelast (b :: bs))) /\
  (tm_P t = [] -> getBranchDepths t = Raise IndexError).
Proof.
  intros T N t. split; [|intros E; unfold getBranchDepths, getTauBranch; rewrite E; reflexivity].
  assert (K : forall k, (k < List.length (tm_P t))%nat ->
    mapM (fun i => let! b := getTauBranch t (i - 1) true in Ok (tb_bot b)) (zrange 1 (1 + Z.of_nat k)) = Ok (map tb_bot (firstn k (tm_P t)))).
  { induction k as [|k IH]; intros Hk; [reflexivity|].
    replace (1 + Z.of_nat (S k))%Z with ((1 + Z.of_nat k) + 1)%Z by lia. rewrite zrange_snoc by lia.
    destruct (nth_error (tm_P t) k) as [b|] eqn:Eb; [|apply nth_error_None in Eb; lia].
    assert (Ef : firstn (S k) (tm_P t) = firstn k (tm_P t) ++ [b]).
    { clear - Eb. revert Eb. generalize (tm_P t). induction k as [|k IH]; intros [|x l] Eb; try discriminate; cbn [nth_error firstn app] in *.
      - injection Eb as ->. reflexivity.
      - rewrite (IH l Eb). reflexivity. }
    rewrite Ef, map_app. apply mapM_app; [apply IH; lia|]. cbn [mapM].
    replace (1 + Z.of_nat k - 1)%Z with (Z.of_nat k) by lia.
    assert (G : getTauBranch t (Z.of_nat k) true = Ok b).
    { unfold getTauBranch. apply py_index_nonneg; [lia|]. rewrite Nat2Z.id. exact Eb. }
    rewrite G. reflexivity. }
  assert (Rl : forall A (x : A) l, removelast (x :: l) = firstn (List.length l) (x :: l)).
  { intros A x l. revert x. induction l as [|y l IH]; intros x; [reflexivity|]. change (removelast (x :: y :: l)) with (x :: removelast (y :: l)).
    rewrite IH. reflexivity. }
  intros l. unfold getBranchDepths. destruct (tm_P t) as [|b bs] eqn:E.
  - unfold getTauBranch. rewrite E. cbn. split; [discriminate|]. intros [? [? [F _]]]. discriminate.
  - assert (G : getTauBranch t 0 true = Ok b) by (unfold getTauBranch; rewrite E; reflexivity). rewrite G. cbn [bind].
    replace (Z.of_nat (List.length (b :: bs))) with (1 + Z.of_nat (List.length bs))%Z by (cbn [List.length]; lia).
    rewrite (K (List.length bs)) by (cbn [List.length]; lia). cbn [bind]. rewrite <- Rl. split.
    + intros H. inversion H. exists b, bs. auto.
    + intros [b' [bs' [F ->]]]. inversion F; subst. reflexivity.
Qed.
Print Assumptions C25_branch_depths.
Example C25_branch_depths_ex : exists l, getBranchDepths toy_tMod = Ok l /\ l = [d 0 0; d 35 0; d 2889 0; d 5154 0].
Proof. eexists. split; vm_compute; reflexivity. Qed.

(** ** C26: Moho, core-mantle and inner core branches *)
Theorem C26_nearest_branches :
  forall {T} {N : Num T} {O : NumOrd T} {L : Libm T} fuel (m : smodel T) t, newTauModel fuel m = Ok t ->
  (forall b x, In b (tm_P t) -> x = vm_moho (sm_vMod m) \/ x = vm_cmb (sm_vMod m) \/ x = vm_iocb (sm_vMod m) ->
     n_ok (n_abs (tb_top b - x))) ->
  nearest_top false (tm_P t) (vm_moho (sm_vMod m)) (Z.to_nat (tm_mohoBranch t)) /\
  nearest_top true (tm_P t) (vm_cmb (sm_vMod m)) (Z.to_nat (tm_cmbBranch t)) /\
  nearest_top true (tm_P t) (vm_iocb (sm_vMod m)) (Z.to_nat (tm_iocbBranch t)) /\
  starts_at t (tm_mohoBranch t) (tm_mohoDepth t) /\ starts_at t (tm_cmbBranch t) (tm_cmbDepth t) /\
  starts_at t (tm_iocbBranch t) (tm_iocbDepth t).
Proof.
  intros T N O L fuel m t H Hok. apply newTauModel_inv in H. destruct H as [_ [_ [_ [_ [H1 [H2 [H3 _]]]]]]].
  assert (K : forall f x i z, closestBranch f x (tm_P t) = Ok (i, z) -> (forall b, In b (tm_P t) -> n_ok (n_abs (tb_top b - x))) ->
            nearest_top f (tm_P t) x (Z.to_nat i) /\ starts_at t i z).
  { intros f x i z E Hx. destruct (closestBranch_spec f x (tm_P t) Hx) as [[n [b [E' [Hn [Hnear _]]]]]|[E' _]]; [|congruence].
    rewrite E in E'. assert (i = Z.of_nat n /\ z = tb_top b) as [-> ->] by (split; congruence). rewrite Nat2Z.id. split; [assumption|].
    unfold starts_at. rewrite Nat2Z.id. split; [lia|]. eauto. }
  apply K in H1; [|intros; apply Hok; auto]. apply K in H2; [|intros; apply Hok; auto]. apply K in H3; [|intros; apply Hok; auto].
  tauto.
Qed.
Example C26_ex :
  forallb (fun b => forallb (fun x => let e := n_abs (tb_top b - x) in e =? e)
    [vm_moho toy_vm; vm_cmb toy_vm; vm_iocb toy_vm]) (tm_P toy_tMod) = true /\
  (tm_mohoBranch toy_tMod, tm_cmbBranch toy_tMod, tm_iocbBranch toy_tMod) = (1, 2, 3)%Z /\
  (tm_mohoDepth toy_tMod, tm_cmbDepth toy_tMod, tm_iocbDepth toy_tMod) = (d 35 0, d 2889 0, d 5154 0).
Proof. vm_compute. repeat split. Qed.

(** ** C27: depth correction *)
Theorem C27_depth_correction :
  forall {T} {N : Num T} {O : NumOrd T} {L : Libm T} fuel w (t : tmodel T) x w' t' r,
  decreasing (tm_rayParams t) -> b_meet (tm_P t) -> b_upright (tm_P t) ->
  (exists b, last_branch (tm_P t) b /\ x <? tb_bot b = true) ->
  tm_depthCorrect fuel w t x = Ok (w', t', r) ->
  apart (tm_sMod r) x -> (forall v b, In b (branches t v) -> apart (tm_sMod r) (tb_top b)) ->
  tm_sourceDepth r = x /\ same_depths t r /\
  (exists b, nth_error (tm_P r) (Z.to_nat (tm_sourceBranch r)) = Some b /\ (0 <= tm_sourceBranch r)%Z /\ tb_top b =? x = true) /\
  ((at_edge (tm_P t) x /\ w' = w /\ (forall v, branches r v = branches t v)) \/
   (~ at_edge (tm_P t) x /\ w' = w ++ [x] /\
    exists n, (forall v, cut_at (new_branch (tm_sMod r) v (tm_rayParams r)) x n (branches t v) (branches r v)) /\
              tm_sourceBranch r = Z.of_nat (S n))) /\
  (starts_at t (tm_mohoBranch t) (tm_mohoDepth t) -> starts_at r (tm_mohoBranch r) (tm_mohoDepth r)) /\
  (starts_at t (tm_cmbBranch t) (tm_cmbDepth t) -> starts_at r (tm_cmbBranch r) (tm_cmbDepth r)) /\
  (starts_at t (tm_iocbBranch t) (tm_iocbDepth t) -> starts_at r (tm_iocbBranch r) (tm_iocbDepth r)).
Proof. intros T N O L. exact depthCorrect_exact. Qed.

(** over the reals, for every ray the two parts add up to the branch that was cut *)
Definition adds_up (f : tbranch R -> list R) (a b c : tbranch R) : Prop :=
  forall k y, nth_error (f b) k = Some y ->
  exists x z, nth_error (f a) k = Some x /\ nth_error (f c) k = Some z /\ (x + z = y)%R.
Lemma rest_adds_up : forall (f : tbranch R -> list R) a b c,
  List.length (f a) = List.length (f b) -> rest_of f a b c -> adds_up f a b c.
Proof.
  intros f a b c E H. destruct (H E) as [E' Hk]. intros k y Hy.
  assert (Lk : (k < List.length (f b))%nat) by (apply nth_error_Some; congruence).
  destruct (nth_error (f a) k) as [x|] eqn:Ex; [|apply nth_error_None in Ex; lia].
  destruct (nth_error (f c) k) as [z|] eqn:Ez; [|apply nth_error_None in Ez; lia].
  exists x, z. split; [reflexivity|]. split; [reflexivity|]. rewrite (Hk _ _ _ _ Ex Hy Ez). cbn [n_sub Num_R]. lra.
Qed.
Theorem C27_constructed_models :
  forall {L : Libm R} fuel fuel' fuel'' vm dp Dp dz dx err innerS tol (m : smodel R) t w x w' t' r,
  newSlownessModel fuel vm dp Dp dz dx err innerS tol = Ok m -> newTauModel fuel' m = Ok t ->
  thick (vm_layers vm) ->
  (exists b, last_branch (tm_P t) b /\ (x < tb_bot b)%R) ->
  tm_depthCorrect fuel'' w t x = Ok (w', t', r) ->
  apart (tm_sMod r) x -> (forall v b, In b (branches t v) -> apart (tm_sMod r) (tb_top b)) ->
  starts_at r (tm_sourceBranch r) x /\
  starts_at r (tm_mohoBranch r) (tm_mohoDepth t) /\ starts_at r (tm_cmbBranch r) (tm_cmbDepth t) /\
  starts_at r (tm_iocbBranch r) (tm_iocbDepth t) /\
  (~ at_edge (tm_P t) x ->
   exists n, tm_sourceBranch r = Z.of_nat (S n) /\
   forall v, exists l1 b l2 a c, branches t v = l1 ++ b :: l2 /\ List.length l1 = n /\
     branches r v = l1 ++ a :: c :: l2 /\ cut_branch x b a c /\
     adds_up tb_dist a b c /\ adds_up tb_time a b c /\ adds_up tb_tau a b c) /\
  (at_edge (tm_P t) x -> forall v, branches r v = branches t v).
Proof.
  intros L fuel fuel' fuel'' vm dp Dp dz dx err innerS tol m t w x w' t' r Hm HT Ht [bl [Hbl Hlt]] H Ax Ab.
  pose proof (C25_branches_tile_exact _ _ _ _ _ _ _ _ _ _ _ _ Hm HT Ht) as B.
  assert (K : forall y : R, n_ok y) by (intros y; apply Reqb_eq; reflexivity).
  destruct (C24_ray_parameters _ _ _ HT ltac:(intros; apply K)) as [_ [Hd _]].
  destruct (C26_nearest_branches _ _ _ HT ltac:(intros; apply K)) as [_ [_ [_ [S1 [S2 S3]]]]].
  destruct (B true) as [_ [Bm [Bu _]]]. cbn [branches] in Bm, Bu.
  apply C27_depth_correction in H; [|assumption..|exists bl; split; [assumption|apply Rltb_lt; assumption]|assumption|assumption].
  destruct H as [_ [[E1 [E2 [E3 [_ Er]]]] [[sb [Hsb [Hs0 Hse]]] [C [M1 [M2 M3]]]]]].
  split; [split; [assumption|]; exists sb; split; [assumption|]; apply Reqb_eq; assumption|].
  rewrite <- E1, <- E2, <- E3. split; [auto|]. split; [auto|]. split; [auto|].
  destruct C as [[C1 [_ C2]]|[C1 [_ [n [C2 C3]]]]]; (split; [intros F|intros F]); try tauto.
  exists n. split; [assumption|]. intros v. destruct (C2 v) as [l1 [b [l2 [a [c [D1 [D2 [D3 [D4 D5]]]]]]]]].
  exists l1, b, l2, a, c. do 4 (split; [assumption|]).
  destruct D5 as [D5 [D6 [D7 _]]]. pose proof D4 as [_ [_ [_ [_ [_ [_ [_ [_ [_ [_ [R1 [R2 R3]]]]]]]]]]]].
  destruct (B v) as [_ [_ [_ Bv]]]. destruct (Bv b) as [_ [G1 [G2 [G3 _]]]].
  { rewrite D1. apply in_or_app. right. left. reflexivity. }
  rewrite Er in *. split; [|split]; apply rest_adds_up; congruence || assumption.
Qed.

Definition apartb (m : smodel b64) (x : b64) : bool :=
  forallb (fun y => forallb (fun e => (e =? x) || negb (n_abs (e - x) <? n_lit 1 (-6)) && negb (n_abs (x - e) <? n_lit 1 (-6)))
                            [sl_topDepth y; sl_botDepth y]) (sm_P m ++ sm_S m).
Lemma apartb_ok : forall m x, apartb m x = true -> apart m x.
Proof.
  intros m x H w y e Hy He. unfold apartb in H. rewrite forallb_forall in H.
  assert (Hy' : In y (sm_P m ++ sm_S m)) by (apply in_or_app; destruct w; auto).
  specialize (H y Hy'). rewrite forallb_forall in H.
  specialize (H e ltac:(destruct He as [->| ->]; cbn; auto)).
  apply orb_true_iff in H. destruct H as [H|H]; [left; assumption|right].
  apply andb_true_iff in H. destruct H as [H1 H2]. apply negb_true_iff in H1, H2. auto.
Qed.
Lemma toy_branches : decreasing (tm_rayParams toy_tMod) /\ b_meet (tm_P toy_tMod) /\ b_upright (tm_P toy_tMod).
Proof.
  split; [apply (C24_ray_parameters _ _ _ toy_tau_built toy_numbers)|].
  destruct (C25_branches_tile _ _ _ _ _ _ _ _ _ _ _ _ toy_built toy_tau_built eq_refl toy_contiguous toy_thick toy_surface true) as [_ [A [B _]]].
  split; assumption.
Qed.
(** source at a depth of 100 km: the mantle branch is cut *)
Example C27_ex :
  decreasing (tm_rayParams toy_tMod) /\ b_meet (tm_P toy_tMod) /\ b_upright (tm_P toy_tMod) /\
  match tm_depthCorrect 200 [] toy_tMod (d 100 0) with
  | Ok (w', t', r) =>
      w' = [d 100 0] /\ (tm_sourceBranch r, tm_mohoBranch r, tm_cmbBranch r, tm_iocbBranch r) = (2, 1, 3, 4)%Z /\
      map (fun b => (tb_top b, tb_bot b)) (tm_S r)
      = [(d 0 0, d 35 0); (d 35 0, d 100 0); (d 100 0, d 2889 0); (d 2889 0, d 5154 0); (d 5154 0, d 6371 0)] /\
      apartb (tm_sMod r) (d 100 0) = true /\
      forallb (fun b => apartb (tm_sMod r) (tb_top b)) (tm_P toy_tMod ++ tm_S toy_tMod) = true
  | _ => False
  end.
Proof.
  destruct toy_branches as [A [B C]]. split; [assumption|]. split; [assumption|]. split; [assumption|].
  vm_compute. repeat split.
Qed.

(** ** C28: the slowness at the source depth *)
(** no ray parameter is added, whatever the depth *)
Theorem C28_source_slowness_sampled_refuted :
  forall {T} {N : Num T} {O : NumOrd T} {L : Libm T} fuel w (t : tmodel T) x w' t' r,
  decreasing (tm_rayParams t) -> tm_depthCorrect fuel w t x = Ok (w', t', r) -> tm_rayParams r = tm_rayParams t.
Proof.
  intros T N O L fuel w t x w' t' r Hd H. apply depthCorrect_spec in H; [|assumption].
  destruct H as [_ [_ [_ [H _]]]]. exact H.
Qed.
(** source at 100 km: a layer of the corrected model starts there, but its slowness is not a
    ray parameter *)
Example C28_ex :
  decreasing (tm_rayParams toy_tMod) /\
  match tm_depthCorrect 200 [] toy_tMod (d 100 0) with
  | Ok (_, _, r) =>
      existsb (fun y => (sl_topDepth y =? d 100 0)
                        && negb (existsb (fun p => p =? sl_topP y) (tm_rayParams r))) (sm_S (tm_sMod r)) = true
  | _ => False
  end.
Proof. split; [apply toy_branches|]. vm_compute. reflexivity. Qed.

(** ** C29: branch lookup *)
Theorem C29_lookup_exact :
  forall {T} {N : Num T} {O : NumOrd T} (t : tmodel T) x, b_meet (tm_P t) -> b_upright (tm_P t) ->
  (forall n, (exists b, nth_error (tm_P t) n = Some b /\ in_branch b x) -> findBranch t x = Ok (Z.of_nat n)) /\
  (forall bl, last_branch (tm_P t) bl -> (forall b, In b (tm_P t) -> ~ in_branch b x) ->
     findBranch t x = if tb_bot bl =? x then Ok 1%Z else Raise TauModelError) /\
  (forall b0 bl, nth_error (tm_P t) 0 = Some b0 -> last_branch (tm_P t) bl ->
     tb_top b0 <=? x = true -> x <? tb_bot bl = true ->
     exists n b, nth_error (tm_P t) n = Some b /\ in_branch b x).
Proof.
  intros T N O t x Hm Hu. split; [intros n H; apply findBranch_iff; assumption|]. split.
  - intros bl [l Hl] Hno. destruct (findBranch_spec t x) as [[n [b [_ [Hb [Hin _]]]]]|[_ [[F _]|[b [[l' Hl'] F]]]]].
    + exfalso. eapply Hno; [eapply nth_error_In; exact Hb|exact Hin].
    + rewrite F in Hl. destruct l; discriminate.
    + rewrite Hl in Hl'. apply app_inj_tail in Hl'. destruct Hl' as [_ ->]. exact F.
  - intros b0 bl H0 Hl Ht Hb. apply in_branch_exists; [assumption..|eauto|eauto].
Qed.
(** At the bottom of the last branch the answer is 1, whatever the number of branches. *)
Theorem C29_centre_refuted :
  forall {T} {N : Num T} {O : NumOrd T} (t : tmodel T) x bl, b_meet (tm_P t) -> b_upright (tm_P t) ->
  last_branch (tm_P t) bl -> tb_bot bl =? x = true -> findBranch t x = Ok 1%Z.
Proof.
  intros T N O t x bl Hm Hu Hl Hx.
  destruct (C29_lookup_exact t x Hm Hu) as [_ [H _]]. rewrite (H bl Hl), Hx; [reflexivity|].
  intros b Hb [_ Hlt]. apply In_nth_error in Hb. destruct Hb as [i Hi]. destruct Hl as [l Hl].
  assert (F : tb_bot b <=? tb_bot bl = true).
  { assert (Hn : nth_error (tm_P t) (List.length l) = Some bl) by (rewrite Hl, nth_error_app2, Nat.sub_diag by lia; reflexivity).
    assert (Li : (i <= List.length l)%nat).
    { assert (i < List.length (tm_P t))%nat by (apply nth_error_Some; congruence). rewrite Hl, app_length in *. cbn in *. lia. }
    destruct (Nat.eq_dec i (List.length l)) as [->|Hne].
    - rewrite Hn in Hi. inversion Hi; subst b. apply leb_refl. apply (eqb_ok _ _ Hx).
    - eapply ord_trans; [eapply (b_sorted (tm_P t) i (List.length l)); try eassumption; lia|].
      apply ltb_leb, Hu. eapply nth_error_In; exact Hn. }
  apply (ltb_leb_trans _ _ _ Hlt) in F. apply eqb_leb in Hx. rewrite (ltb_not_leb _ _ F) in Hx. discriminate.
Qed.
Example C29_ex :
  b_meet (tm_P toy_tMod) /\ b_upright (tm_P toy_tMod) /\ List.length (tm_P toy_tMod) = 4%nat /\
  findBranch toy_tMod (d 2889 0) = Ok 2%Z /\ findBranch toy_tMod (d 6000 0) = Ok 3%Z /\
  findBranch toy_tMod (d 6371 0) = Ok 1%Z /\ findBranch toy_tMod (d 6372 0) = Raise TauModelError.
Proof. split; [apply toy_branches|]. split; [apply toy_branches|]. vm_compute. repeat split. Qed.

Print Assumptions C24_ray_parameters.
Print Assumptions C25_branches_tile.
Print Assumptions C25_branches_tile_exact.
Print Assumptions C25_same_ends.
Print Assumptions C26_nearest_branches.
Print Assumptions C27_depth_correction.
Print Assumptions C27_constructed_models.
Print Assumptions C28_source_slowness_sampled_refuted.
Print Assumptions C29_lookup_exact.
Print Assumptions C29_centre_refuted.

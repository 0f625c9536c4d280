(** Property C45: the sampling limits of a slowness model. *)
From Coq Require Import ZArith Bool List String Reals Lia Lra Psatz.
From Verif Require Import Base Num PyStr VelocityModel VelSpec VelProofs SlownessLayer SlownessModel
  SlowSpec SlowProofs SlowAddProofs SlowBuildProofs CritSpec CritProofs SlowRealProofs SampleProofs CritProps.
Import ListNotations.
Local Open Scope list_scope.
Local Open Scope R_scope.

Lemma NoDup_map_same : forall (A B : Type) (f : A -> B) l x y, NoDup (map f l) -> In x l -> In y l -> f x = f y -> x = y.
Proof.
  intros A B f l x y. induction l as [|a l IH]; intros Nd Hx Hy E; [contradiction|].
  cbn [map] in Nd. inversion Nd as [|? ? Na Nl]; subst. destruct Hx as [<-|Hx], Hy as [<-|Hy]; auto.
  - exfalso. apply Na. rewrite E. apply in_map. assumption.
  - exfalso. apply Na. rewrite <- E. apply in_map. assumption.
Qed.
(** Velocity layers whose sampling is limited: all for P; for S the solid ones, as far as S waves are
    sampled. *)
Definition sampled_here (vm : vmodel R) (w innerS : bool) (v : vlayer R) : Prop :=
  w = true \/ (vl_topS v <> 0 /\ (innerS = true \/ vl_botDepth v <= vm_iocb vm)).

(** ** the depth limit holds *)
Theorem C45_depth_limit :
  forall vm : vmodel R, contiguous (vm_layers vm) -> thick (vm_layers vm) ->
  (forall v, In v (vm_layers vm) -> layer_ok v) ->
  forall fuel m m', well_sampled vm m -> ids_ok m ->
  (forall y, In y (sm_P m) \/ In y (sm_S m) -> sl_topDepth y <= sl_botDepth y) ->
  (forall w, s_meet (sm_layers m w)) -> 0 < sm_maxDepthInterval m ->
  depthIncCheck fuel m = Ok m' ->
  forall w v z, In z (sm_layers m' w) -> In v (vm_layers vm) ->
    sampled_here vm w (sm_allowInnerCoreS m) v -> on_layer (vm_radius vm) w v z ->
    sl_topP z <> sl_botP z -> sl_botDepth z - sl_topDepth z <= sm_maxDepthInterval m.
Proof.
  intros vm Hc Ht Hl fuel m m' A B C D Hmax H w v z Hz Hv Hs On Hnf.
  assert (Hm : okm vm m) by (unfold okm; auto).
  pose proof (depthInc_limit vm Hc Ht Hl fuel m m' w z Hm Hmax H Hz) as T.
  apply depthInc_samples in H. destruct (samples_keep _ _ H B) as [_ [[_ [_ [_ [E1 [_ [_ [E2 _]]]]]]] _]].
  unfold thin_ok in T. rewrite E1, E2 in T. apply (T v Hv Hs On Hnf).
Qed.

Theorem C45_constructed_depth_limit :
  forall {L : Libm R} fuel vm dp Dp dz dx err innerS tol (m : smodel R),
  newSlownessModel fuel vm dp Dp dz dx err innerS tol = Ok m ->
  thick (vm_layers vm) -> vm_radius vm = 6371 ->
  forall w v z, In z (sm_layers m w) -> In v (vm_layers vm) ->
    sampled_here vm w innerS v -> on_layer (vm_radius vm) w v z ->
    sl_topP z <> sl_botP z -> sl_botDepth z - sl_topDepth z <= dz.
Proof.
  intros L fuel vm dp Dp dz dx err innerS tol m H Ht Hr w v z Hz Hv Hs On Hnf.
  unfold newSlownessModel in H. pose proof (createSample_steps fuel _ _ H) as St.
  destruct St as [mm [_ [_ [_ [Hval _]]]]].
  pose proof (createSample_valid fuel _ _ H) as Hv'. 
  unfold createSample in H. inv_as H as ok Hok. destruct ok; cbn [negb] in H; [|discriminate].
  destruct (_ =? 0)%Z; [discriminate|].
  inv_as H as f Hf. destruct (n_eqb _ _); [discriminate|].
  inv_as H as m1 H1. inv_as H as m2 H2. inv_as H as m3 H3. inv_as H as m4 H4. inv_as H as m5 H5.
  inv_as H as m6 H6. inv_as H as ok' Hv2. destruct ok'; inversion H; subst. clear H.
  apply coarse_samples in H2. destruct H2 as [m0 [H2 S2]].
  apply rayInc_samples in H3. pose proof (dc_samples _ _ _ H5) as S5.
  unfold fixCriticalPoints in H6. inv_as H6 as crit Hcr. inversion H6; subst m. clear H6.
  assert (Hne : vm_layers vm <> []).
  { intros En. destruct H2 as [first [_ [_ [_ [_ [Hi _]]]]]].
    pose proof (findCritical_spec _ _ H1) as [F1 _]. cbn in F1. rewrite F1, En in Hi. discriminate. }
  apply (validate_iff _ (model_numbers_R _) Hne) in Hval. cbn [sm_init sm_vMod] in Hval. destruct Hval as [_ [Hco Hl]].
  pose proof (findCritical_exact _ _ H1) as [_ [_ [_ Fl]]].
  pose proof (findCritical_spec _ _ H1) as [F1 [F2 [F3 _]]].
  pose proof (findCritical_inner _ _ H1) as F4.
  cbn [sm_set_radius sm_vMod sm_radius sm_init sm_allowInnerCoreS] in *.
  assert (I0 : well_sampled vm m0 /\ ids_ok m0 /\
    (forall y, In y (sm_P m0) \/ In y (sm_S m0) -> sl_topDepth y <= sl_botDepth y)).
  { rewrite <- F1. apply (coarse_start_inv m1); try rewrite F1; auto. }
  destruct I0 as [I0 [Id0 U0]].
  destruct (samples_keep _ _ S2 Id0) as [Id2 [SS2 _]]. destruct (samples_keep _ _ H3 Id2) as [Id3 [SS3 _]].
  pose proof (depthInc_samples _ _ _ H4) as S4. destruct (samples_keep _ _ S4 Id3) as [Id4 [SS4 _]].
  destruct (samples_keep _ _ S5 Id4) as [Id5 [SS5 _]].
  pose proof (samples_trans _ _ _ S2 (samples_trans _ _ _ H3 (samples_trans _ _ _ S4 S5))) as S05.
  assert (SS0 : same_setup m1 m0) by (apply coarse_start_spec in H2; apply H2).
  pose proof (same_setup_trans _ _ _ SS0 (same_setup_trans _ _ _ SS2 SS3)) as SSa.
  pose proof (same_setup_trans _ _ _ SSa (same_setup_trans _ _ _ SS4 SS5)) as SSb.
  assert (M5 : forall w, s_meet (sm_layers m5 w)).
  { intros u. assert (G : stack_good (sm_radius (sm_set_crit m5 crit)) (sm_layers (sm_set_crit m5 crit) u)).
    { apply valid_stacks; [apply Reqb_eq; reflexivity|assumption]. }
    replace (sm_layers m5 u) with (sm_layers (sm_set_crit m5 crit) u) by (destruct u; reflexivity). apply G. }
  pose proof (samples_meet_back _ _ S05 Id0 M5) as M0.
  assert (Hm0 : okm vm m0) by (unfold okm; auto).
  pose proof (okm_samples vm Hco Ht Hl _ _ (samples_trans _ _ _ S2 H3) Hm0) as Hm3.
  pose proof (okm_samples vm Hco Ht Hl _ _ S4 Hm3) as Hm4.
  assert (F5 : sm_maxDepthInterval m1 = dz).
  { clear - H1. unfold findCriticalPoints in H1. inv_as H1 as first Hf. inv_as H1 as cS HcS. inv_as H1 as cP HcP.
    cbv zeta in H1. inv_as H1 as s Hs. inv_as H1 as ok Hok. destruct ok; inversion H1; subst. reflexivity. }
  assert (E3 : sm_maxDepthInterval m3 = dz) by (destruct SSa as [_ [_ [_ [E _]]]]; congruence).
  assert (E5 : sm_maxDepthInterval m5 = dz) by (destruct SSb as [_ [_ [_ [E _]]]]; congruence).
  assert (I5 : sm_allowInnerCoreS m5 = innerS) by (destruct SSb as [_ [_ [_ [_ [_ [_ [E _]]]]]]]; congruence).
  assert (Hmax : 0 < dz).
  { rewrite <- E5. clear - Hv2. unfold sm_validate in Hv2. destruct (n_leb _ _); [discriminate|].
    destruct (n_leb (sm_maxDepthInterval (sm_set_crit m5 crit)) n_0) eqn:E; [discriminate|].
    rewrite n_0_R in E. destruct (Rlt_dec 0 (sm_maxDepthInterval m5)) as [|N]; [assumption|].
    exfalso. assert (X : n_leb (sm_maxDepthInterval m5) 0 = true) by (apply Rleb_le; lra).
    cbn [sm_set_crit sm_maxDepthInterval] in E. congruence. }
  assert (Th : forall q, In q (sm_layers m4 w) -> thin_ok vm w m4 q).
  { intros q Hq. eapply (depthInc_limit vm Hco Ht Hl); [exact Hm3|rewrite E3; assumption|exact H4|exact Hq]. }
  assert (Hz5 : In z (sm_layers m5 w)) by (destruct w; exact Hz).
  assert (E4 : sm_maxDepthInterval m4 = dz) by (destruct SS4 as [_ [_ [_ [E _]]]]; congruence).
  pose proof (thin_samples vm Hco Ht Hl w m4 m5 S5 Hm4 ltac:(rewrite E4; assumption) Th z Hz5) as T.
  rewrite <- E5. apply (T v Hv); [rewrite I5; exact Hs|exact On|exact Hnf].
Qed.

(** The planet of constant velocity 1, limit 2000 km: four layers. *)
Definition unit_limit : smodel R :=
  sm_set_layers (sm_init unit_vm 1 1 4000 1 1 true 1)
    [mkSL 0 6371 0 0 6371] [mkSL 1 6371 0 0 6371] 2.
Lemma unit_limit_ok : well_sampled unit_vm unit_limit /\ ids_ok unit_limit /\
  (forall y, In y (sm_P unit_limit) \/ In y (sm_S unit_limit) -> sl_topDepth y <= sl_botDepth y) /\
  (forall w, s_meet (sm_layers unit_limit w)) /\ 0 < sm_maxDepthInterval unit_limit.
Proof.
  destruct unit_sampled as [A [B C]]. split; [exact A|]. split; [exact B|]. split; [exact C|]. split; [|cbn; lra].
  intros [] [|[|i]] a b Ha Hb; discriminate.
Qed.
Lemma unit_vel : forall w n tp bp t b, 0 <= t < b -> b <= 6371 ->
  layer_velocities unit_vm w (mkSL n tp t bp b) = Ok (1, 1).
Proof.
  intros w n tp bp t b Ht Hb. destruct unit_ok as [Hc [Hk Hl]].
  assert (V : In (mkVLayer 0 0 6371 1 1 1 1 1 1) (vm_layers unit_vm)) by (left; reflexivity).
  unfold layer_velocities. cbn [sl_topDepth sl_botDepth].
  rewrite (proj2 (Reqb_ne t b)) by lra. cbn [negb].
  rewrite (eval_below_in unit_vm Hc Hk _ t w V) by (cbn; lra).
  rewrite (eval_above_in unit_vm Hc Hk _ b w V) by (cbn; lra).
  rewrite !(unit_line _ _ _ V). reflexivity.
Qed.
Lemma unit_split : forall w p t b i n, 0 <= t < b -> b <= 6371 -> 6371 - b < p < 6371 - t ->
  split_pair (n_lit 6371 0) p 1 1 (mkSL i (6371 - t) t (6371 - b) b) n
  = Ok (mkSL (n + 1) (6371 - t) t p (6371 - p), mkSL n p (6371 - p) (6371 - b) b) /\
  layer_velocities unit_vm w (mkSL i (6371 - t) t (6371 - b) b) = Ok (1, 1).
Proof.
  intros w p t b i n Ht Hb Hp. split; [|apply unit_vel; assumption].
  unfold split_pair. cbn [sl_topDepth sl_botDepth sl_topP sl_botP].
  rewrite (proj2 (Reqb_ne b t)) by lra. cbn [negb].
  change (@n_lit R Num_R 6371 0) with (Rlit 6371 0). rewrite Rlit_0. cbn [n_sub Num_R].
  rewrite py_div_R by lra. cbn [bind]. unfold interpolate. rewrite ?n_0_R, ?n_1_R. cbn [n_mul n_add n_sub n_eqb Num_R].
  replace ((1 - 1) / (b - t)) with 0 by (field; lra).
  destruct (Reqb_spec (p * 0 + 1) 0) as [F|F]; [lra|].
  rewrite py_div_R by lra. cbn [bind].
  replace ((6371 + p * (t * 0 - 1)) / (p * 0 + 1)) with (6371 - p) by (field; lra).
  unfold new_slayer. rewrite n_0_R.
  rewrite !(proj2 (Rleb_le _ _)) by lra. reflexivity.
Qed.
Lemma unit_go : forall w p i n other, 0 < p < 6371 -> replace_shared i (mkSL (n + 1) 6371 0 p (6371 - p)) (mkSL n p (6371 - p) 0 6371) other = other ->
  addS_go 3 unit_vm (n_lit 6371 0) true p w [] [mkSL i 6371 0 0 6371] other n
  = Ok ([mkSL (n + 1) 6371 0 p (6371 - p); mkSL n p (6371 - p) 0 6371], other, (n + 2)%Z).
Proof.
  intros w p i n other Hp Hr. cbn [addS_go].
  destruct (unit_split w p 0 6371 i n ltac:(lra) ltac:(lra) ltac:(lra)) as [SP LV].
  replace (6371 - 0) with 6371 in SP, LV by ring. replace (6371 - 6371) with 0 in SP, LV by ring.
  rewrite LV. cbn [bind negb andb].
  assert (Z0 : forall b c : bool, (b && (false && c)) = false) by (intros [] []; reflexivity).
  assert (Z1 : forall b : bool, (b && n_eqb 1 n_0) = false).
  { intros b. rewrite n_0_R. rewrite (proj2 (Reqb_ne 1 0)) by lra. destruct b; reflexivity. }
  rewrite ?Z0, ?Z1, ?andb_false_r. cbn [andb orb].
  unfold strictly_contains at 1. cbn [sl_topP sl_botP]. rewrite n_0_R.
  rewrite (proj2 (Rltb_lt 0 _)) by (cbn; apply Rmult_lt_0_compat; lra).
  rewrite SP. cbn [bind sl_id].
  rewrite (unit_vel w n p 0 (6371 - p) 6371) by lra. cbn [bind].
  rewrite ?Z0, ?Z1, ?andb_false_r. cbn [andb orb].
  unfold strictly_contains. cbn [sl_topP sl_botP]. rewrite n_0_R.
  rewrite (proj2 (Rltb_ge 0 _)) by (cbn; lra). rewrite Hr.
  rewrite (proj2 (Reqb_ne 1 0)) by lra. rewrite ?andb_false_r. reflexivity.
Qed.
Definition unit_halved : smodel R :=
  sm_set_layers unit_limit
    [mkSL 3 6371 0 (6371 / 2) (6371 / 2); mkSL 2 (6371 / 2) (6371 / 2) 0 6371]
    [mkSL 5 6371 0 (6371 / 2) (6371 / 2); mkSL 4 (6371 / 2) (6371 / 2) 0 6371] 6.
Lemma unit_body : depthInc_body true unit_limit (mkSL 1 6371 0 0 6371) = Ok unit_halved.
Proof.
  destruct unit_ok as [Hc [Hk Hl]].
  assert (V : In (mkVLayer 0 0 6371 1 1 1 1 1 1) (vm_layers unit_vm)) by (left; reflexivity).
  assert (Two : Rceil (6371 / 4000) = 2%Z).
  { pose proof (Rceil_lt (6371 / 4000)) as L. pose proof (Rceil_gt1 (6371 / 4000) ltac:(lra)) as G.
    assert (IZR (Rceil (6371 / 4000)) < IZR 3) by lra. apply lt_IZR in H. lia. }
  unfold depthInc_body. cbn [sl_botDepth sl_topDepth].
  change (sm_maxDepthInterval unit_limit) with 4000.
  change (@n_sub R Num_R 6371 0) with (6371 - 0). rewrite Rminus_0_r.
  rewrite (proj2 (Rltb_lt 4000 6371)) by lra.
  rewrite py_div_R by lra. cbn [bind].
  change (@n_ceil R Num_R (6371 / 4000)) with (Rceil (6371 / 4000)). rewrite Two. rewrite n_int_R.
  rewrite py_div_R by lra. cbn [bind]. change (zrange 1 2) with [1%Z]. cbn [foldM].
  assert (DP : depthInc_p unit_limit true (n_add 0 (n_mul (n_int 1) (6371 / 2))) = Ok (6371 / 2)).
  { rewrite n_int_R. cbn [n_add n_mul Num_R]. replace (0 + 1 * (6371 / 2)) with (6371 / 2) by field.
    unfold depthInc_p. change (sm_vMod unit_limit) with unit_vm.
    rewrite (eval_above_in unit_vm Hc Hk _ (6371 / 2) false V) by (cbn; lra).
    rewrite (unit_line _ _ _ V). cbn [bind]. rewrite n_0_R. rewrite (proj2 (Reqb_ne 1 0)) by lra.
    change (sm_allowInnerCoreS unit_limit) with true. cbn [orb negb andb bind].
    unfold toSlowness. rewrite n_0_R. rewrite (proj2 (Reqb_ne 1 0)) by lra. rewrite py_div_R by lra.
    change (sm_radius unit_limit) with (Rlit 6371 0). rewrite Rlit_0. cbn [n_sub Num_R]. f_equal. field. }
  rewrite DP. cbn [bind]. unfold addBoth.
  assert (A1 : addSlowness unit_limit (6371 / 2) true = Ok (sm_set_layers unit_limit
    [mkSL 3 6371 0 (6371 / 2) (6371 / 2); mkSL 2 (6371 / 2) (6371 / 2) 0 6371] [mkSL 1 6371 0 0 6371] 4)).
  { unfold addSlowness. change (sm_layers unit_limit true) with [mkSL 0 6371 0 0 6371].
    change (sm_layers unit_limit (negb true)) with [mkSL 1 6371 0 0 6371].
    cbn [List.length mult plus Nat.mul Nat.add]. change (sm_vMod unit_limit) with unit_vm.
    change (sm_radius unit_limit) with (@n_lit R Num_R 6371 0). change (sm_allowInnerCoreS unit_limit) with true.
    change (sm_next unit_limit) with 2%Z. rewrite unit_go by (try reflexivity; lra). cbn [bind].
    replace (6371 - 6371 / 2) with (6371 / 2) by field. reflexivity. }
  rewrite A1. cbn [bind].
  unfold addSlowness. cbn [sm_layers negb sm_S sm_P sm_set_layers List.length Nat.mul Nat.add sm_vMod sm_radius sm_allowInnerCoreS sm_next].
  change (sm_vMod unit_limit) with unit_vm.
  change (sm_radius unit_limit) with (@n_lit R Num_R 6371 0). change (sm_allowInnerCoreS unit_limit) with true.
  rewrite unit_go by (try reflexivity; lra). cbn [bind].
  replace (6371 - 6371 / 2) with (6371 / 2) by field. reflexivity.
Qed.
Example C45_depth_limit_ex : depthIncCheck 10 unit_limit = Ok unit_halved.
Proof.
  assert (B : forall fb n tp t bp b, b - t <= 4000 -> depthInc_body fb unit_halved (mkSL n tp t bp b) = Ok unit_halved).
  { intros fb n tp t bp b H. unfold depthInc_body. cbn [sl_botDepth sl_topDepth].
    change (sm_maxDepthInterval unit_halved) with 4000. change (@n_sub R Num_R b t) with (b - t).
    rewrite (proj2 (Rltb_ge 4000 (b - t))) by lra. reflexivity. }
  unfold depthIncCheck. cbn [for_idx]. change (sm_S unit_limit) with [mkSL 1 6371 0 0 6371].
  cbn [nth_error]. rewrite unit_body. cbn [bind].
  change (sm_S unit_halved) with [mkSL 5 6371 0 (6371 / 2) (6371 / 2); mkSL 4 (6371 / 2) (6371 / 2) 0 6371].
  cbn [nth_error]. rewrite B by lra. cbn [bind].
  change (sm_S unit_halved) with [mkSL 5 6371 0 (6371 / 2) (6371 / 2); mkSL 4 (6371 / 2) (6371 / 2) 0 6371].
  cbn [nth_error bind].
  change (sm_P unit_halved) with [mkSL 3 6371 0 (6371 / 2) (6371 / 2); mkSL 2 (6371 / 2) (6371 / 2) 0 6371].
  cbn [nth_error]. rewrite B by lra. cbn [bind].
  change (sm_P unit_halved) with [mkSL 3 6371 0 (6371 / 2) (6371 / 2); mkSL 2 (6371 / 2) (6371 / 2) 0 6371].
  cbn [nth_error]. rewrite B by lra. cbn [bind].
  change (sm_P unit_halved) with [mkSL 3 6371 0 (6371 / 2) (6371 / 2); mkSL 2 (6371 / 2) (6371 / 2) 0 6371].
  reflexivity.
Qed.

(** ** the slowness limit does not hold *)

(** The samples made for a layer that is too wide lie above its top slowness, or below it if slowness
    grows with depth, but never strictly inside: the layer itself stays as it is. *)
Theorem C45_too_wide_stays_refuted :
  forall (m m' : smodel R) w y, ids_ok m -> 0 < sm_maxDeltaP m -> In y (sm_layers m w) ->
  rayInc_body m y = Ok m' -> In y (sm_layers m' w).
Proof.
  intros m m' w y Hid Hmax Hy H. unfold rayInc_body in H. cbn [n_ltb n_abs n_sub Num_R] in H.
  destruct (Rltb_spec (sm_maxDeltaP m) (Rabs (sl_topP y - sl_botP y))) as [L|L]; [|inversion H; subst; assumption].
  rewrite py_div_R in H by lra. cbn [bind] in H.
  set (q := Rabs (sl_topP y - sl_botP y) / sm_maxDeltaP m) in *.
  assert (Hq : 1 < q).
  { unfold q. apply Rmult_lt_reg_r with (sm_maxDeltaP m); [lra|]. unfold Rdiv. rewrite Rmult_assoc, Rinv_l; lra. }
  change (@n_ceil R Num_R q) with (Rceil q) in H. pose proof (Rceil_gt1 q Hq) as N2. rewrite n_int_R in H.
  assert (N0 : 0 < IZR (Rceil q)) by (apply (IZR_lt 0); lia).
  rewrite py_div_R in H by lra. cbn [bind] in H.
  set (delta := (sl_topP y - sl_botP y) / IZR (Rceil q)) in *.
  assert (Out : forall k, (1 <= k)%Z -> ~ spans y (sl_topP y + IZR k * delta)).
  { intros k Hk Sp. unfold spans in Sp. apply Rltb_lt in Sp. rewrite n_0_R in Sp. cbn [n_sub n_mul Num_R] in Sp.
    apply IZR_le in Hk.
    replace ((sl_topP y - (sl_topP y + IZR k * delta)) * (sl_topP y + IZR k * delta - sl_botP y))
      with (- (IZR k * (IZR (Rceil q) + IZR k) * (delta * delta))) in Sp
      by (replace (sl_botP y) with (sl_topP y - IZR (Rceil q) * delta) by (unfold delta; field; lra); ring).
    assert (0 <= delta * delta) by apply Rle_0_sqr. assert (0 <= IZR k * (IZR (Rceil q) + IZR k)) by nra.
    nra. }
  assert (Step : forall m1 p w' m2, ids_ok m1 -> In y (sm_layers m1 w) -> ~ spans y p -> addSlowness m1 p w' = Ok m2 ->
    ids_ok m2 /\ In y (sm_layers m2 w)).
  { intros m1 p w' m2 Id1 Hy1 Ns Ha. apply addSlowness_spec in Ha; [|assumption].
    destruct Ha as [Id2 [_ [_ [f [A [B [C [_ E]]]]]]]]. split; [assumption|].
    assert (AB : sm_layers m2 w = splice f (sm_layers m1 w)) by (destruct w, w'; assumption).
    rewrite AB. apply splice_In_keep; [assumption|].
    destruct (f (sl_id y)) eqn:F; [|reflexivity]. exfalso.
    assert (I : f (sl_id y) <> None) by congruence. apply C in I. apply in_map_iff in I. destruct I as [z [Ez Hz]].
    assert (z = y).
    { destruct Id1 as [NP [NS [_ Ag]]]. destruct w, w'; cbn [sm_layers negb] in *.
      - exact (NoDup_map_same _ _ sl_id _ _ _ NP Hz Hy1 Ez).
      - symmetry. apply Ag; auto.
      - apply Ag; auto.
      - exact (NoDup_map_same _ _ sl_id _ _ _ NS Hz Hy1 Ez). }
    subst z. apply In_nth_error in Hz. destruct Hz as [i Hi]. apply (E i y) in Hi.
    rewrite F in Hi. assert (X : ~ (spans y p /\ cuttable m1 w' (sm_layers m1 w') i y)) by tauto.
    apply Hi in X. discriminate. }
  assert (Go : forall ks m1, (forall k, In k ks -> (1 <= k)%Z) -> ids_ok m1 -> In y (sm_layers m1 w) ->
    foldM (fun m rayNum => addBoth m (sl_topP y + n_int rayNum * delta)%num) ks m1 = Ok m' -> In y (sm_layers m' w)).
  { induction ks as [|k ks IH]; intros m1 Hk Id1 Hy1 Hf; cbn [foldM] in Hf; [inversion Hf; subst; assumption|].
    inv_as Hf as m2 H2. unfold addBoth in H2. inv_as H2 as m3 H3. rewrite n_int_R in H2, H3. cbn [n_add n_mul Num_R] in H2, H3.
    assert (Ns : ~ spans y (sl_topP y + IZR k * delta)) by (apply Out; apply Hk; left; reflexivity).
    destruct (Step _ _ _ _ Id1 Hy1 Ns H3) as [Id3 Hy3]. destruct (Step _ _ _ _ Id3 Hy3 Ns H2) as [Id2 Hy2].
    apply (IH m2); auto. intros j Hj. apply Hk. right. assumption. }
  apply (Go (zrange 1 (Rceil q)) m); auto.
  intros k Hk. apply zrange_In in Hk. lia.
Qed.

(** Hence [rayParamIncCheck] can leave the limit broken: the planet of constant velocity 1, sampled by one
    layer of slowness 6371 to 0, passes it unchanged whatever the limit. *)
Definition unit_wide (dp : R) : smodel R :=
  sm_set_layers (sm_init unit_vm 1 dp 4000 1 1 true 1)
    [mkSL 0 6371 0 0 6371] [mkSL 1 6371 0 0 6371] 2.
Lemma unit_go_out : forall w p i n other, 6371 <= p ->
  addS_go 3 unit_vm (n_lit 6371 0) true p w [] [mkSL i 6371 0 0 6371] other n
  = Ok ([mkSL i 6371 0 0 6371], other, n).
Proof.
  intros w p i n other Hp. cbn [addS_go].
  rewrite (unit_vel w i 6371 0 0 6371) by lra. cbn [bind negb andb].
  assert (Z0 : forall b c : bool, (b && (false && c)) = false) by (intros [] []; reflexivity).
  assert (Z1 : forall b : bool, (b && n_eqb 1 n_0) = false).
  { intros b. rewrite n_0_R. rewrite (proj2 (Reqb_ne 1 0)) by lra. destruct b; reflexivity. }
  rewrite ?Z0, ?Z1, ?andb_false_r. cbn [andb orb].
  unfold strictly_contains. cbn [sl_topP sl_botP]. rewrite n_0_R.
  rewrite (proj2 (Rltb_ge 0 _)); [reflexivity|]. cbn. nra.
Qed.
Theorem C45_ray_param_limit_refuted :
  forall dp, 0 < dp < 6371 ->
  rayParamIncCheck 2 (unit_wide dp) = Ok (unit_wide dp) /\
  well_sampled unit_vm (unit_wide dp) /\ ids_ok (unit_wide dp) /\
  exists y, In y (sm_P (unit_wide dp)) /\ sm_maxDeltaP (unit_wide dp) < Rabs (sl_topP y - sl_botP y).
Proof.
  intros dp Hdp.
  assert (B : forall i, rayInc_body (unit_wide dp) (mkSL i 6371 0 0 6371) = Ok (unit_wide dp)).
  { intros i. unfold rayInc_body. cbn [sl_topP sl_botP]. change (sm_maxDeltaP (unit_wide dp)) with dp.
    change (@n_sub R Num_R 6371 0) with (6371 - 0). rewrite Rminus_0_r.
    change (@n_abs R Num_R 6371) with (Rabs 6371). rewrite (Rabs_pos_eq 6371) by lra.
    rewrite (proj2 (Rltb_lt dp 6371)) by lra. rewrite py_div_R by lra. cbn [bind].
    assert (Hq : 1 < 6371 / dp).
    { apply Rmult_lt_reg_r with dp; [lra|]. unfold Rdiv. rewrite Rmult_assoc, Rinv_l; lra. }
    change (@n_ceil R Num_R (6371 / dp)) with (Rceil (6371 / dp)).
    pose proof (Rceil_gt1 _ Hq) as N2. rewrite n_int_R.
    assert (N0 : 0 < IZR (Rceil (6371 / dp))) by (apply (IZR_lt 0); lia).
    rewrite py_div_R by lra. cbn [bind].
    assert (D : 0 < 6371 / IZR (Rceil (6371 / dp))) by (apply Rdiv_lt_0_compat; lra).
    assert (Go : forall ks, (forall k, In k ks -> (1 <= k)%Z) ->
      foldM (fun m rayNum => addBoth m (n_add 6371 (n_mul (n_int rayNum) (6371 / IZR (Rceil (6371 / dp)))))) ks (unit_wide dp)
      = Ok (unit_wide dp)).
    { induction ks as [|k ks IH]; intros Hk; cbn [foldM]; [reflexivity|].
      assert (K : 1 <= IZR k) by (apply (IZR_le 1); apply Hk; left; reflexivity).
      rewrite n_int_R. cbn [n_add n_mul Num_R].
      assert (A : addBoth (unit_wide dp) (6371 + IZR k * (6371 / IZR (Rceil (6371 / dp)))) = Ok (unit_wide dp)).
      { assert (G : 6371 <= 6371 + IZR k * (6371 / IZR (Rceil (6371 / dp)))) by nra.
        assert (A1 : forall w, addSlowness (unit_wide dp) (6371 + IZR k * (6371 / IZR (Rceil (6371 / dp)))) w = Ok (unit_wide dp)).
        { intros w. unfold addSlowness. change (sm_vMod (unit_wide dp)) with unit_vm.
          change (sm_radius (unit_wide dp)) with (@n_lit R Num_R 6371 0). change (sm_allowInnerCoreS (unit_wide dp)) with true.
          change (sm_next (unit_wide dp)) with 2%Z.
          destruct w; cbn [sm_layers negb unit_wide sm_set_layers sm_P sm_S List.length Nat.mul Nat.add];
            rewrite unit_go_out by exact G; reflexivity. }
        unfold addBoth. rewrite A1. cbn [bind]. apply A1. }
      rewrite A. cbn [bind]. apply IH. intros j Hj. apply Hk. right. assumption. }
    apply Go. intros k Hk. apply zrange_In in Hk. lia. }
  split; [|split; [apply unit_sampled|split; [apply unit_sampled|]]].
  - unfold rayParamIncCheck. cbn [for_idx]. change (sm_S (unit_wide dp)) with [mkSL 1 6371 0 0 6371].
    cbn [nth_error]. rewrite B. cbn [bind]. change (sm_S (unit_wide dp)) with [mkSL 1 6371 0 0 6371]. cbn [nth_error bind].
    change (sm_P (unit_wide dp)) with [mkSL 0 6371 0 0 6371]. cbn [nth_error]. rewrite B. reflexivity.
  - exists (mkSL 0 6371 0 0 6371). split; [left; reflexivity|].
    cbn [sl_topP sl_botP sm_maxDeltaP unit_wide sm_set_layers sm_init]. rewrite Rabs_pos_eq; lra.
Qed.

(** ** sampling only adds boundaries *)
Section Keep.
  Context {T : Type} {N : Num T} {O : NumOrd T} {L : Libm T}.
  Local Open Scope num_scope.
  (** The three checks keep every depth boundary of both wave types and everything else in the model. *)
  Theorem C45_boundaries_kept :
    forall fuel (m m' : smodel T), ids_ok m ->
    (rayParamIncCheck fuel m = Ok m' \/ depthIncCheck fuel m = Ok m' \/ distanceCheck fuel m = Ok m') ->
    same_setup m m' /\
    forall w, (s_meet (sm_layers m w) -> s_meet (sm_layers m' w)) /\
      forall x, boundary (sm_layers m w) x -> boundary (sm_layers m' w) x.
  Proof.
    intros fuel m m' Hid H.
    assert (S : samples m m').
    { destruct H as [H|[H|H]]; [eapply rayInc_samples|eapply depthInc_samples|eapply dc_samples]; eassumption. }
    destruct (samples_keep _ _ S Hid) as [_ [SS K]]. split; [assumption|].
    intros w. destruct (K w) as [A [B _]]. split; assumption.
  Qed.
End Keep.
Example C45_boundaries_kept_ex :
  ids_ok unit_limit /\ exists m', depthIncCheck 10 unit_limit = Ok m' /\ List.length (sm_P m') = 2%nat /\
  boundary (sm_layers unit_limit true) 6371 /\ boundary (sm_layers m' true) (6371 / 2).
Proof.
  split; [apply unit_limit_ok|]. eexists. split; [exact C45_depth_limit_ex|]. split; [reflexivity|].
  split; eexists; (split; [left; reflexivity|]); cbn; auto.
Qed.

Print Assumptions C45_depth_limit.
Print Assumptions C45_constructed_depth_limit.
Print Assumptions C45_too_wide_stays_refuted.
Print Assumptions C45_ray_param_limit_refuted.
Print Assumptions C45_boundaries_kept.

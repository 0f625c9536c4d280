(** C52: The greatest and least ray parameters of branches. *)
From Coq Require Import ZArith Bool List String Reals Lia Lra.
From Verif Require Import Base Num PyStr VelocityModel VelSpec VelProofs SlownessLayer SlownessModel
  SlowSpec SlowProofs SlowAddProofs SlowBuildProofs SlowProps CritSpec CritProofs CritProps SlowRealProofs SampleProofs StackSpec StackProofs
  TauModel TauSpec TauProofs TauBuildProofs TauProps PathSpec MonoSpec MonoProofs MonoProps ZoneProofs ZoneProps LimitSpec LimitProofs
  RealRun SlowRun BuildRun.
Import ListNotations.
Local Open Scope list_scope.

(** At a depth where a layer ends: in a high slowness zone the least ray parameter that turns is the least of the slownesses at
    the bottoms of the layers down to there, outside zones it is the slowness at the bottom of the layer above. *)
Theorem C52_turn_limit :
  forall {T} {N : Num T} {O : NumOrd T} {L : Libm T} fuel (m : smodel T) x w r,
  s_meet (sm_layers m w) -> s_upright (sm_layers m w) -> n_ok x -> (forall y, In y (sm_layers m w) -> n_ok (sl_botP y)) ->
  ends_at_depth (sm_layers m w) x -> getMinTurnRayParam fuel m x w = Ok r ->
  (in_hi_zone m w x -> least (fun s => s = n_lit 1 300 \/ ended (sm_layers m w) x s \/ upper_side (sm_layers m w) x s) r) /\
  (~ in_hi_zone m w x -> upper_side (sm_layers m w) x r).
Proof. intros T N O L. exact minTurn_spec. Qed.
(** The least ray parameter that turns or is reflected there: the lower side counts as well. *)
Theorem C52_ray_limit :
  forall {T} {N : Num T} {O : NumOrd T} {L : Libm T} fuel (m : smodel T) x w r,
  s_meet (sm_layers m w) -> s_upright (sm_layers m w) -> n_ok x ->
  (forall y, In y (sm_layers m w) -> n_ok (sl_topP y) /\ n_ok (sl_botP y)) ->
  ends_at_depth (sm_layers m w) x -> getMinRayParam fuel m x w = Ok r ->
  exists q, getMinTurnRayParam fuel m x w = Ok q /\
    least (fun s => s = q \/ upper_side (sm_layers m w) x s \/ lower_side (sm_layers m w) x s) r.
Proof. intros T N O L. exact minRay_spec. Qed.

Local Open Scope R_scope.
(** So at the end of a layer in a high slowness zone these are the least slownesses of all that a ray from the surface meets down
    to the upper and down to the lower side of the boundary (the slowness being at most 1e300 and falling in the first layer). *)
Theorem C52_zone_floor :
  forall {L : Libm R} fuel (m : smodel R) w x mt mr, sampled_stack (sm_layers m w) ->
  ends_at_depth (sm_layers m w) x -> 0 < x -> in_hi_zone m w x ->
  (forall f, nth_error (sm_layers m w) 0 = Some f -> sl_botP f <= sl_topP f <= n_lit 1 300) ->
  getMinTurnRayParam fuel m x w = Ok mt -> getMinRayParam fuel m x w = Ok mr ->
  floor_of (down_to (sm_layers m w) x) mt /\ floor_of (down_past (sm_layers m w) x) mr.
Proof. intros L. exact zone_floor. Qed.

(** The greatest ray parameter of a branch is the least slowness of all that a ray from the surface meets down to the top of the
    branch, both sides included. *)
Theorem C52_greatest :
  forall {L : Libm R} fuel fuel' vm dp Dp dz dx err innerS tol (m : smodel R) t,
  newSlownessModel fuel vm dp Dp dz dx err innerS tol = Ok m -> newTauModel fuel' m = Ok t ->
  thick (vm_layers vm) -> vm_radius vm = 6371 -> no_flat vm innerS -> fluid_above_inner_core vm innerS ->
  forall w b, In b (branches t w) -> floor_of (down_past (sm_layers m w) (tb_top b)) (tb_maxRP b).
Proof.
  intros L fuel fuel' vm dp Dp dz dx err innerS tol m t H HT Ht Hr Hnf Hfi w b Hb. apply In_nth_error in Hb. destruct Hb as [n Hn].
  exact (max_grows _ _ _ _ _ _ _ _ _ _ _ _ H HT Ht Hr Hnf Hfi w n b Hn).
Qed.
(** It never grows from one branch to the next. *)
Theorem C52_falling :
  forall {L : Libm R} fuel fuel' vm dp Dp dz dx err innerS tol (m : smodel R) t,
  newSlownessModel fuel vm dp Dp dz dx err innerS tol = Ok m -> newTauModel fuel' m = Ok t ->
  thick (vm_layers vm) -> vm_radius vm = 6371 -> no_flat vm innerS -> fluid_above_inner_core vm innerS ->
  forall w i a b, nth_error (branches t w) i = Some a -> nth_error (branches t w) (S i) = Some b -> tb_maxRP b <= tb_maxRP a.
Proof.
  intros L fuel fuel' vm dp Dp dz dx err innerS tol m t H HT Ht Hr Hnf Hfi w i a b Ha Hb.
  destruct (C52_greatest _ _ _ _ _ _ _ _ _ _ _ _ H HT Ht Hr Hnf Hfi w a (nth_error_In _ _ Ha)) as [A _].
  destruct (C52_greatest _ _ _ _ _ _ _ _ _ _ _ _ H HT Ht Hr Hnf Hfi w b (nth_error_In _ _ Hb)) as [_ B].
  destruct (C25_branches_tile_exact _ _ _ _ _ _ _ _ _ _ _ _ H HT Ht w) as [_ [Me [Bu _]]].
  pose proof (Me i a b Ha Hb) as E. pose proof (Bu a (nth_error_In _ _ Ha)) as Lt. apply Rltb_lt in Lt.
  apply B. rewrite <- E. apply (down_past_mono m w (tb_top a)); [lra|exact A].
Qed.

(** The least ray parameters of a branch *)
Theorem C52_least :
  forall {L : Libm R} fuel fuel' vm dp Dp dz dx err innerS tol (m : smodel R) t,
  newSlownessModel fuel vm dp Dp dz dx err innerS tol = Ok m -> newTauModel fuel' m = Ok t ->
  thick (vm_layers vm) -> vm_radius vm = 6371 ->
  forall w b, In b (branches t w) ->
  (in_hi_zone m w (tb_bot b) ->
     least (fun s => s = n_lit 1 300 \/ ended (sm_layers m w) (tb_bot b) s \/ upper_side (sm_layers m w) (tb_bot b) s) (tb_minTurnRP b)) /\
  (~ in_hi_zone m w (tb_bot b) -> upper_side (sm_layers m w) (tb_bot b) (tb_minTurnRP b)) /\
  least (fun s => s = tb_minTurnRP b \/ upper_side (sm_layers m w) (tb_bot b) s \/ lower_side (sm_layers m w) (tb_bot b) s) (tb_minRP b).
Proof.
  intros L fuel fuel' vm dp Dp dz dx err innerS tol m t H HT Ht Hr w b Hb.
  destruct (min_limits _ _ _ _ _ _ _ _ _ _ _ _ H HT Ht Hr w b Hb) as [A [B [C _]]]. auto.
Qed.
(** Where two branches meet inside a high slowness zone, the least ray parameter of the upper one is the greatest of the lower one. *)
Theorem C52_handover :
  forall {L : Libm R} fuel fuel' vm dp Dp dz dx err innerS tol (m : smodel R) t,
  newSlownessModel fuel vm dp Dp dz dx err innerS tol = Ok m -> newTauModel fuel' m = Ok t ->
  thick (vm_layers vm) -> vm_radius vm = 6371 -> no_flat vm innerS -> fluid_above_inner_core vm innerS ->
  forall w i a b, nth_error (branches t w) i = Some a -> nth_error (branches t w) (S i) = Some b -> in_hi_zone m w (tb_bot a) ->
  (forall f, nth_error (sm_layers m w) 0 = Some f -> sl_botP f <= sl_topP f <= n_lit 1 300) ->
  tb_maxRP b = tb_minRP a.
Proof.
  intros L fuel fuel' vm dp Dp dz dx err innerS tol m t H HT Ht Hr Hnf Hfi w i a b Ha Hb Z Fa.
  destruct (C52_greatest _ _ _ _ _ _ _ _ _ _ _ _ H HT Ht Hr Hnf Hfi w b (nth_error_In _ _ Hb)) as [A1 A2].
  destruct (min_limits _ _ _ _ _ _ _ _ _ _ _ _ H HT Ht Hr w a (nth_error_In _ _ Ha)) as [_ [_ [_ C]]].
  destruct (C Z Fa) as [_ [C1 C2]].
  destruct (C25_branches_tile_exact _ _ _ _ _ _ _ _ _ _ _ _ H HT Ht w) as [_ [Me _]].
  pose proof (Me i a b Ha Hb) as E. rewrite E in C1, C2. apply Rle_antisym; [apply A2; exact C1|apply C2; exact A1].
Qed.

(** ** a concrete case *)
(** the slowness falls from 300 to 200, jumps to 250, rises to 350, falls to 0; zone from 1000 to 4000 *)
Definition dip_m : smodel R := mkSM unit_vm 1 7000 7000 10 100000 true 1 6371 [] [mkDR 1000 4000 200] [] []
  [mkSL 0 300 0 200 1000; mkSL 1 200 1000 250 1000; mkSL 2 250 1000 350 2000; mkSL 3 350 2000 0 6371] [] 4.
Lemma big_300 : forall z : Z, (0 <= z < 10 ^ 300)%Z -> IZR z <= n_lit 1 300.
Proof.
  intros z Hz. cbn [n_lit Num_R]. rewrite Rlit_pos_IZR. apply IZR_le. rewrite Z.mul_1_l. lia.
Qed.
Lemma dip_stack : sampled_stack (sm_layers dip_m true) /\ ends_at_depth (sm_layers dip_m true) 2000 /\ in_hi_zone dip_m true 2000 /\
  (forall f, nth_error (sm_layers dip_m true) 0 = Some f -> sl_botP f <= sl_topP f <= n_lit 1 300).
Proof.
  split; [|split; [|split]].
  - split; [|split; [|split; [|split]]].
    + intros i a b Ha Hb. destruct i as [|[|[|i]]]; cbn in Ha, Hb; try discriminate; [..|destruct i; discriminate];
        (assert (Ea : Some a = Some a) by reflexivity; rewrite <- Ha in Ea at 2; assert (Eb : Some b = Some b) by reflexivity; rewrite <- Hb in Eb at 2;
         inversion Ea; inversion Eb; apply Reqb_eq; reflexivity).
    + intros y [<-|[<-|[<-|[<-|[]]]]]; apply Rleb_le; cbn; lra.
    + intros i a b Ha Hb. destruct i as [|[|[|i]]]; cbn in Ha, Hb; try discriminate; [..|destruct i; discriminate];
        (assert (Ea : Some a = Some a) by reflexivity; rewrite <- Ha in Ea at 2; assert (Eb : Some b = Some b) by reflexivity; rewrite <- Hb in Eb at 2;
         inversion Ea; inversion Eb; apply Reqb_eq; reflexivity).
    + intros y [<-|[<-|[<-|[<-|[]]]]] E; cbn in E; try (exfalso; lra).
      exists (mkSL 0 300 0 200 1000), (mkSL 2 250 1000 350 2000). unfold fat, btw. cbn.
      split; [tauto|]. split; [tauto|]. lra.
    + exists (mkSL 0 300 0 200 1000). split; reflexivity.
  - exists (mkSL 2 250 1000 350 2000). split; [cbn; tauto|]. apply Reqb_eq. reflexivity.
  - exists (mkDR 1000 4000 200). split; [left; reflexivity|]. cbn [dr_top dr_bot dr_rayParam]. split; [apply Rleb_le; lra|]. split; [apply Rleb_le; lra|].
    left. apply Rltb_lt. pose proof (big_300 201 ltac:(lia)). apply Rlt_le_trans with 201; [lra|assumption].
  - intros f Hf. assert (E : f = mkSL 0 300 0 200 1000) by (cbn in Hf; congruence). subst f. cbn [sl_topP sl_botP]. split; [lra|]. apply (big_300 300). lia.
Qed.
Lemma dip_number : layerNumberAbove 20 dip_m 2000 true = Ok (Z.of_nat 2) /\ layerNumberBelow 20 dip_m 2000 true = Ok (Z.of_nat 3).
Proof.
  destruct dip_stack as [[Gm [Gu _]] _].
  split.
  - apply above_iff_s; [exact Gm|exact Gu|apply R_ok|cbn; lia|]. split.
    + eexists. split; [reflexivity|]. split; apply Rleb_le; cbn; lra.
    + intros j z Hz [A B]. destruct j as [|[|j]]; [| |lia]; assert (E : z = z) by reflexivity; cbn in Hz; exfalso;
        apply Rleb_le in B; assert (X : Some (sl_botDepth z) = Some 1000) by (replace (Some (sl_botDepth z)) with (option_map (@sl_botDepth R) (Some z)) by reflexivity; rewrite <- Hz; reflexivity);
        assert (sl_botDepth z = 1000) by congruence; lra.
  - apply below_iff_s; [exact Gm|exact Gu|apply R_ok|cbn; lia|]. split.
    + eexists. split; [reflexivity|]. split; apply Rleb_le; cbn; lra.
    + intros j z Hz _. destruct j as [|[|[|[|j]]]]; [lia..|]. destruct j; discriminate.
Qed.
Lemma dip_values : forall {L : Libm R}, getMinTurnRayParam 20 dip_m 2000 true = Ok 200 /\ getMinRayParam 20 dip_m 2000 true = Ok 200.
Proof.
  intros L.
  assert (A : getMinTurnRayParam 20 dip_m 2000 true = Ok 200).
  { unfold getMinTurnRayParam. destruct dip_stack as [_ [_ [Z _]]]. apply in_hi_zone_iff in Z. rewrite Z. run. }
  split; [exact A|]. unfold getMinRayParam. rewrite A. destruct dip_number as [-> ->]. cbn [bind Z.of_nat].
  run.
Qed.
Example C52_zone_ex : forall {L : Libm R}, getMinTurnRayParam 20 dip_m 2000 true = Ok 200 /\ getMinRayParam 20 dip_m 2000 true = Ok 200 /\
  sampled_stack (sm_layers dip_m true) /\ ends_at_depth (sm_layers dip_m true) 2000 /\ 0 < 2000 /\ in_hi_zone dip_m true 2000 /\
  floor_of (down_to (sm_layers dip_m true) 2000) 200.
Proof.
  intros L. destruct (@dip_values L) as [A B]. destruct dip_stack as [S1 [S2 [S3 S4]]]. split; [exact A|]. split; [exact B|].
  split; [exact S1|]. split; [exact S2|]. split; [lra|]. split; [exact S3|].
  apply (C52_zone_floor 20 dip_m true 2000 200 200 S1 S2 ltac:(lra) S3 S4 A B).
Qed.
(** the constructed model of BuildRun.v meets the other hypotheses (C48_ex) *)
Example C52_ex : forall w, floor_of (down_past (sm_layers (one_sm one_c') w) 0) 6371 /\
  upper_side (sm_layers (one_sm one_c') w) 6371 (tb_minTurnRP (one_tb w)).
Proof.
  intros w. destruct C48_ex as [A [B [C [D [E [F G]]]]]]. split.
  - exact (C52_greatest _ _ _ _ _ _ _ _ _ _ _ _ A B C D E F w (one_tb w) (G w)).
  - destruct (C52_least _ _ _ _ _ _ _ _ _ _ _ _ A B C D w (one_tb w) (G w)) as [_ [X _]].
    apply X. intros [z [Hz _]]. destruct w; destruct Hz.
Qed.

Print Assumptions C52_turn_limit.
Print Assumptions C52_ray_limit.
Print Assumptions C52_zone_floor.
Print Assumptions C52_greatest.
Print Assumptions C52_falling.
Print Assumptions C52_least.
Print Assumptions C52_handover.

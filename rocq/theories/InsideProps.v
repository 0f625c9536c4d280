(** C57: Sources inside layers. *)
From Coq Require Import ZArith Bool List String Reals Lia Lra.
From Verif Require Import Base Num PyStr VelocityModel VelSpec VelProofs SlownessLayer SlownessModel
  SlowSpec SlowProofs SlowAddProofs SlowBuildProofs SlowProps CritSpec CritProofs CritProps SlowRealProofs SampleProofs StackSpec StackProofs
  SplitSpec SplitProofs TauModel TauSpec TauProofs TauBuildProofs TauSplitProofs TauProps PathSpec MonoSpec MonoProofs MonoProps LimitSpec LimitProofs LimitProps
  BullenSpec ErrSpec SourceSpec SourceProofs SourceProps InsideSpec InsideProofs InsideRayProofs InsideWalkProofs InsideSplitProofs InsideGoodProofs RealRun SlowRun BuildRun TwoRun InsideRun.
Import ListNotations.
Local Open Scope list_scope.
Local Open Scope R_scope.

Section Inside.
  Variables (fuel fuel' fuel'' : nat) (vm : vmodel R) (dp Dp dz dx err : R) (innerS : bool) (tol : R) (m : smodel R) (t : tmodel R).
  Variables (x : R) (wd wd' : list R) (t' r : tmodel R).
  Hypothesis H : newSlownessModel fuel vm dp Dp dz dx err innerS tol = Ok m.
  Hypothesis HT : newTauModel fuel' m = Ok t.
  Hypothesis Ht : VelSpec.thick (vm_layers vm).
  Hypothesis Hr : vm_radius vm = 6371.
  Hypothesis Hnf : no_flat vm innerS.
  Hypothesis Hfi : fluid_above_inner_core vm innerS.
  Hypothesis F0 : forall w f, nth_error (sm_layers m w) 0 = Some f -> sl_botP f <= sl_topP f <= n_lit 1 300.
  Hypothesis Rg : regular m.
  Hypothesis Sp : forall w, source_place m w x.
  Hypothesis Sc : forall w, single_cut m w x.
  Hypothesis Hd : tm_depthCorrect fuel'' wd t x = Ok (wd', t', r).
  Hypothesis Rg2 : regular (tm_sMod r).
  Hypothesis Zl : forall w, zone_or_lowest (tm_sMod r) w x.

  Lemma inside_all : tm_rayParams r = tm_rayParams t /\ fine m (tm_sMod r) /\
    (forall w, sampled_stack (sm_layers (tm_sMod r) w)) /\
    (~ at_edge (tm_P t) x -> forall w, sampled_at (sm_layers (tm_sMod r) w) x) /\
    forall w b, In b (branches r w) -> good2 t (tm_sMod r) w b.
  Proof.
    destruct (newTauModel_inv _ _ _ HT) as [_ [Em _]]. destruct (C24_ray_parameters _ _ _ HT ltac:(intros; apply R_ok)) as [_ [Dec _]].
    assert (Hs : forall w, sampled_stack (sm_layers m w)).
    { intros w. destruct (g_good _ _ _ _ _ _ _ _ _ _ H Ht Hr w) as [Gm [Gu [Gj [Gq [G0 [lq [yq [Eq _]]]]]]]].
      split; [exact Gm|]. split; [exact Gu|]. split; [exact Gj|]. split; [exact Gq|].
      destruct (sm_layers m w) as [|f l]; [destruct lq; discriminate|]. exists f. split; [reflexivity|]. apply G0. reflexivity. }
    assert (Ed : at_edge (tm_P t) x \/ ~ at_edge (tm_P t) x).
    { destruct (existsb (fun b => n_eqb (tb_top b) x || n_eqb (tb_bot b) x) (tm_P t)) eqn:E.
      - left. apply at_edge_b. exact E.
      - right. rewrite <- at_edge_b. congruence. }
    destruct Ed as [Ed|Ed].
    - destruct (C53_edge_source _ _ _ _ _ _ _ Dec Ed Hd) as [_ [_ [E1 [E2 [E3 _]]]]]. rewrite Em in E1. rewrite E1.
      split; [exact E2|]. split.
      { split; [reflexivity|]. split; [reflexivity|]. split; [reflexivity|]. split; [reflexivity|].
        intros v. apply refines_refl. clear. induction (sm_layers m v); constructor; auto. apply same_refl. }
      split; [exact Hs|]. split; [tauto|]. intros w b Hb. rewrite E3 in Hb.
      exact (built_good _ _ _ _ _ _ _ _ _ _ _ _ H HT Ht Hr Hnf Hfi w b Hb).
    - destruct (correct_inside _ _ _ _ _ _ _ Dec Ed Hd) as [E2 [mS [iS [mP [iP [H1 [H2 [E3 [n [b [Hn [Hin Tp]]]]]]]]]]]].
      rewrite Em in H1.
      pose proof (createSample_built _ _ _ H (R_ok _)) as [Id _].
      assert (G : forall v, s_meet (sm_layers m v) /\ s_upright (sm_layers m v)) by (intros v; destruct (Hs v) as [A [B _]]; auto).
      assert (Ok0 : forall v y, In y (sm_layers m v) -> lay_ok (sm_radius m) y /\ 0 <= sl_topDepth y).
      { intros v y Hy. split; [exact (rg_ok m v (Rg v) y Hy)|]. destruct (Hs v) as [A [B [C [D [f [Hf Ef]]]]]].
        apply (top_pos _ A B C D); [|exact Hy]. intros z Hz. congruence. }
      destruct (two_splits fuel'' m x mS iS G Ok0 Id Sp Sc H1 mP iP H2) as [Fn [Sa _]].
      rewrite <- E3 in Fn, Sa, Tp. split; [exact E2|]. split; [exact Fn|].
      split; [intros w; exact (stack2 _ _ _ _ _ _ _ _ _ _ H Ht Hr x _ Fn Sa w)|]. split; [auto|].
      intros w b' Hb. eapply parts_good; eassumption.
  Qed.
End Inside.

(** A source where layers meet, or well inside a layer not reaching the centre, whose slowness there occurs inside at most one layer of the
    other wave type: the correction cuts layers and changes no slowness at any depth, the ray parameters stay, and in each
    branch of the corrected model everything is as the sampled curves take it. *)
Theorem C57_inside_source :
  forall fuel fuel' fuel'' vm dp Dp dz dx err innerS tol (m : smodel R) t x wd wd' t' r,
  newSlownessModel fuel vm dp Dp dz dx err innerS tol = Ok m -> newTauModel fuel' m = Ok t ->
  VelSpec.thick (vm_layers vm) -> vm_radius vm = 6371 -> no_flat vm innerS -> fluid_above_inner_core vm innerS ->
  (forall w f, nth_error (sm_layers m w) 0 = Some f -> sl_botP f <= sl_topP f <= n_lit 1 300) -> regular m ->
  (forall w, source_place m w x) -> (forall w, single_cut m w x) ->
  tm_depthCorrect fuel'' wd t x = Ok (wd', t', r) ->
  regular (tm_sMod r) -> (forall w, zone_or_lowest (tm_sMod r) w x) ->
  tm_rayParams r = tm_rayParams t /\ (forall w, refines (sm_radius m) (sm_layers m w) (sm_layers (tm_sMod r) w)) /\
  (~ at_edge (tm_P t) x -> forall w, sampled_at (sm_layers (tm_sMod r) w) x) /\ rays_ready r.
Proof.
  intros fuel fuel' fuel'' vm dp Dp dz dx err innerS tol m t x wd wd' t' r H HT Ht Hr Hnf Hfi F0 Rg Sp Sc Hd Rg2 Zl.
  destruct (inside_all fuel fuel' fuel'' vm dp Dp dz dx err innerS tol m t x wd wd' t' r H HT Ht Hr Hnf Hfi F0 Rg Sp Sc Hd Rg2 Zl) as [E2 [Fn [Hs [Sa Gd]]]].
  split; [exact E2|]. split; [apply Fn|]. split; [exact Sa|]. split; [split; [|split]|].
  - intros w. destruct (Hs w) as [A [B _]]. auto.
  - intros b Hb. apply Rltb_lt. apply (Gd true b Hb).
  - intros b Hb. apply Rltb_lt. apply (Gd false b Hb).
  - rewrite E2. intros b [Hb|Hb].
    + destruct (Gd true b Hb) as [-> [_ [St [Ra _]]]]. auto.
    + destruct (Gd false b Hb) as [-> [_ [St [Ra _]]]]. auto.
Qed.
(** The greatest ray parameter of each branch of the corrected model is again the least slowness of all that a ray from the
    surface meets down to the top of the branch, both sides included. *)
Theorem C57_greatest :
  forall fuel fuel' fuel'' vm dp Dp dz dx err innerS tol (m : smodel R) t x wd wd' t' r,
  newSlownessModel fuel vm dp Dp dz dx err innerS tol = Ok m -> newTauModel fuel' m = Ok t ->
  VelSpec.thick (vm_layers vm) -> vm_radius vm = 6371 -> no_flat vm innerS -> fluid_above_inner_core vm innerS ->
  (forall w f, nth_error (sm_layers m w) 0 = Some f -> sl_botP f <= sl_topP f <= n_lit 1 300) -> regular m ->
  (forall w, source_place m w x) -> (forall w, single_cut m w x) ->
  tm_depthCorrect fuel'' wd t x = Ok (wd', t', r) ->
  regular (tm_sMod r) -> (forall w, zone_or_lowest (tm_sMod r) w x) ->
  forall w b, In b (branches r w) -> floor_of (down_past (sm_layers (tm_sMod r) w) (tb_top b)) (tb_maxRP b).
Proof.
  intros fuel fuel' fuel'' vm dp Dp dz dx err innerS tol m t x wd wd' t' r H HT Ht Hr Hnf Hfi F0 Rg Sp Sc Hd Rg2 Zl w b Hb.
  destruct (inside_all fuel fuel' fuel'' vm dp Dp dz dx err innerS tol m t x wd wd' t' r H HT Ht Hr Hnf Hfi F0 Rg Sp Sc Hd Rg2 Zl) as [_ [_ [_ [_ Gd]]]].
  apply (Gd w b Hb).
Qed.

(** ** a concrete case *)
(** the ball of constant velocity in two layers, whose construction is carried out in TwoRun.v, with a source halfway down the upper
    layer; InsideRun.v carries out the correction *)
Lemma two_regular : forall e c, regular (two_sm e c).
Proof.
  intros e c w y Hy. right. destruct w; destruct Hy as [<-|[<-|[]]].
  1, 3: left. 3, 4: right.
  all: unfold plain_layer, centre_layer, BullenSpec.thick, slow_pos; cbn; repeat (split; [lra|]); try lra.
  all: right; split; [field|lra].
Qed.
Lemma in_regular : forall e, regular (in_sm e).
Proof.
  intros e w y Hy. right. destruct w; destruct Hy as [<-|[<-|[<-|[]]]].
  1, 2, 4, 5: left. 5, 6: right.
  all: unfold plain_layer, centre_layer, BullenSpec.thick, slow_pos; cbn; repeat (split; [lra|]); try lra.
  all: right; split; [field|lra].
Qed.
Example C57_ex : exists e tA xA tB xB tC xC tD xD,
  let m := two_sm e two_c' in let t := two_t e tA xA tB xB in let r := in_r e tA xA tB xB tC xC tD xD in
  newSlownessModel 20 two_vm 1 7000 7000 10 e true 1 = Ok m /\ newTauModel 20 m = Ok t /\
  VelSpec.thick (vm_layers two_vm) /\ vm_radius two_vm = 6371 /\ no_flat two_vm true /\ fluid_above_inner_core two_vm true /\
  (forall w f, nth_error (sm_layers m w) 0 = Some f -> sl_botP f <= sl_topP f <= n_lit 1 300) /\ regular m /\
  (forall w, source_place m w 1500) /\ (forall w, single_cut m w 1500) /\
  tm_depthCorrect 20 [] t 1500 = Ok ([1500], t, r) /\ regular (tm_sMod r) /\ (forall w, zone_or_lowest (tm_sMod r) w 1500) /\
  (forall w, slowness_inside m w 1500 4871) /\ ~ at_edge (tm_P t) 1500 /\
  (forall w, List.length (sm_layers m w) = 2%nat /\ List.length (sm_layers (tm_sMod r) w) = 3%nat) /\
  (forall w, layerTimeDist (in_sm e) 3371 0 w = Ok (mkTD 3371 tC xC 0)) /\ (forall w, layerTimeDist (in_sm e) 0 0 w = Ok (mkTD 0 tD xD 0)).
Proof.
  destruct in_all as [e [tA [xA [tB [xB [tC [xC [tD [xD [A [B [C Lv]]]]]]]]]]]]. exists e, tA, xA, tB, xB, tC, xC, tD, xD. cbv zeta.
  destruct C53_ex as [_ [_ [_ [_ [_ [_ [_ [Q1 [Q2 [Q3 [Q4 _]]]]]]]]]]].
  split; [exact A|]. split; [exact B|]. split; [exact Q1|]. split; [exact Q2|]. split; [exact Q3|]. split; [exact Q4|].
  split.
  { intros w f Hf. assert (E : sl_topP f = 6371 /\ sl_botP f = 3371).
    { split; [apply (f_equal (fun o => match o with Some y => sl_topP y | None => 0 end)) in Hf|
              apply (f_equal (fun o => match o with Some y => sl_botP y | None => 0 end)) in Hf]; cbv beta iota in Hf; rewrite <- Hf; destruct w; reflexivity. }
    destruct E as [-> ->]. split; [lra|]. apply big_300. lia. }
  split; [apply two_regular|].
  assert (Sl : forall w, slowness_inside (two_sm e two_c') w 1500 4871).
  { intros []; eexists; (split; [left; reflexivity|]; split; [cbn; lra|]; apply two_slow_1). }
  split.
  { intros w. right. destruct w; eexists; (split; [left; reflexivity|]; unfold well_inside; cbn; lra). }
  split.
  { intros w p [y [Hy [Yx Ey]]].
    assert (p = 4871).
    { destruct w; destruct Hy as [<-|[<-|[]]]; [|cbn in Yx; lra| |cbn in Yx; lra]; cbn [sm_radius two_sm] in Ey; rewrite two_slow_1 in Ey; congruence. }
    subst p. clear y Hy Yx Ey. 
    assert (K : forall y, In y (sm_layers (two_sm e two_c') (negb w)) -> spans y 4871 -> exists n, y = mkSL n 6371 0 3371 3000).
    { intros y Hy Sy. apply spans_R in Sy. unfold strictly_between in Sy. destruct w; destruct Hy as [<-|[<-|[]]]; [eexists; reflexivity|cbn in Sy; lra|eexists; reflexivity|cbn in Sy; lra]. }
    split.
    - intros i j a b Hi Hj Si Sj. destruct (K a (nth_error_In _ _ Hi) Si) as [na Ea]. destruct (K b (nth_error_In _ _ Hj) Sj) as [nb Eb].
      assert (Z : forall k z, nth_error (sm_layers (two_sm e two_c') (negb w)) k = Some z -> sl_topDepth z = 0 -> k = 0%nat).
      { intros k z Hk Hz. destruct k as [|[|k]]; [reflexivity| |destruct w, k; discriminate].
        exfalso. apply (f_equal tops) in Hk. cbn [tops] in Hk. rewrite Hz in Hk. destruct w; cbn in Hk; lra. }
      rewrite (Z i a Hi), (Z j b Hj); [reflexivity|rewrite Eb; reflexivity|rewrite Ea; reflexivity].
    - intros y Hy Sy. destruct (K y Hy Sy) as [n ->]. split; [unfold fat; cbn; lra|]. split; [cbn; lra|]. intros _. apply two_slow_1. }
  split; [exact C|]. split; [apply in_regular|].
  split.
  { intros w. right. intros y s Hy Ey [z [Hz Hs]]. cbn [in_r tm_sMod] in Hy, Hz.
    assert (Py : sl_topP y = 4871) by (destruct w; destruct Hy as [<-|[<-|[<-|[]]]]; cbn in Ey |- *; lra). rewrite Py.
    destruct w; destruct Hz as [<-|[<-|[<-|[]]]]; cbn in Hs; lra. }
  split; [exact Sl|]. split; [|split; [intros []; split; reflexivity|exact Lv]].
  intros [b [[<-|[]] [E|E]]]; apply Reqb_eq in E; cbn in E; lra.
Qed.
Example C57_ready_ex : exists e tA xA tB xB tC xC tD xD, rays_ready (in_r e tA xA tB xB tC xC tD xD).
Proof.
  destruct C57_ex as [e [tA [xA [tB [xB [tC [xC [tD [xD [H1 [H2 [H3 [H4 [H5 [H6 [H7 [H8 [H9 [H10 [H11 [H12 [H13 _]]]]]]]]]]]]]]]]]]]]]].
  exists e, tA, xA, tB, xB, tC, xC, tD, xD.
  apply (C57_inside_source _ _ _ _ _ _ _ _ _ _ _ _ _ _ _ _ _ _ H1 H2 H3 H4 H5 H6 H7 H8 H9 H10 H11 H12 H13).
Qed.

Print Assumptions C57_inside_source.
Print Assumptions C57_greatest.

(** C53: Sources below the surface. *)
From Coq Require Import ZArith Bool List String Reals Lia Lra.
From Verif Require Import Base Num PyStr VelocityModel VelSpec VelProofs SlownessLayer SlownessModel
  SlowSpec SlowProofs SlowAddProofs SlowBuildProofs SlowProps CritSpec CritProofs CritProps SlowRealProofs SampleProofs StackSpec StackProofs
  TauModel TauSpec TauProofs TauBuildProofs TauSplitProofs TauProps PathSpec MonoSpec MonoProofs MonoProps LimitSpec LimitProofs LimitProps
  SourceSpec SourceProofs RealRun SlowRun BuildRun TwoRun.
Import ListNotations.
Local Open Scope list_scope.
Local Open Scope R_scope.

(** A source at the edge of a branch: the corrected model has the same layers, samples and branches, so it fulfils what the
    theorems on ray paths (C36) ask for if the model did. *)
Theorem C53_edge_source :
  forall fuel wd (t : tmodel R) x wd' t' r, decreasing (tm_rayParams t) -> at_edge (tm_P t) x ->
  tm_depthCorrect fuel wd t x = Ok (wd', t', r) ->
  t' = t /\ wd' = wd /\ tm_sMod r = tm_sMod t /\ tm_rayParams r = tm_rayParams t /\ (forall w, branches r w = branches t w) /\
  (rays_ready t -> rays_ready r).
Proof.
  intros fuel wd t x wd' t' r Hd He H. pose proof (depthCorrect_spec _ _ _ _ _ _ _ Hd H) as Sp.
  destruct Sp as [_ [_ [_ [Er [_ [_ [_ [_ [_ Sp]]]]]]]]].
  destruct Sp as [[_ [E4 [E5 [E1 [E2 [E3 _]]]]]]|[Ne _]]; [|contradiction].
  split; [exact E5|]. split; [exact E4|]. split; [exact E1|]. split; [exact Er|]. split; [intros []; assumption|].
  unfold rays_ready, path_ready. rewrite E1, E2, E3, Er. auto.
Qed.

(** A source at a depth where layers of both wave types meet, in a high slowness zone or below no lower slowness: the corrected
    model has the same layers and samples, and in each of its branches everything is as the sampled curves take it.  So all theorems
    on ray paths hold for it too. *)
Theorem C53_sampled_source :
  forall fuel fuel' fuel'' vm dp Dp dz dx err innerS tol (m : smodel R) t x wd wd' t' r,
  newSlownessModel fuel vm dp Dp dz dx err innerS tol = Ok m -> newTauModel fuel' m = Ok t ->
  thick (vm_layers vm) -> vm_radius vm = 6371 -> no_flat vm innerS -> fluid_above_inner_core vm innerS ->
  (forall w, sampled_at (sm_layers m w) x) -> (forall w, zone_or_lowest m w x) ->
  (forall w f, nth_error (sm_layers m w) 0 = Some f -> sl_botP f <= sl_topP f <= n_lit 1 300) ->
  tm_depthCorrect fuel'' wd t x = Ok (wd', t', r) ->
  tm_sMod r = m /\ tm_rayParams r = tm_rayParams t /\ rays_ready r.
Proof.
  intros fuel fuel' fuel'' vm dp Dp dz dx err innerS tol m t x wd wd' t' r H HT Ht Hr Hnf Hfi Sa Zl F0 Hd.
  destruct (source_good _ _ _ _ _ _ _ _ _ _ _ _ H HT Ht Hr Hnf Hfi x Sa Zl F0 _ _ _ _ _ Hd) as [E1 [E2 G]].
  split; [exact E1|]. split; [exact E2|]. rewrite <- E2 in G || idtac.
  split; [split; [|split]|].
  - intros w. rewrite E1. destruct (g_good _ _ _ _ _ _ _ _ _ _ H Ht Hr w) as [Gm [Gu _]]. auto.
  - intros b Hb. apply Rltb_lt. apply (G true b Hb).
  - intros b Hb. apply Rltb_lt. apply (G false b Hb).
  - rewrite E1, E2. intros b [Hb|Hb].
    + destruct (G true b Hb) as [-> [_ [St [Ra _]]]]. auto.
    + destruct (G false b Hb) as [-> [_ [St [Ra _]]]]. auto.
Qed.
(** The greatest ray parameter of each branch of the corrected model is again the least slowness of all that a ray from the
    surface meets down to the top of the branch, both sides included. *)
Theorem C53_greatest :
  forall fuel fuel' fuel'' vm dp Dp dz dx err innerS tol (m : smodel R) t x wd wd' t' r,
  newSlownessModel fuel vm dp Dp dz dx err innerS tol = Ok m -> newTauModel fuel' m = Ok t ->
  thick (vm_layers vm) -> vm_radius vm = 6371 -> no_flat vm innerS -> fluid_above_inner_core vm innerS ->
  (forall w, sampled_at (sm_layers m w) x) -> (forall w, zone_or_lowest m w x) ->
  (forall w f, nth_error (sm_layers m w) 0 = Some f -> sl_botP f <= sl_topP f <= n_lit 1 300) ->
  tm_depthCorrect fuel'' wd t x = Ok (wd', t', r) ->
  forall w b, In b (branches r w) -> floor_of (down_past (sm_layers m w) (tb_top b)) (tb_maxRP b).
Proof.
  intros fuel fuel' fuel'' vm dp Dp dz dx err innerS tol m t x wd wd' t' r H HT Ht Hr Hnf Hfi Sa Zl F0 Hd w b Hb.
  destruct (source_good _ _ _ _ _ _ _ _ _ _ _ _ H HT Ht Hr Hnf Hfi x Sa Zl F0 _ _ _ _ _ Hd) as [_ [_ G]].
  apply (G w b Hb).
Qed.

(** ** a concrete case *)
(** the ball of constant velocity in two layers, whose construction is carried out in TwoRun.v, with a source where they meet *)
Example C53_ex : exists e tA xA tB xB, let m := two_sm e two_c' in let t := two_t e tA xA tB xB in let r := two_r e tA xA tB xB in
  newSlownessModel 20 two_vm 1 7000 7000 10 e true 1 = Ok m /\ newTauModel 20 m = Ok t /\
  thick (vm_layers two_vm) /\ vm_radius two_vm = 6371 /\ no_flat two_vm true /\ fluid_above_inner_core two_vm true /\
  (forall w, sampled_at (sm_layers m w) 3000) /\ (forall w, zone_or_lowest m w 3000) /\
  (forall w f, nth_error (sm_layers m w) 0 = Some f -> sl_botP f <= sl_topP f <= n_lit 1 300) /\
  tm_depthCorrect 20 [] t 3000 = Ok ([3000], t, r) /\ ~ at_edge (tm_P t) 3000 /\
  (forall w, branches r w = [two_top tA xA tB xB w; two_bot w]).
Proof.
  destruct two_all as [e [tA [xA [tB [xB [A [B C]]]]]]]. exists e, tA, xA, tB, xB. cbv zeta.
  split; [exact A|]. split; [exact B|].
  split; [intros v [<-|[<-|[]]]; apply Rltb_lt; cbn; lra|]. split; [reflexivity|].
  split.
  { intros w v tp bp [<-|[<-|[]]] [[_ E]|[_ E]]; apply ends_R in E; unfold top_of, bot_of in E; cbn [vl_topDepth vl_botDepth vl_topP vl_botP vl_topS vl_botS] in E; lra. }
  split; [left; reflexivity|].
  split.
  { intros w. exists 0%nat. destruct w; eexists; eexists; (split; [reflexivity|]; split; [reflexivity|]; unfold fat; cbn; lra). }
  split.
  { intros w. right. intros y s Hy Ey [z [Hz Hs]].
    assert (Py : sl_topP y = 3371) by (destruct w; destruct Hy as [<-|[<-|[]]]; cbn in Ey |- *; lra). rewrite Py.
    destruct w; destruct Hz as [<-|[<-|[]]]; cbn in Hs; lra. }
  split.
  { intros w f Hf. assert (E : sl_topP f = 6371 /\ sl_botP f = 3371).
    { split; [apply (f_equal (fun o => match o with Some y => sl_topP y | None => 0 end)) in Hf|
              apply (f_equal (fun o => match o with Some y => sl_botP y | None => 0 end)) in Hf]; cbv beta iota in Hf; rewrite <- Hf; destruct w; reflexivity. }
    destruct E as [-> ->]. split; [lra|]. apply big_300. lia. }
  split; [exact C|]. split; [|intros []; reflexivity].
  intros [b [[<-|[]] [E|E]]]; apply Reqb_eq in E; cbn in E; lra.
Qed.
Example C53_ready_ex : exists e tA xA tB xB, rays_ready (two_r e tA xA tB xB).
Proof.
  destruct C53_ex as [e [tA [xA [tB [xB [A [B [C [D [E [F [G [I [J [K _]]]]]]]]]]]]]]]. exists e, tA, xA, tB, xB.
  apply (C53_sampled_source _ _ _ _ _ _ _ _ _ _ _ _ _ _ _ _ _ _ A B C D E F G I J K).
Qed.
(** and a source at the centre, the lower edge of the only branch, or at the surface *)
Example C53_edge_ex : decreasing (tm_rayParams one_t) /\ at_edge (tm_P one_t) 0 /\ rays_ready one_t /\
  tm_depthCorrect 20 [] one_t 0 = Ok ([], one_t, one_t).
Proof.
  split; [|split; [|split; [exact C48_rays_ready_ex|]]].
  - destruct (C24_ray_parameters _ _ _ one_modelled ltac:(intros; apply R_ok)) as [_ [Dec _]]. exact Dec.
  - exists (one_tb true). split; [left; reflexivity|]. left. apply Reqb_eq. reflexivity.
  - unfold tm_depthCorrect. cbn [one_t tm_sourceDepth tm_radius]. rewrite n_0_R.
    assert (Q : @n_eqb R _ 0 0 = true) by (apply Reqb_eq; reflexivity). rewrite Q. cbn [negb].
    assert (NL : @n_ltb R _ 6371 0 = false) by (apply Rltb_ge; lra). rewrite NL.
    unfold splitBranch. cbn [one_t tm_P existsb one_tb tb_top tb_bot]. rewrite Q. cbn [orb bind].
    unfold findBranch. cbn [one_t tm_P findBranch_go one_tb tb_top tb_bot].
    assert (E1 : @n_leb R _ 0 0 = true) by (apply Rleb_le; lra). assert (E2 : @n_ltb R _ 0 6371 = true) by (apply Rltb_lt; lra).
    rewrite E1, E2. reflexivity.
Qed.

Print Assumptions C53_edge_source.
Print Assumptions C53_sampled_source.
Print Assumptions C53_greatest.

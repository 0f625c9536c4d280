(** C51: High slowness zones are exactly the depths whose slowness exceeds the least slowness found above. *)
From Coq Require Import ZArith Bool List String Reals Lia Lra.
From Verif Require Import Base Num PyStr VelocityModel VelSpec VelProofs SlownessLayer SlownessModel
  SlowSpec SlowProofs SlowBuildProofs SlowProps CritSpec CritProofs CritProps SlowRealProofs StackSpec StackProofs
  RealRun SlowRun MonoSpec MonoProofs ZoneProofs BuildRun MonoProps.
Import ListNotations.
Local Open Scope list_scope.
Local Open Scope R_scope.

Lemma profile_is : forall vm innerS w i v tp bp, w = true \/ innerS = true ->
  (profile vm innerS w v tp bp <-> ends_of vm innerS w i v tp bp).
Proof.
  intros vm innerS w i v tp bp H. unfold profile, ends_of, follows_P. destruct w.
  - split; [intros [[_ X]|[X _]]; [left; auto|exfalso; auto]|]. intros [[_ X]|[[X _]|[X _]]]; [left; auto|discriminate..].
  - destruct H as [H|H]; [discriminate|]. subst innerS.
    assert (E : (false = true \/ uses_P vm true v) <-> s_as_p vm true i v).
    { unfold uses_P, s_as_p, fluid_layer. rewrite Reqb_eq, n_0_R. intuition discriminate. }
    rewrite E. intuition discriminate.
Qed.

Section Zones.
  Variables m m' : smodel R.
  Let vm := sm_vMod m.
  Let innerS := sm_allowInnerCoreS m.
  Hypothesis Hv : v_validate vm = Ok true.
  Hypothesis Ht : thick (vm_layers vm).
  Hypothesis Hr : sm_radius m = 6371.
  Hypothesis Htol : 0 < sm_tolerance m.
  Hypothesis Hnf : no_flat vm innerS.
  Hypothesis Hf : findCriticalPoints m = Ok m'.
  Lemma zones_exact : forall w, w = true \/ innerS = true -> falls_first vm innerS w ->
    forall i v M x y, nth_error (vm_layers vm) i = Some v -> floor_of (above_bottom vm innerS w i) M ->
    vl_topDepth v < x < vl_botDepth v -> slowness_at vm innerS w v x y ->
    (M + sm_tolerance m <= y -> exists z, In z (hi_zones m' w) /\ dr_top z < x < dr_bot z /\ dr_rayParam z = M) /\
    (forall z, In z (hi_zones m' w) -> dr_top z < x < dr_bot z -> dr_rayParam z = M /\ M - sm_tolerance m < y).
  Proof.
    intros w Hw H0 i v M x y Hi HM Hx [pv [Hpv Ey]].
    assert (Hne : vm_layers vm <> []) by (intros En; rewrite En in Hi; destruct i; discriminate).
    destruct (proj1 (proj1 (validate_iff _ (model_numbers_R _) Hne)) Hv) as [_ [Hco Hl]].
    pose proof (fun i v a b => profile_is vm innerS w i v a b Hw) as PI.
    assert (G : goodz m w i (hi_zones m' w)).
    { unfold hi_zones. eapply (search_ok m Hco Ht Hl Hr Htol w); try eassumption.
      - intros j u a b Hu E. apply PI in E. exact (Hnf w u a b (nth_error_In _ _ Hu) E).
      - intros u a b Hu E. apply PI in E. destruct (H0 u a b Hu E). assumption.
      - intros u a b Hu E. apply PI in E. destruct (H0 u a b Hu E). assumption. }
    apply (G v pv M x y Hi); [| |exact Hx|exact Ey].
    - unfold seen_by. rewrite Hpv. unfold follows_P. destruct Hw as [->|Hs]; [tauto|]. fold vm innerS. rewrite Hs.
      unfold uses_P, s_as_p, fluid_layer. rewrite Reqb_eq, n_0_R. intuition discriminate.
    - destruct HM as [[j [u [a [b [A [B C]]]]]] HM]. split.
      + exists j, u, a, b. split; [exact A|]. split; [apply PI; exact B|exact C].
      + intros z [j' [u' [a' [b' [A' [B' C']]]]]]. apply HM. exists j', u', a', b'. split; [exact A'|]. split; [apply (PI j'); exact B'|exact C'].
  Qed.
End Zones.

(** At a depth inside a layer let [M] be the least slowness at the top of this layer and anywhere above it.
    Where the slowness exceeds [M] (by the tolerance) there is a zone, its ray parameter is [M], and zones
    contain no other depths (up to the tolerance). *)
Theorem C51_zones :
  forall (m m' : smodel R), v_validate (sm_vMod m) = Ok true -> thick (vm_layers (sm_vMod m)) -> sm_radius m = 6371 ->
  0 < sm_tolerance m -> no_flat (sm_vMod m) (sm_allowInnerCoreS m) -> findCriticalPoints m = Ok m' ->
  forall w, w = true \/ sm_allowInnerCoreS m = true -> falls_first (sm_vMod m) (sm_allowInnerCoreS m) w ->
  forall i v M x y, nth_error (vm_layers (sm_vMod m)) i = Some v ->
  floor_of (above_bottom (sm_vMod m) (sm_allowInnerCoreS m) w i) M ->
  vl_topDepth v < x < vl_botDepth v -> slowness_at (sm_vMod m) (sm_allowInnerCoreS m) w v x y ->
  (M + sm_tolerance m <= y -> exists z, In z (hi_zones m' w) /\ dr_top z < x < dr_bot z /\ dr_rayParam z = M) /\
  (forall z, In z (hi_zones m' w) -> dr_top z < x < dr_bot z -> dr_rayParam z = M /\ M - sm_tolerance m < y).
Proof. exact zones_exact. Qed.

Theorem C51_constructed :
  forall {L : Libm R} fuel vm dp Dp dz dx err innerS tol (m : smodel R),
  newSlownessModel fuel vm dp Dp dz dx err innerS tol = Ok m ->
  thick (vm_layers vm) -> vm_radius vm = 6371 -> 0 < tol -> no_flat vm innerS ->
  forall w, w = true \/ innerS = true -> falls_first vm innerS w ->
  forall i v M x y, nth_error (vm_layers vm) i = Some v -> floor_of (above_bottom vm innerS w i) M ->
  vl_topDepth v < x < vl_botDepth v -> slowness_at vm innerS w v x y ->
  (M + tol <= y -> exists z, In z (hi_zones m w) /\ dr_top z < x < dr_bot z /\ dr_rayParam z = M) /\
  (forall z, In z (hi_zones m w) -> dr_top z < x < dr_bot z -> dr_rayParam z = M /\ M - tol < y).
Proof.
  intros L fuel vm dp Dp dz dx err innerS tol m H Ht Hr Htol Hnf w Hw H0 i v M x y Hi HM Hx Hy.
  unfold newSlownessModel in H. apply createSample_steps in H.
  destruct H as [m1 [m0 [m5 [crit [Hv [Hf [Hc [Hs [Hm [E Hval]]]]]]]]]].
  assert (Ez : hi_zones m w = hi_zones m1 w).
  { assert (SS0 : same_setup m1 m0) by (apply coarse_start_spec in Hc; apply Hc).
    assert (Hne : vm_layers vm <> []) by (intros En; rewrite En in Hi; destruct i; discriminate).
    destruct (proj1 (proj1 (validate_iff _ (model_numbers_R _) Hne)) Hv) as [_ [Hco Hl]].
    pose proof (findCritical_spec _ _ Hf) as [F1 [F2 _]]. cbn [sm_set_radius sm_vMod sm_init sm_radius] in F1, F2.
    pose proof (findCritical_exact _ _ Hf) as [out [_ [_ Fl]]].
    assert (Id0 : ids_ok m0).
    { assert (I0 : well_sampled (sm_vMod m1) m0 /\ ids_ok m0 /\
        (forall y, In y (sm_P m0) \/ In y (sm_S m0) -> sl_topDepth y <= sl_botDepth y))
        by (apply (coarse_start_inv m1); rewrite ?F1, ?F2; auto).
      apply I0. }
    destruct (samples_keep _ _ Hs Id0) as [_ [SS5 _]].
    pose proof (same_setup_trans _ _ _ SS0 SS5) as SS. unfold same_setup in SS. decompose [and] SS.
    subst m. unfold hi_zones. cbn [sm_set_crit sm_hiP sm_hiS]. destruct w; congruence. }
  rewrite Ez. exact (C51_zones (sm_set_radius (sm_init vm dp Dp dz dx err innerS tol) (vm_radius vm)) m1 Hv Ht Hr Htol Hnf Hf w Hw H0 i v M x y Hi HM Hx Hy).
Qed.

(** zones do not overlap or touch *)
Lemma zones_apart : forall zs : list (drange R), zones_good zs -> forall i j a b, (i < j)%nat ->
  nth_error zs i = Some a -> nth_error zs j = Some b -> dr_bot a < dr_top b.
Proof.
  intros zs [Z1 [Z2 _]] i j a b L Ha. revert b. induction L as [|j L IH]; intros b Hb.
  - apply Rltb_lt. exact (Z2 _ _ _ Ha Hb).
  - destruct (nth_error zs j) as [c|] eqn:Ec.
    + specialize (IH c eq_refl). pose proof (Z2 _ _ _ Ec Hb) as X. apply Rltb_lt in X.
      pose proof (Z1 c (nth_error_In _ _ Ec)) as Y. apply Rltb_lt in Y. lra.
    + apply nth_error_None in Ec. assert (S j < List.length zs)%nat by (apply nth_error_Some; congruence). lia.
Qed.
(** Hence exactly the rays with a parameter above [M] are reported to be in a high slowness zone where the
    slowness exceeds [M], and none where it stays below. *)
Theorem C51_blocked :
  forall {L : Libm R} fuel vm dp Dp dz dx err innerS tol (m : smodel R),
  newSlownessModel fuel vm dp Dp dz dx err innerS tol = Ok m ->
  thick (vm_layers vm) -> vm_radius vm = 6371 -> 0 < tol -> no_flat vm innerS ->
  forall w, w = true \/ innerS = true -> falls_first vm innerS w ->
  forall i v M x y p, nth_error (vm_layers vm) i = Some v -> floor_of (above_bottom vm innerS w i) M ->
  vl_topDepth v < x < vl_botDepth v -> slowness_at vm innerS w v x y -> M + tol <= y ->
  (depthInHighSlowness m x p w = true <-> M < p).
Proof.
  intros L fuel vm dp Dp dz dx err innerS tol m H Ht Hr Htol Hnf w Hw H0 i v M x y p Hi HM Hx Hy Ly.
  destruct (C51_constructed _ _ _ _ _ _ _ _ _ _ H Ht Hr Htol Hnf w Hw H0 i v M x y Hi HM Hx Hy) as [A B].
  destruct (A Ly) as [z [Hz [Zx Zp]]].
  destruct (C23_constructed_valid _ _ _ _ _ _ _ _ _ _ H (proj2 (Reqb_eq _ _) eq_refl)) as [Val _].
  assert (ZG : zones_good (hi_zones m w)).
  { assert (ZN : forall zs : list (drange R), zones_numbers zs) by (intros zs z' _; split; apply Reqb_eq; reflexivity).
    pose proof (C23_validate_exact m (proj2 (Reqb_eq _ _) eq_refl) (proj2 (Reqb_eq _ _) eq_refl) (proj2 (Reqb_eq _ _) eq_refl)
      (ZN _) (ZN _) (ZN _)) as [VE _]. apply VE in Val. destruct w; apply Val. }
  assert (Only : forall z', In z' (hi_zones m w) -> dr_top z' <= x <= dr_bot z' -> z' = z).
  { intros z' Hz' X'. apply In_nth_error in Hz, Hz'. destruct Hz as [k Hk], Hz' as [k' Hk'].
    destruct (lt_eq_lt_dec k k') as [[Lt|Eq]|Lt].
    - pose proof (zones_apart _ ZG _ _ _ _ Lt Hk Hk'). lra.
    - subst. congruence.
    - pose proof (zones_apart _ ZG _ _ _ _ Lt Hk' Hk). lra. }
  unfold depthInHighSlowness. fold (hi_zones m w). rewrite existsb_exists. split.
  - intros [z' [Hz' X]]. rewrite !andb_true_iff, orb_true_iff, andb_true_iff in X.
    destruct X as [[X1 X2] X3]. apply Rleb_le in X1, X2. assert (z' = z) by (apply Only; auto). subst z'.
    destruct X3 as [X3|[_ X3]]; [apply Rltb_lt in X3; lra|]. apply Reqb_eq in X3. lra.
  - intros Lp. exists z. split; [exact Hz|]. rewrite !andb_true_iff, orb_true_iff. split; [split; apply Rleb_le; lra|]. left. apply Rltb_lt. lra.
Qed.

(** *** concrete cases *)
(** slowness falls from 277 to 200, jumps up to 300 and falls to 250, then falls from 100 to 0 *)
Definition low_v : vmodel R := mkVModel "low velocity" 6371 371 1371 1371 0 6371 true
  [mkVLayer 0 0 371 23 30 23 30 1 1; mkVLayer 1 371 1371 20 20 20 20 1 1; mkVLayer 2 1371 6371 50 50 50 50 1 1].
Definition low_m : smodel R := sm_set_radius (sm_init low_v 1 10 100 10 1 true 1) 6371.
Definition low_m' : smodel R := sm_set_zones low_m
  [mkCD 0 0 0 0; mkCD 371 1 (-1) (-1); mkCD 1371 2 (-1) (-1); mkCD 6371 3 (-1) (-1)]
  [mkDR 371 1371 200] [mkDR 371 1371 200] [] 8.
Lemma low_found : findCriticalPoints low_m = Ok low_m'.
Proof. srun. Qed.

(** the slownesses of a solid layer *)
Lemma solid_profile : forall vm innerS w v tp bp, vl_topS v <> 0 -> innerS = true -> profile vm innerS w v tp bp ->
  tp = top_of w v /\ bp = bot_of w v.
Proof.
  intros vm innerS w v tp bp N -> [[F E]|[F E]].
  - destruct F as [->|[F|[F _]]]; [|contradiction|discriminate]. apply ends_R in E. tauto.
  - destruct w; [exfalso; apply F; left; reflexivity|]. apply ends_R in E. tauto.
Qed.
Lemma solid_has : forall vm (w : bool) v, vl_topS v <> 0 -> (if w then vl_topP v else vl_topS v) <> 0 ->
  (if w then vl_botP v else vl_botS v) <> 0 -> profile vm true w v (top_of w v) (bot_of w v).
Proof.
  intros vm w v N N1 N2. assert (E : ends w v (top_of w v) (bot_of w v)).
  { split; unfold top_of, bot_of; rewrite py_div_R by assumption; cbn [n_sub n_lit Num_R]; rewrite Rlit_0; reflexivity. }
  destruct w; [left|right]; (split; [|exact E]); [left; reflexivity|]. intros [X|[X|[X _]]]; [discriminate|contradiction|discriminate].
Qed.
Ltac ends_num := unfold top_of, bot_of; cbn [vl_topDepth vl_botDepth vl_topP vl_botP vl_topS vl_botS]; lra.

Example C51_ex :
  v_validate low_v = Ok true /\ thick (vm_layers low_v) /\ 0 < sm_tolerance low_m /\ no_flat low_v true /\
  findCriticalPoints low_m = Ok low_m' /\ (forall w, falls_first low_v true w) /\
  (forall w, hi_zones low_m' w = [mkDR 371 1371 200]) /\
  exists v, nth_error (vm_layers low_v) 1 = Some v /\ forall w,
    floor_of (above_bottom low_v true w 1) 200 /\ slowness_at low_v true w v 871 275.
Proof.
  split; [srun|]. split; [intros v [<-|[<-|[<-|[]]]]; apply Rltb_lt; cbn; lra|]. split; [cbn; lra|].
  assert (Sol : forall v, In v (vm_layers low_v) -> vl_topS v <> 0) by (intros v [<-|[<-|[<-|[]]]]; cbn; lra).
  split. { intros w v tp bp Hv P. apply solid_profile in P; [|auto|reflexivity]. destruct P as [-> ->].
    destruct Hv as [<-|[<-|[<-|[]]]]; destruct w; ends_num. }
  split; [exact low_found|].
  split. { intros w v tp bp Hv P. apply solid_profile in P; [|apply Sol; eapply nth_error_In; eassumption|reflexivity]. destruct P as [-> ->].
    assert (E : v = mkVLayer 0 0 371 23 30 23 30 1 1) by (cbn [nth_error low_v vm_layers] in Hv; congruence). subst v.
    assert (Big : 1000 < n_lit 11 299).
    { change (@n_lit R Num_R 11 299) with (11 * 10 ^ Pos.to_nat 299). replace (Pos.to_nat 299) with (3 + 296)%nat by reflexivity.
      rewrite pow_add. assert (1 < 10 ^ 296) by (apply Rlt_pow_R1; [lra|lia]). simpl (10 ^ 3). lra. }
    split; [destruct w; ends_num|]. assert (top_of w (mkVLayer 0 0 371 23 30 23 30 1 1) = 277) by (destruct w; ends_num). lra. }
  split; [intros []; reflexivity|].
  eexists. split; [reflexivity|]. intros w. split.
  - assert (Have : forall v, In v (vm_layers low_v) -> profile low_v true w v (top_of w v) (bot_of w v)).
    { intros v Hv. apply solid_has; [auto|..]; destruct Hv as [<-|[<-|[<-|[]]]]; destruct w; cbn; lra. }
    split.
    + exists 0%nat, (mkVLayer 0 0 371 23 30 23 30 1 1). do 2 eexists. split; [reflexivity|]. split; [apply Have; left; reflexivity|].
      right. split; [lia|]. destruct w; ends_num.
    + intros x [j [v [tp [bp [Hj [P Hx]]]]]]. apply solid_profile in P; [|apply Sol; eapply nth_error_In; eassumption|reflexivity].
      destruct P as [-> ->].
      destruct j as [|[|j]]; [| |destruct Hx as [[Lj _]|[Lj _]]; lia]; cbn [nth_error low_v vm_layers] in Hj.
      * assert (E : v = mkVLayer 0 0 371 23 30 23 30 1 1) by congruence. subst v.
        destruct Hx as [[_ ->]|[_ ->]]; destruct w; ends_num.
      * assert (E : v = mkVLayer 1 371 1371 20 20 20 20 1 1) by congruence. subst v.
        destruct Hx as [[_ ->]|[Lj _]]; [|lia]. destruct w; ends_num.
  - exists w. split; [|unfold wvel, line; destruct w; cbn; lra].
    unfold follows_P, uses_P. cbn. split; intros X; [left; exact X|]. destruct X as [X|[X|[X _]]]; [exact X|lra|discriminate].
Qed.

(** Without a falling first layer: here the slowness rises from 277 at the surface to 300 and then falls to 0. The
    search compares the first layer with a layer of no thickness at the surface and does not notice. *)
Definition up_v : vmodel R := mkVModel "rising" 6371 371 371 371 0 6371 true
  [mkVLayer 0 0 371 23 20 23 20 1 1; mkVLayer 1 371 6371 20 20 20 20 1 1].
Definition up_m : smodel R := sm_set_radius (sm_init up_v 1 10 100 10 1 true 1) 6371.
Theorem C51_surface_refuted :
  v_validate up_v = Ok true /\ thick (vm_layers up_v) /\ 0 < sm_tolerance up_m /\ no_flat up_v true /\
  (exists m', findCriticalPoints up_m = Ok m' /\ forall w, hi_zones m' w = []) /\
  exists v M x y, nth_error (vm_layers up_v) 0 = Some v /\ vl_topDepth v < x < vl_botDepth v /\
  forall w, floor_of (above_bottom up_v true w 0) M /\ slowness_at up_v true w v x y /\ M + sm_tolerance up_m <= y.
Proof.
  split; [srun|]. split; [intros v [<-|[<-|[]]]; apply Rltb_lt; cbn; lra|]. split; [cbn; lra|].
  assert (Sol : forall v, In v (vm_layers up_v) -> vl_topS v <> 0) by (intros v [<-|[<-|[]]]; cbn; lra).
  split. { intros w v tp bp Hv P. apply solid_profile in P; [|auto|reflexivity]. destruct P as [-> ->].
    destruct Hv as [<-|[<-|[]]]; destruct w; ends_num. }
  split. { exists (sm_set_zones up_m [mkCD 0 0 0 0; mkCD 371 1 (-1) (-1); mkCD 6371 2 (-1) (-1)] [] [] [] 6).
    split; [srun|]. intros []; reflexivity. }
  exists (mkVLayer 0 0 371 23 20 23 20 1 1), 277, (371 / 3), ((6371 - 371 / 3) / 22).
  split; [reflexivity|]. split; [cbn; lra|]. intros w.
  assert (Have : forall v, In v (vm_layers up_v) -> profile up_v true w v (top_of w v) (bot_of w v)).
  { intros v Hv. apply solid_has; [auto|..]; destruct Hv as [<-|[<-|[]]]; destruct w; cbn; lra. }
  split; [split|split].
  - exists 0%nat, (mkVLayer 0 0 371 23 20 23 20 1 1). do 2 eexists. split; [reflexivity|]. split; [apply Have; left; reflexivity|].
    left. split; [lia|]. destruct w; ends_num.
  - intros x [j [v [tp [bp [Hj [P Hx]]]]]]. apply solid_profile in P; [|apply Sol; eapply nth_error_In; eassumption|reflexivity].
    destruct P as [-> ->]. destruct j as [|j]; [|destruct Hx as [[Lj _]|[Lj _]]; lia]. cbn [nth_error up_v vm_layers] in Hj.
    assert (E : v = mkVLayer 0 0 371 23 20 23 20 1 1) by congruence. subst v.
    destruct Hx as [[_ ->]|[Lj _]]; [|lia]. destruct w; ends_num.
  - exists w. split; [|unfold wvel, line; destruct w; cbn [vl_topDepth vl_botDepth vl_topP vl_botP vl_topS vl_botS]; field].
    unfold follows_P, uses_P. cbn. split; intros X; [left; exact X|]. destruct X as [X|[X|[X _]]]; [exact X|lra|discriminate].
  - change (sm_tolerance up_m) with 1. lra.
Qed.
(** With a layer of constant slowness: here it falls from 277 to 200, stays at 200, rises to 400 and then falls to 0.  Neither
    end of the constant part is an extremum for the search, so the rise is not noticed. *)
Definition flat_v : vmodel R := mkVModel "flat" 6371 371 1371 1371 0 6371 true
  [mkVLayer 0 0 371 23 30 23 30 1 1; mkVLayer 1 371 1371 30 25 30 25 1 1; mkVLayer 2 1371 2371 25 10 25 10 1 1;
   mkVLayer 3 2371 6371 10 10 10 10 1 1].
Definition flat_m : smodel R := sm_set_radius (sm_init flat_v 1 10 100 10 1 true 1) 6371.
Theorem C51_flat_refuted :
  v_validate flat_v = Ok true /\ thick (vm_layers flat_v) /\ 0 < sm_tolerance flat_m /\
  (forall v tp bp w, nth_error (vm_layers flat_v) 0 = Some v -> profile flat_v true w v tp bp -> bp < tp) /\
  (exists m', findCriticalPoints flat_m = Ok m' /\ (forall w, hi_zones m' w = []) /\
     forall c, In c (sm_crit m') -> ~ (371 <= cd_depth c <= 1371)) /\
  exists v M x y, nth_error (vm_layers flat_v) 2 = Some v /\ vl_topDepth v < x < vl_botDepth v /\
  forall w, floor_of (above_bottom flat_v true w 2) M /\ slowness_at flat_v true w v x y /\ M + sm_tolerance flat_m <= y.
Proof.
  split; [srun|]. split; [intros v [<-|[<-|[<-|[<-|[]]]]]; apply Rltb_lt; cbn; lra|]. split; [cbn; lra|].
  assert (Sol : forall v, In v (vm_layers flat_v) -> vl_topS v <> 0) by (intros v [<-|[<-|[<-|[<-|[]]]]]; cbn; lra).
  split. { intros v tp bp w Hv P. apply solid_profile in P; [|apply Sol; eapply nth_error_In; eassumption|reflexivity]. destruct P as [-> ->].
    assert (E : v = mkVLayer 0 0 371 23 30 23 30 1 1) by (cbn [nth_error flat_v vm_layers] in Hv; congruence). subst v. destruct w; ends_num. }
  split. { exists (sm_set_zones flat_m [mkCD 0 0 0 0; mkCD 2371 3 (-1) (-1); mkCD 6371 4 (-1) (-1)] [] [] [] 10).
    split; [srun|]. split; [intros []; reflexivity|]. intros c [<-|[<-|[<-|[]]]]; cbn; lra. }
  exists (mkVLayer 2 1371 2371 25 10 25 10 1 1), 200, 1871, (9000 / 35).
  split; [reflexivity|]. split; [cbn; lra|]. intros w.
  assert (Have : forall v, In v (vm_layers flat_v) -> profile flat_v true w v (top_of w v) (bot_of w v)).
  { intros v Hv. apply solid_has; [auto|..]; destruct Hv as [<-|[<-|[<-|[<-|[]]]]]; destruct w; cbn; lra. }
  split; [split|split].
  - exists 0%nat, (mkVLayer 0 0 371 23 30 23 30 1 1). do 2 eexists. split; [reflexivity|]. split; [apply Have; left; reflexivity|].
    right. split; [lia|]. destruct w; ends_num.
  - intros x [j [v [tp [bp [Hj [P Hx]]]]]]. apply solid_profile in P; [|apply Sol; eapply nth_error_In; eassumption|reflexivity].
    destruct P as [-> ->]. destruct j as [|[|[|j]]]; [..|destruct Hx as [[Lj _]|[Lj _]]; lia]; cbn [nth_error flat_v vm_layers] in Hj.
    + assert (E : v = mkVLayer 0 0 371 23 30 23 30 1 1) by congruence. subst v. destruct Hx as [[_ ->]|[_ ->]]; destruct w; ends_num.
    + assert (E : v = mkVLayer 1 371 1371 30 25 30 25 1 1) by congruence. subst v. destruct Hx as [[_ ->]|[_ ->]]; destruct w; ends_num.
    + assert (E : v = mkVLayer 2 1371 2371 25 10 25 10 1 1) by congruence. subst v. destruct Hx as [[_ ->]|[Lj _]]; [|lia]. destruct w; ends_num.
  - exists w. split; [|unfold wvel, line; destruct w; cbn [vl_topDepth vl_botDepth vl_topP vl_botP vl_topS vl_botS]; field].
    unfold follows_P, uses_P. cbn. split; intros X; [left; exact X|]. destruct X as [X|[X|[X _]]]; [exact X|lra|discriminate].
  - change (sm_tolerance flat_m) with 1. lra.
Qed.

(** the hypotheses of C51_constructed hold for the ball of constant velocity, whose construction is carried out in BuildRun.v *)
Example C51_constructed_ex : newSlownessModel 20 unit_vm 1 7000 7000 10 100000 true 1 = Ok (one_sm one_c') /\
  thick (vm_layers unit_vm) /\ vm_radius unit_vm = 6371 /\ no_flat unit_vm true /\
  forall w, falls_first unit_vm true w /\ hi_zones (one_sm one_c') w = [].
Proof.
  destruct C48_ex as [A [_ [C [D [E _]]]]]. split; [exact A|]. split; [exact C|]. split; [exact D|]. split; [exact E|].
  intros w. split; [|destruct w; reflexivity]. intros v tp bp Hv P.
  assert (Ev : v = mkVLayer 0 0 6371 1 1 1 1 1 1) by (cbn [nth_error unit_vm vm_layers] in Hv; congruence).
  apply solid_profile in P; [|subst v; cbn; lra|reflexivity]. destruct P as [-> ->]. subst v.
  assert (Big : 10000 < n_lit 11 299).
  { change (@n_lit R Num_R 11 299) with (11 * 10 ^ Pos.to_nat 299). replace (Pos.to_nat 299) with (4 + 295)%nat by reflexivity.
    rewrite pow_add. assert (1 < 10 ^ 295) by (apply Rlt_pow_R1; [lra|lia]). simpl (10 ^ 4). lra. }
  split; [destruct w; ends_num|]. assert (top_of w (mkVLayer 0 0 6371 1 1 1 1 1 1) = 6371) by (destruct w; ends_num). lra.
Qed.

Print Assumptions C51_zones.
Print Assumptions C51_constructed.
Print Assumptions C51_blocked.
Print Assumptions C51_surface_refuted.
Print Assumptions C51_flat_refuted.

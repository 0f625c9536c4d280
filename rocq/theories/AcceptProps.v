(** C64: which source depths are accepted. *)
From Coq Require Import ZArith Bool List String Reals Lia Lra.
From Verif Require Import Base Num PyStr VelocityModel VelSpec VelProofs SlownessLayer SlownessModel
  SlowSpec SlowProofs SlowAddProofs SlowBuildProofs SlowProps CritSpec CritProofs CritProps SlowRealProofs SampleProofs StackSpec StackProofs
  SplitSpec SplitProofs SplitMoreProofs TauModel TauSpec TauProofs TauBuildProofs TauSplitProofs TauProps PathSpec MonoSpec LimitSpec LimitProofs
  BullenSpec ErrSpec SourceSpec SourceProofs SourceProps InsideSpec InsideProofs InsideRayProofs InsideWalkProofs InsideSplitProofs InsideGoodProofs InsideProps
  AcceptSpec AcceptProofs RealRun SlowRun BuildRun TwoRun InsideRun.
Import ListNotations.
Local Open Scope list_scope.
Local Open Scope R_scope.

(** how long the lists get *)
Lemma split_at_length : forall {A} (l : list A) i a b, (List.length (list_split_at l i a b) <= S (List.length l))%nat.
Proof. intros A. induction l as [|h l IH]; intros [|i] a b; cbn [list_split_at List.length]; try lia. specialize (IH i a b). lia. Qed.
Lemma fix_length : forall rad p w (es : list (Z * slayer R)) out crit next out' crit' next',
  foldM (fixOther_step rad p w) es (out, crit, next) = Ok (out', crit', next') -> (List.length out' <= List.length out + List.length es)%nat.
Proof.
  intros rad p w es. induction es as [|[n y] es IH]; intros out crit next out' crit' next' H; cbn [foldM] in H.
  - inversion H; subst. cbn [List.length]. lia.
  - inv_as H as [[o c] nx] Hs. apply IH in H. cbn [List.length]. unfold fixOther_step in Hs. if_in Hs; [|inversion Hs; subst; lia].
    inv_as Hs as d Hd. inv_as Hs as top Ht. inv_as Hs as bot Hb. inversion Hs; subst o c nx. pose proof (split_at_length out (Z.to_nat n) top bot). lia.
Qed.
Lemma split_length : forall fuel (m : smodel R) x w m' info, splitLayer fuel m x w = Ok (m', info) -> si_needed info = true ->
  (List.length (sm_layers (si_sMod info) w) <= S (List.length (sm_layers m w)))%nat /\
  (List.length (sm_layers (si_sMod info) (negb w)) <= 2 * List.length (sm_layers m (negb w)) + 2)%nat.
Proof.
  intros fuel m x w m' info H Hn. unfold splitLayer in H. inv_as H as n Hnum. inv_as H as y Hy.
  if_in H; [inversion H; subst; discriminate|].
  if_in H.
  { inv_as H as l1 H1. inv_as H as out1 H2. inv_as H as z1 H3. inv_as H as l2 H4. inv_as H as out2 H5. inversion H; subst. discriminate. }
  if_in H.
  { inv_as H as l1 H1. inv_as H as out1 H2. inv_as H as z1 H3. inv_as H as l2 H4. inv_as H as out2 H5. inversion H; subst. discriminate. }
  inv_as H as p Hp. inv_as H as top Htop. inv_as H as bot Hbot. inv_as H as [[other crit'] next'] Ho.
  split.
  { assert (E1 : sm_layers (si_sMod info) w = list_split_at (fresh_copy (sm_next m) (sm_layers m w)) (Z.to_nat n) top bot) by (inversion H; subst; destruct w; reflexivity).
    rewrite E1. eapply Nat.le_trans; [apply split_at_length|]. rewrite fresh_length. lia. }
  assert (E2 : sm_layers (si_sMod info) (negb w) = other) by (inversion H; subst; destruct w; reflexivity).
  rewrite E2. clear E2 H. unfold fixOtherLayers in Ho. apply fix_length in Ho.
  unfold enumerate in Ho. rewrite combine_length in Ho.
  set (fr := fresh_copy (sm_next m + Z.of_nat (List.length (sm_layers m w)) + 2) (sm_layers m (negb w))) in *.
  assert (Lf : List.length fr = List.length (sm_layers m (negb w))) by (unfold fr; apply fresh_length).
  assert (Q : (List.length match index_of_id (sl_id y) (sm_layers m (negb w)) with Some i => list_split_at fr i top bot | None => fr end <= S (List.length fr))%nat).
  { destruct (index_of_id _ _) as [i|]; [apply split_at_length|lia]. }
  lia.
Qed.

(** nothing is cut where layers meet *)
Lemma split_nothing : forall fuel (m : smodel R) x w m' info, (forall v, s_meet (sm_layers m v) /\ s_upright (sm_layers m v)) ->
  (forall v, sampled_at (sm_layers m v) x) -> splitLayer fuel m x w = Ok (m', info) -> si_sMod info = m.
Proof.
  intros fuel m x w m' info G Sa Hs.
  assert (No : forall v y, In y (sm_layers m v) -> ~ sl_topDepth y < x < sl_botDepth y).
  { intros v y Hy. exact (sampled_not_inside _ _ _ (proj1 (G v)) (proj2 (G v)) (Sa v) Hy). }
  destruct (step fuel m x w m' info G) as [[E _]|[_ [_ [_ [_ [_ [_ Cu]]]]]]]; [| | | |exact Hs|exact E|].
  - intros y Hy Wy. destruct (No w y Hy (well_strict x y Wy)).
  - intros u z Hu Xu. destruct (No w u Hu Xu).
  - intros v. left. apply Sa.
  - intros p [y [Hy [Xy _]]]. destruct (No w y Hy Xy).
  - exfalso. destruct Cu as [l1 [y [l2 [_ [_ [_ [_ [E1 [_ [_ [_ [_ [_ [Wy _]]]]]]]]]]]]]]. apply (No w y); [rewrite E1; apply in_or_app; right; left; reflexivity|exact (well_strict x y Wy)].
Qed.

Section Constructed.
  Variables (fuel fuel' : nat) (vm : vmodel R) (dp Dp dz dx err : R) (innerS : bool) (tol : R) (m : smodel R) (t : tmodel R).
  Hypothesis H : newSlownessModel fuel vm dp Dp dz dx err innerS tol = Ok m.
  Hypothesis HT : newTauModel fuel' m = Ok t.
  Hypothesis Ht : VelSpec.thick (vm_layers vm).
  Hypothesis Hr : vm_radius vm = 6371.

  Let Hsrc : tm_sourceDepth t = 0.
  Proof. destruct (newTauModel_inv _ _ _ HT) as [_ [_ [_ [_ [_ [_ [_ [E _]]]]]]]]. rewrite E. apply n_0_R. Qed.
  Let Hrad : tm_radius t = 6371.
  Proof. destruct (newTauModel_inv _ _ _ HT) as [_ [_ [_ [_ [_ [_ [_ [_ [_ E]]]]]]]]]. rewrite E. apply (Rlit_0 6371). Qed.
  Let Hmod : tm_sMod t = m.
  Proof. apply (newTauModel_inv _ _ _ HT). Qed.
  Let Dec : decreasing (tm_rayParams t).
  Proof. destruct (C24_ray_parameters _ _ _ HT ltac:(intros; apply R_ok)) as [_ [D _]]. exact D. Qed.
  Let Hs : forall w, sampled_stack (sm_layers m w).
  Proof.
    intros w. destruct (g_good _ _ _ _ _ _ _ _ _ _ H Ht Hr w) as [Gm [Gu [Gj [Gq [G0 [lq [yq [Eq _]]]]]]]].
    split; [exact Gm|]. split; [exact Gu|]. split; [exact Gj|]. split; [exact Gq|].
    destruct (sm_layers m w) as [|f l]; [destruct lq; discriminate|]. exists f. split; [reflexivity|]. apply G0. reflexivity.
  Qed.
  Let Hends : exists b0 bl, nth_error (tm_P t) 0 = Some b0 /\ last_branch (tm_P t) bl /\ tb_top b0 = 0 /\ tb_bot bl = 6371.
  Proof.
    destruct (C25_branches_tile_exact _ _ _ _ _ _ _ _ _ _ _ _ H HT Ht true) as [[TL Ti] _]. cbn [branches] in TL, Ti.
    pose proof (createSample_built _ _ _ H (R_ok _)) as [_ [_ [Er [_ [_ [[c0 [l [cn [Ec [E0 [En _]]]]]] _]]]]]].
    cbn [sm_init sm_vMod] in Er. rewrite Ec in TL. cbn [List.length] in TL. rewrite app_length in TL. cbn [List.length] in TL.
    destruct (nth_error (tm_P t) 0) as [b0|] eqn:B0; [|apply nth_error_None in B0; lia].
    destruct (last_or_nil (tm_P t)) as [F|[bl Hl]]; [rewrite F in TL; cbn in TL; lia|].
    exists b0, bl. split; [reflexivity|]. split; [exact Hl|]. split.
    - destruct (nth_error (sm_crit m) 1) as [c1|] eqn:C1; [|apply nth_error_None in C1; rewrite Ec in C1; cbn [List.length] in C1; rewrite app_length in C1; cbn in C1; lia].
      destruct (Ti 0%nat b0 c0 c1 B0 ltac:(rewrite Ec; reflexivity) C1) as [T1 _]. rewrite T1, E0. apply n_0_R.
    - destruct Hl as [bs Hl]. assert (Lb : List.length bs = List.length l) by (rewrite Hl, app_length in TL; cbn in TL; lia).
      assert (Nb : nth_error (tm_P t) (List.length l) = Some bl) by (rewrite Hl, nth_error_app2, Lb, Nat.sub_diag by lia; reflexivity).
      assert (Nc : nth_error (sm_crit m) (S (List.length l)) = Some cn) by (rewrite Ec; cbn [nth_error]; rewrite nth_error_app2, Nat.sub_diag by lia; reflexivity).
      destruct (nth_error (sm_crit m) (List.length l)) as [cm|] eqn:Cm.
      2:{ apply nth_error_None in Cm. rewrite Ec in Cm. cbn [List.length] in Cm. rewrite app_length in Cm. cbn in Cm. lia. }
      destruct (Ti _ bl cm cn Nb Cm Nc) as [_ T2]. rewrite T2, En, Er. exact Hr.
  Qed.
  Let Bmu : b_meet (tm_P t) /\ b_upright (tm_P t).
  Proof. destruct (C25_branches_tile_exact _ _ _ _ _ _ _ _ _ _ _ _ H HT Ht true) as [_ [A [B _]]]. auto. Qed.
  Let find_ok : forall x, 0 <= x < 6371 -> exists n b, findBranch t x = Ok (Z.of_nat n) /\ nth_error (tm_P t) n = Some b /\ in_branch b x.
  Proof.
    intros x X. destruct Bmu as [Bm Bu]. destruct (C29_lookup_exact t x Bm Bu) as [L1 [_ L3]]. destruct Hends as [b0 [bl [E0 [El [T0 Tl]]]]].
    destruct (L3 b0 bl E0 El) as [n [b [Hn Hi]]]; [apply Rleb_le; lra|apply Rltb_lt; lra|]. exists n, b. split; [apply L1; eauto|]. auto.
  Qed.
  Let edges : forall b, In b (tm_P t) -> 0 <= tb_top b /\ tb_top b < tb_bot b <= 6371.
  Proof.
    intros b Hb. apply In_nth_error in Hb as Hi. destruct Hi as [n Hn]. destruct Bmu as [_ Bu]. pose proof (Bu b Hb) as U. apply Rltb_lt in U.
    destruct (ends_bnd _ _ _ _ _ _ _ _ _ _ _ _ H HT Ht true n b Hn) as [[y [Iy Ey]] [z [Iz Ez]]].
    destruct (Hs true) as [A [B [C [D [f [Hf Ef]]]]]].
    assert (Tp : forall u, In u (sm_layers m true) -> 0 <= sl_topDepth u) by (intros u Iu; apply (top_pos _ A B C D); [intros v Hv; congruence|exact Iu]).
    destruct (C23_constructed_valid _ _ _ _ _ _ _ _ _ _ H (R_ok _)) as [_ [_ G]]. destruct (G true) as [[_ [_ [_ Sg]]] _].
    assert (Bp : forall u, In u (sm_layers m true) -> sl_botDepth u <= 6371).
    { intros u Iu. destruct (Sg u Iu) as [_ [_ [_ Q]]]. apply Rleb_le in Q. lra. }
    pose proof (Tp y Iy). pose proof (Bp z Iz). pose proof (upr _ B y Iy). pose proof (upr _ B z Iz).
    split; [destruct Ey as [E|E]; apply Reqb_eq in E; lra|]. split; [exact U|destruct Ez as [E|E]; apply Reqb_eq in E; lra].
  Qed.

  (** Depths outside the planet are refused. *)
  Lemma outside : forall f wd x, (6371 < x -> tm_depthCorrect f wd t x = Raise TauModelError) /\ (x < 0 -> tm_depthCorrect f wd t x = Raise SlownessModelError).
  Proof.
    intros f wd x. unfold tm_depthCorrect. rewrite Hsrc, Hrad, n_0_R. rewrite (proj2 (Reqb_eq 0 0) eq_refl). cbn [negb].
    split; intros X.
    - assert (E : n_ltb 6371 x = true) by (apply Rltb_lt; lra). rewrite E. reflexivity.
    - assert (E : n_ltb 6371 x = false) by (apply Rltb_false; lra). rewrite E. unfold splitBranch.
      destruct (existsb _ (tm_P t)) eqn:Ee.
      { exfalso. apply at_edge_b in Ee. destruct Ee as [b [Hb [Eb|Eb]]]; apply Reqb_eq in Eb; pose proof (edges b Hb); lra. }
      rewrite Hmod. unfold splitLayer. destruct (Hs false) as [_ [_ [_ [_ [y [Hy Ey]]]]]].
      destruct (sm_layers m false) as [|y' ls] eqn:El; [discriminate|]. cbn in Hy. inversion Hy; subst y'.
      destruct (search_outside f m false y ls x El) as [_ [A _]]; [left; apply Rltb_lt; lra|]. rewrite A. reflexivity.
  Qed.

  Lemma edge_ok : forall f wd x, at_edge (tm_P t) x -> exists r, tm_depthCorrect f wd t x = Ok (wd, t, r) /\ tm_sourceDepth r = x /\ tm_sMod r = m.
  Proof.
    intros f wd x Ex. unfold tm_depthCorrect. rewrite Hsrc, Hrad, n_0_R. rewrite (proj2 (Reqb_eq 0 0) eq_refl). cbn [negb].
    assert (X : 0 <= x <= 6371) by (destruct Ex as [b [Hb [Eb|Eb]]]; apply Reqb_eq in Eb; pose proof (edges b Hb); lra).
    assert (E : n_ltb 6371 x = false) by (apply Rltb_false; lra). rewrite E. unfold splitBranch.
    rewrite (proj2 (at_edge_b _ _) Ex). cbn [bind].
    assert (F : exists k, findBranch t x = Ok k).
    { destruct (Req_dec x 6371) as [->|N].
      - destruct Bmu as [Bm Bu]. destruct Hends as [_ [bl [_ [El [_ Tl]]]]]. exists 1%Z. apply (C29_centre_refuted t 6371 bl Bm Bu El). apply Reqb_eq. exact Tl.
      - destruct (find_ok x ltac:(lra)) as [n [b [F _]]]. eauto. }
    destruct F as [k F]. rewrite F. cbn [bind]. eexists. split; [reflexivity|]. split; [reflexivity|exact Hmod].
  Qed.

  Variable x : R.
  Hypothesis Rg : regular m.
  Hypothesis Sp : forall w, source_place m w x.
  Hypothesis Sc : forall w, single_cut m w x.

  Let Ok0 : forall v y, In y (sm_layers m v) -> lay_ok (sm_radius m) y /\ 0 <= sl_topDepth y.
  Proof.
    intros v y Hy. split; [exact (rg_ok m v (Rg v) y Hy)|]. destruct (Hs v) as [A [B [C [D [f [Hf Ef]]]]]].
    apply (top_pos _ A B C D); [|exact Hy]. intros z Hz. congruence.
  Qed.
  Let X0 : 0 <= x < 6371.
  Proof.
    destruct (C23_constructed_valid _ _ _ _ _ _ _ _ _ _ H (R_ok _)) as [_ [_ G]]. destruct (G true) as [[_ [_ [_ Sg]]] _].
    assert (Bp : forall u, In u (sm_layers m true) -> sl_botDepth u <= 6371).
    { intros u Iu. destruct (Sg u Iu) as [_ [_ [_ Q]]]. apply Rleb_le in Q. lra. }
    destruct (Sp true) as [[k [y [z [Hy [Hz [Fy [Fz [Ey Ez]]]]]]]]|[y [Iy [[W1 W2] By]]]].
    - pose proof (proj2 (Ok0 true y (nth_error_In _ _ Hy))). pose proof (Bp z (nth_error_In _ _ Hz)). unfold fat in *. lra.
    - pose proof (proj2 (Ok0 true y Iy)). pose proof (Bp y Iy). lra.
  Qed.

  Lemma inside_ok : forall f, enough f m -> regular_after_cut f m x -> accepted f t x.
  Proof.
    intros f Hf Rc wd. unfold enough in Hf.
    assert (Ed : at_edge (tm_P t) x \/ ~ at_edge (tm_P t) x).
    { destruct (existsb (fun b => n_eqb (tb_top b) x || n_eqb (tb_bot b) x) (tm_P t)) eqn:E.
      - left. apply at_edge_b. exact E.
      - right. rewrite <- at_edge_b. congruence. }
    destruct Ed as [Ed|Ed]; [destruct (edge_ok f wd x Ed) as [r [A [B C]]]; exists wd, t, r; rewrite C; auto|].
    assert (G : forall v, s_meet (sm_layers m v) /\ s_upright (sm_layers m v)) by (intros v; destruct (Hs v) as [A [B _]]; auto).
    pose proof (createSample_built _ _ _ H (R_ok _)) as [Id _].
    destruct (split_total f m false x G (in_solid m x G Ok0 Sp false) (Sp false) (cut_of m x Ok0 Sc false) ltac:(cbn [sm_layers]; lia)) as [mS [iS H1]].
    destruct (second_ready f m x mS iS G Ok0 Id Sp Sc H1) as [R1 [G1 [Go1 [Sh1 [Sp1 Sc1]]]]].
    assert (L1 : (List.length (sm_layers (si_sMod iS) true) <= 2 * List.length (sm_P m) + 2)%nat /\ (List.length (sm_layers (si_sMod iS) false) <= S (List.length (sm_S m)))%nat).
    { destruct (step f m x false mS iS G (in_solid m x G Ok0 Sp false) (shared_same m x Id false) Sp (cut_of m x Ok0 Sc false) H1) as [[E1 _]|[N1 _]].
      - rewrite E1. cbn [sm_layers]. lia.
      - pose proof (split_length _ _ _ _ _ _ H1 N1) as Q. cbn [negb sm_layers] in *. lia. }
    destruct (split_total f (si_sMod iS) true x G1 Go1 (Sp1 true) Sc1 ltac:(lia)) as [mP [iP H2]].
    assert (L2 : forall w, (List.length (sm_layers (si_sMod iP) w) <= f)%nat).
    { destruct (step f (si_sMod iS) x true mP iP G1 Go1 Sh1 Sp1 Sc1 H2) as [[E1 _]|[N1 _]]; intros w.
      - rewrite E1. destruct w; lia.
      - pose proof (split_length _ _ _ _ _ _ H2 N1) as Q. cbn [negb] in Q. destruct w; lia. }
    destruct (two_splits f m x mS iS G Ok0 Id Sp Sc H1 mP iP H2) as [Fn [Sa _]].
    pose proof (Rc _ _ _ _ H1 H2) as Rg2. set (m2 := si_sMod iP) in *.
    pose proof (stack2 _ _ _ _ _ _ _ _ _ _ H Ht Hr x m2 Fn Sa) as St2.
    assert (Kept : forall w b, In b (branches t w) -> tb_isP b = w /\ tb_top b < tb_bot b /\ all_rays m2 w (tm_rayParams t) b /\
      bnd (sm_layers m2 w) (tb_top b) /\ bnd (sm_layers m2 w) (tb_bot b)).
    { intros w b Hb. destruct (C25_branches_tile_exact _ _ _ _ _ _ _ _ _ _ _ _ H HT Ht w) as [_ [_ [Bu Br]]].
      destruct (Br b Hb) as [Iw Ra]. pose proof (Bu b Hb) as Up. apply Rltb_lt in Up. apply In_nth_error in Hb. destruct Hb as [n Hn].
      destruct (ends_bnd _ _ _ _ _ _ _ _ _ _ _ _ H HT Ht w n b Hn) as [Bt Bb]. destruct (G w) as [Gm Gu]. destruct Fn as [Er [Et [_ [_ Rf]]]].
      split; [exact Iw|]. split; [exact Up|]. split; [exact (kept_rays m m2 w Er Et (Rf w) Gm Gu (Rg w) (Rg2 w) b Up Bt Bb _ Ra)|].
      split; [exact (rf_bnd _ _ _ (Rf w) _ Bt)|exact (rf_bnd _ _ _ (Rf w) _ Bb)]. }
    destruct (find_ok x X0) as [n [bP [Fb [Hn Hin]]]].
    destruct Hin as [I1 I2]. apply Rleb_le in I1. apply Rltb_lt in I2.
    assert (I3 : tb_top bP < x).
    { destruct (Req_dec (tb_top bP) x) as [E|E]; [exfalso|lra]. apply Ed. exists bP. split; [eapply nth_error_In; exact Hn|]. left. apply Reqb_eq. exact E. }
    assert (Nth : forall w, exists b, nth_error (branches t w) n = Some b /\ tb_top b = tb_top bP /\ tb_bot b = tb_bot bP).
    { intros w. destruct (C25_branches_tile_exact _ _ _ _ _ _ _ _ _ _ _ _ H HT Ht w) as [[TL Ti] _].
      destruct (C25_branches_tile_exact _ _ _ _ _ _ _ _ _ _ _ _ H HT Ht true) as [[TL' Ti'] _].
      assert (Ln : (n < List.length (branches t true))%nat) by (apply nth_error_Some; cbn [branches]; congruence).
      destruct (nth_error (sm_crit m) n) as [c0|] eqn:C0; [|apply nth_error_None in C0; lia].
      destruct (nth_error (sm_crit m) (S n)) as [c1|] eqn:C1; [|apply nth_error_None in C1; lia].
      destruct (nth_error (branches t w) n) as [b|] eqn:Eb; [|apply nth_error_None in Eb; lia].
      exists b. split; [reflexivity|]. destruct (Ti n b c0 c1 Eb C0 C1) as [T1 T2]. destruct (Ti' n bP c0 c1 Hn C0 C1) as [T1' T2']. split; congruence. }
    assert (Parts : forall w rpS rpP, exists l' c, split_branches f m2 w n x (tm_rayParams t) None None rpS rpP (branches t w) = Ok l' /\
      In c l' /\ tb_top c = x /\ tb_bot c = tb_bot bP).
    { intros w rpS rpP. destruct (Nth w) as [b [Hb [T1 T2]]]. destruct (Kept w b (nth_error_In _ _ Hb)) as [Iw [Up [Ra [Bt Bb]]]].
      destruct (St2 w) as [Gm2 [Gu2 _]]. destruct (St2 (negb w)) as [Gm3 [Gu3 _]].
      destruct (parts_total f m2 w (tm_rayParams t) b x Gm2 Gu2 Bt Bb (Sa w) ltac:(lra) Ra (L2 w) Iw Gm3 Gu3 (Sa (negb w)) (L2 (negb w)) n rpS rpP (branches t w) Hb)
        as [l' [c [Q1 [Q2 [Q3 Q4]]]]]. exists l', c. split; [exact Q1|]. split; [exact Q2|]. split; [exact Q3|congruence]. }
    unfold tm_depthCorrect. rewrite Hsrc, Hrad, n_0_R. rewrite (proj2 (Reqb_eq 0 0) eq_refl). cbn [negb].
    assert (E : n_ltb 6371 x = false) by (apply Rltb_false; lra). rewrite E. unfold splitBranch.
    assert (Ee : existsb (fun b => n_eqb (tb_top b) x || n_eqb (tb_bot b) x) (tm_P t) = false) by (apply not_true_is_false; rewrite at_edge_b; exact Ed).
    rewrite Ee, Hmod, H1. cbn [bind]. rewrite insert_rp_none by exact Dec. rewrite H2. cbn [bind]. rewrite insert_rp_none by exact Dec.
    rewrite Fb. cbn [bind]. rewrite Nat2Z.id. fold m2.
    destruct (Parts true (si_rayParam iS) (si_rayParam iP)) as [lP [cP [P1 [P2 [P3 P4]]]]]. cbn [branches] in P1. rewrite P1. cbn [bind].
    destruct (Parts false (si_rayParam iS) (si_rayParam iP)) as [lS [cS [S1 _]]]. cbn [branches] in S1. rewrite S1. cbn [bind].
    match goal with |- context [findBranch ?d x] => set (dm := d) end.
    assert (F : exists k, findBranch dm x = Ok k).
    { destruct (findBranch_spec dm x) as [[k [b [F _]]]|[F _]]; [eauto|]. exfalso. apply (F cP); [exact P2|]. split; [apply Rleb_le; lra|apply Rltb_lt; lra]. }
    destruct F as [k F]. rewrite F. cbn [bind]. eexists _, _, _. split; [reflexivity|]. split; [reflexivity|exact Rg2].
  Qed.
End Constructed.

(** C64: depths outside the planet are refused. *)
Theorem C64_refused :
  forall fuel fuel' vm dp Dp dz dx err innerS tol (m : smodel R) t f wd x,
  newSlownessModel fuel vm dp Dp dz dx err innerS tol = Ok m -> newTauModel fuel' m = Ok t ->
  VelSpec.thick (vm_layers vm) -> vm_radius vm = 6371 ->
  (6371 < x -> tm_depthCorrect f wd t x = Raise TauModelError) /\ (x < 0 -> tm_depthCorrect f wd t x = Raise SlownessModelError).
Proof. intros fuel fuel' vm dp Dp dz dx err innerS tol m t f wd x H HT Ht Hr. exact (outside _ _ _ _ _ _ _ _ _ _ _ _ H HT Ht Hr f wd x). Qed.
(** C64: a model corrected for a buried source cannot be corrected again. *)
Theorem C64_once :
  forall f f' wd wd' wd'' (t t' r : tmodel R) x y, tm_depthCorrect f wd t x = Ok (wd', t', r) -> x <> 0 -> tm_depthCorrect f' wd'' r y = Raise TauModelError.
Proof.
  intros f f' wd wd' wd'' t t' r x y Hd Nx.
  assert (E : tm_sourceDepth r = x).
  { unfold tm_depthCorrect in Hd. if_in Hd; [discriminate|]. if_in Hd; [discriminate|]. inv_as Hd as [[w' s'] d'] Hs. inv_as Hd as k Hk.
    apply (f_equal (fun o => match o with Ok (_, _, q) => tm_sourceDepth q | _ => 0 end)) in Hd. cbn [tm_sourceDepth] in Hd. congruence. }
  unfold tm_depthCorrect. rewrite E, n_0_R, (proj2 (Reqb_ne x 0) Nx). reflexivity.
Qed.
(** C64: a depth at an end of a branch is accepted, whatever the layers. *)
Theorem C64_edge_accepted :
  forall fuel fuel' vm dp Dp dz dx err innerS tol (m : smodel R) t f wd x,
  newSlownessModel fuel vm dp Dp dz dx err innerS tol = Ok m -> newTauModel fuel' m = Ok t ->
  VelSpec.thick (vm_layers vm) -> vm_radius vm = 6371 -> at_edge (tm_P t) x ->
  exists r, tm_depthCorrect f wd t x = Ok (wd, t, r) /\ tm_sourceDepth r = x /\ tm_sMod r = m.
Proof. intros fuel fuel' vm dp Dp dz dx err innerS tol m t f wd x H HT Ht Hr He. exact (edge_ok _ _ _ _ _ _ _ _ _ _ _ _ H HT Ht Hr f wd x He). Qed.
(** C64: a depth inside layers is accepted when its cuts leave layers the code can use. *)
Theorem C64_inside_accepted :
  forall fuel fuel' vm dp Dp dz dx err innerS tol (m : smodel R) t f x,
  newSlownessModel fuel vm dp Dp dz dx err innerS tol = Ok m -> newTauModel fuel' m = Ok t ->
  VelSpec.thick (vm_layers vm) -> vm_radius vm = 6371 -> regular m ->
  (forall w, source_place m w x) -> (forall w, single_cut m w x) -> enough f m -> regular_after_cut f m x ->
  accepted f t x.
Proof.
  intros fuel fuel' vm dp Dp dz dx err innerS tol m t f x H HT Ht Hr Rg Sp Sc Hf Rc.
  exact (inside_ok _ _ _ _ _ _ _ _ _ _ _ _ H HT Ht Hr x Rg Sp Sc f Hf Rc).
Qed.
(** C64: a depth where layers of both wave types meet is accepted. *)
Theorem C64_sampled_accepted :
  forall fuel fuel' vm dp Dp dz dx err innerS tol (m : smodel R) t f x,
  newSlownessModel fuel vm dp Dp dz dx err innerS tol = Ok m -> newTauModel fuel' m = Ok t ->
  VelSpec.thick (vm_layers vm) -> vm_radius vm = 6371 -> regular m ->
  (forall w, sampled_at (sm_layers m w) x) -> enough f m -> accepted f t x.
Proof.
  intros fuel fuel' vm dp Dp dz dx err innerS tol m t f x H HT Ht Hr Rg Sa Hf.
  assert (G : forall v, s_meet (sm_layers m v) /\ s_upright (sm_layers m v)).
  { intros v. destruct (g_good _ _ _ _ _ _ _ _ _ _ H Ht Hr v) as [A [B _]]. auto. }
  assert (Sp : forall w, source_place m w x) by (intros w; left; apply Sa).
  assert (Sc : forall w, single_cut m w x).
  { intros w p [y [Hy [Yx _]]]. exfalso. exact (sampled_not_inside _ _ _ (proj1 (G w)) (proj2 (G w)) (Sa w) Hy Yx). }
  apply (C64_inside_accepted _ _ _ _ _ _ _ _ _ _ _ _ _ _ H HT Ht Hr Rg Sp Sc Hf).
  intros mS iS mP iP H1 H2. assert (E1 : si_sMod iS = m) by (eapply split_nothing; eassumption). rewrite E1 in H2.
  assert (E2 : si_sMod iP = m) by (eapply split_nothing; eassumption). rewrite E2. exact Rg.
Qed.
(** C64: a depth inside layers gives a model from which rays can be traced (with C57). *)
Theorem C64_inside_ready :
  forall fuel fuel' vm dp Dp dz dx err innerS tol (m : smodel R) t f wd x,
  newSlownessModel fuel vm dp Dp dz dx err innerS tol = Ok m -> newTauModel fuel' m = Ok t ->
  VelSpec.thick (vm_layers vm) -> vm_radius vm = 6371 -> no_flat vm innerS -> fluid_above_inner_core vm innerS ->
  (forall w f, nth_error (sm_layers m w) 0 = Some f -> sl_botP f <= sl_topP f <= n_lit 1 300) -> regular m ->
  (forall w, source_place m w x) -> (forall w, single_cut m w x) -> enough f m -> regular_after_cut f m x ->
  exists wd' t' r, tm_depthCorrect f wd t x = Ok (wd', t', r) /\ tm_sourceDepth r = x /\ tm_rayParams r = tm_rayParams t /\
    ((forall w, zone_or_lowest (tm_sMod r) w x) -> rays_ready r).
Proof.
  intros fuel fuel' vm dp Dp dz dx err innerS tol m t f wd x H HT Ht Hr Hnf Hfi F0 Rg Sp Sc Hf Rc.
  destruct (C64_inside_accepted _ _ _ _ _ _ _ _ _ _ _ _ _ _ H HT Ht Hr Rg Sp Sc Hf Rc wd) as [wd' [t' [r [Hd [Es Rg2]]]]].
  exists wd', t', r. split; [exact Hd|]. split; [exact Es|]. 
  destruct (C24_ray_parameters _ _ _ HT ltac:(intros; apply R_ok)) as [_ [Dec _]].
  split; [apply (depthCorrect_spec _ _ _ _ _ _ _ Dec Hd)|]. intros Zl.
  apply (C57_inside_source _ _ _ _ _ _ _ _ _ _ _ _ _ _ _ _ _ _ H HT Ht Hr Hnf Hfi F0 Rg Sp Sc Hd Rg2 Zl).
Qed.
(** Not hypothetical: the two-layer planet of C57, with the source 1500 km deep inside the upper layer, at its boundary 3000 km deep, and at the surface. *)
Example C64_ex : exists e tA xA tB xB, let m := two_sm e two_c' in let t := two_t e tA xA tB xB in
  newSlownessModel 20 two_vm 1 7000 7000 10 e true 1 = Ok m /\ newTauModel 20 m = Ok t /\
  VelSpec.thick (vm_layers two_vm) /\ vm_radius two_vm = 6371 /\ regular m /\
  (forall w, source_place m w 1500) /\ (forall w, single_cut m w 1500) /\ enough 20 m /\ regular_after_cut 20 m 1500 /\
  (forall w, sampled_at (sm_layers m w) 3000) /\ at_edge (tm_P t) 0 /\
  accepted 20 t 1500 /\ accepted 20 t 3000 /\ ~ at_edge (tm_P t) 1500 /\ ~ at_edge (tm_P t) 3000.
Proof.
  destruct C57_ex as [e [tA [xA [tB [xB [tC [xC [tD [xD [H1 [H2 [H3 [H4 [H5 [H6 [H7 [H8 [H9 [H10 [H11 [H12 [H13 [_ [H14 _]]]]]]]]]]]]]]]]]]]]]]]].
  exists e, tA, xA, tB, xB. cbv zeta.
  assert (En : enough 20 (two_sm e two_c')) by (unfold enough; cbn; lia).
  assert (Rc : regular_after_cut 20 (two_sm e two_c') 1500).
  { intros mS iS mP iP S1 S2. destruct (in_split e) as [A B]. rewrite A in S1. injection S1 as _ S1. subst iS. cbn [si_sMod] in S2. rewrite B in S2.
    apply (f_equal (fun o => match o with Ok (_, i) => si_sMod i | _ => in_sm e end)) in S2. cbn [si_sMod] in S2. rewrite <- S2. exact H12. }
  assert (Sa : forall w, sampled_at (sm_layers (two_sm e two_c') w) 3000).
  { intros w. exists 0%nat. destruct w; eexists _, _; (split; [reflexivity|]; split; [reflexivity|]); unfold fat; cbn; lra. }
  split; [exact H1|]. split; [exact H2|]. split; [exact H3|]. split; [exact H4|]. split; [exact H8|]. split; [exact H9|]. split; [exact H10|].
  split; [exact En|]. split; [exact Rc|]. split; [exact Sa|].
  split; [eexists; split; [left; reflexivity|]; left; apply Reqb_eq; reflexivity|].
  split; [exact (C64_inside_accepted _ _ _ _ _ _ _ _ _ _ _ _ _ _ H1 H2 H3 H4 H8 H9 H10 En Rc)|].
  split; [exact (C64_sampled_accepted _ _ _ _ _ _ _ _ _ _ _ _ _ _ H1 H2 H3 H4 H8 Sa En)|].
  split; [exact H14|]. intros [b [[<-|[]] [E|E]]]; apply Reqb_eq in E; cbn in E; lra.
Qed.

Print Assumptions C64_refused.
Print Assumptions C64_once.
Print Assumptions C64_edge_accepted.
Print Assumptions C64_inside_accepted.
Print Assumptions C64_sampled_accepted.
Print Assumptions C64_inside_ready.

(** Critical depths of constructed slowness models increase; tau models built from them. *)
From Coq Require Import ZArith Bool List String Sorted Lia.
From Verif Require Import Base Num PyStr VelocityModel SlownessLayer SlownessModel VelSpec VelProofs SlowSpec SlowProofs SlowBuildProofs
  CritSpec CritProofs TauModel TauSpec TauProofs TauSplitProofs.
Import ListNotations.
Local Open Scope num_scope.
Local Open Scope list_scope.

Section Build.
  Context {T : Type} {N : Num T} {O : NumOrd T} {L : Libm T}.

  Lemma crit_depths : forall fuel (m m' : smodel T), createSample fuel m = Ok m' ->
    exists out, picks (critical_top (sm_vMod m) (sm_allowInnerCoreS m)) 0 (vm_layers (sm_vMod m)) out /\
      map cd_depth (sm_crit m') = n_0 :: map (fun p => vl_topDepth (snd p)) out ++ [vm_radius (sm_vMod m)].
  Proof.
    intros fuel m m' H. apply createSample_steps in H.
    destruct H as [m1 [m0 [m5 [crit [_ [Hf [Hc [Hs [Hm [E _]]]]]]]]]].
    apply findCritical_exact in Hf. cbn [sm_set_radius sm_vMod sm_radius sm_allowInnerCoreS] in Hf.
    destruct Hf as [out [Hp [F4 _]]]. exists out. split; [assumption|].
    apply coarse_start_spec in Hc. destruct Hc as [I0 [SS0 B0]].
    destruct (samples_keep _ _ Hs I0) as [I5 [SS5 K]].
    pose proof (same_setup_trans _ _ _ SS0 SS5) as SS.
    destruct SS as [V [_ [_ [_ [_ [_ [_ [_ [R [C _]]]]]]]]]].
    assert (Ec : sm_crit m' = crit) by (subst m'; reflexivity). rewrite Ec.
    assert (Ed : map cd_depth crit = map cd_depth (sm_crit m5)).
    { apply mapM_Forall2 in Hm. clear - Hm. induction Hm as [|a b l l' Hab Hl IH]; [reflexivity|].
      inv_as Hab as pn Hp. inv_as Hab as sn Hsn. inversion Hab; subst. cbn [map cd_depth]. f_equal. assumption. }
    rewrite Ed, C, F4. cbn [map cd_depth]. f_equal. rewrite map_app. cbn [map cd_depth]. f_equal.
    rewrite map_map. apply map_ext. intros [n v]. reflexivity.
  Qed.

  Lemma picks_sorted : forall (P : nat -> Prop) ls n out, contiguous ls -> thick ls ->
    picks P n ls out ->
    StronglySorted (fun a b => vl_topDepth (snd a) <? vl_topDepth (snd b) = true) out /\
    (forall k v, In (k, v) out -> In v ls) /\
    (forall v l, ls = v :: l -> ~ P n -> forall k u, In (k, u) out -> vl_topDepth v <? vl_topDepth u = true).
  Proof.
    intros P ls n out Hc Ht H. revert Hc Ht.
    assert (Step : forall (a : vlayer T) l k u, contiguous (a :: l) -> thick (a :: l) ->
              In u l -> vl_topDepth a <? vl_topDepth u = true \/ k = 0%nat).
    { intros a l k u Hc Ht Hu. left. eapply ltb_leb_trans; [apply Ht; left; reflexivity|].
      eapply below_all; eassumption. }
    induction H as [n|n a l out Pn H IH|n a l out Pn H IH]; intros Hc Ht.
    - split; [constructor|]. split; [intros k v []|]. intros v l E. discriminate.
    - destruct IH as [IH1 [IH2 IH3]]; [eapply contiguous_tail; eassumption|eapply thick_tail; eassumption|].
      split; [|split].
      + constructor; [assumption|]. apply Forall_forall. intros [k u] Hu. cbn [snd].
        eapply ltb_leb_trans; [apply Ht; left; reflexivity|]. eapply below_all; [eassumption..|]. eapply IH2; eassumption.
      + intros k v [E|Hv]; [inversion E; left; reflexivity|right; eapply IH2; eassumption].
      + intros v l' E Nn. contradiction.
    - destruct IH as [IH1 [IH2 IH3]]; [eapply contiguous_tail; eassumption|eapply thick_tail; eassumption|].
      split; [assumption|]. split; [intros k v Hv; right; eapply IH2; eassumption|].
      intros v l' E _ k u Hu. inversion E; subst.
      eapply ltb_leb_trans; [apply Ht; left; reflexivity|]. eapply below_all; [eassumption..|]. eapply IH2; eassumption.
  Qed.

  Lemma sorted_adjacent : forall (l : list T), StronglySorted (fun a b => a <? b = true) l ->
    forall i a b, nth_error l i = Some a -> nth_error l (S i) = Some b -> a <? b = true.
  Proof.
    induction l as [|x l IH]; intros H [|i] a b Ha Hb; try discriminate; apply StronglySorted_inv in H; destruct H as [H1 H2].
    - cbn in Ha, Hb. inversion Ha; subst. destruct l as [|y l]; [discriminate|]. cbn in Hb. inversion Hb; subst.
      inversion H2; subst. assumption.
    - cbn in Ha, Hb. eapply IH; eassumption.
  Qed.

  Lemma crit_increasing : forall fuel (m m' : smodel T), createSample fuel m = Ok m' -> n_ok (vm_radius (sm_vMod m)) ->
    contiguous (vm_layers (sm_vMod m)) -> thick (vm_layers (sm_vMod m)) ->
    ~ critical_top (sm_vMod m) (sm_allowInnerCoreS m) 0 ->
    increasing (sm_crit m') /\ sm_crit m' <> [].
  Proof.
    intros fuel m m' H Hr Hc Ht Hq. pose proof (crit_depths _ _ _ H) as [out [Hp Ed]].
    pose proof (createSample_built _ _ _ H Hr) as [_ [_ [Er [G [B [_ [_ Last]]]]]]].
    destruct (picks_sorted _ _ _ _ Hc Ht Hp) as [P1 [P2 P3]].
    assert (Bounds : forall v x, In v (vm_layers (sm_vMod m)) -> x = vl_topDepth v \/ x = vl_botDepth v ->
              n_0 <=? x = true /\ x <=? vm_radius (sm_vMod m) = true).
    { intros v x Hv Hx. destruct (B true v x Hv Hx) as [y [Hy Hy']].
      destruct (G true) as [G1 [G2 [G3 G4]]]. destruct (G4 y Hy) as [G5 [G6 [G7 G8]]]. rewrite Er in *.
      pose proof (good_upright _ _ (G true) y Hy) as U.
      assert (Z0 : n_0 <=? sl_topDepth y = true).
      { apply In_nth_error in Hy. destruct Hy as [k Hk]. destruct (sm_layers m' true) as [|f ls] eqn:El; [destruct k; discriminate|].
        assert (F0 : n_0 <=? sl_topDepth f = true) by (apply eqb_leb, G1; reflexivity).
        destruct k as [|k]; [inversion Hk; subst; assumption|].
        eapply ord_trans; [exact F0|]. eapply ord_trans; [apply (G4 f); left; reflexivity|].
        eapply (s_sorted (f :: ls) (S k) 0%nat); [exact G2| |reflexivity|exact Hk|lia].
        intros z Hz. apply (G4 z Hz). }
      destruct Hy' as [<-|<-]; split; try assumption; eapply ord_trans; eassumption. }
    split; [|intros E; rewrite E in Ed; discriminate].
    assert (Sd : StronglySorted (fun a b => a <? b = true) (map cd_depth (sm_crit m'))).
    { rewrite Ed. assert (Pos : forall k u, In (k, u) out -> n_0 <? vl_topDepth u = true).
      { intros k u Hu. destruct (vm_layers (sm_vMod m)) as [|v0 l0] eqn:El; [apply P2 in Hu; destruct Hu|].
        eapply leb_ltb_trans; [exact (proj1 (Bounds v0 _ (or_introl eq_refl) (or_introl eq_refl)))|]. eapply P3; [reflexivity|assumption|eassumption]. }
      assert (Bot : forall k u, In (k, u) out -> vl_topDepth u <? vm_radius (sm_vMod m) = true).
      { intros k u Hu. apply P2 in Hu. eapply ltb_leb_trans; [apply Ht; exact Hu|]. exact (proj2 (Bounds u _ Hu (or_intror eq_refl))). }
      assert (R0 : n_0 <? vm_radius (sm_vMod m) = true).
      { destruct (vm_layers (sm_vMod m)) as [|v0 l0] eqn:El.
        - (* no layer: no boundary at all, but the last layer ends at the radius *)
          apply createSample_steps in H. destruct H as [m1 [m0 [m5 [crit [_ [Hf _]]]]]].
          unfold findCriticalPoints in Hf. cbn [sm_set_radius sm_vMod] in Hf. inv_as Hf as f Hf'. rewrite El in Hf'. discriminate.
        - eapply leb_ltb_trans; [exact (proj1 (Bounds v0 _ (or_introl eq_refl) (or_introl eq_refl)))|].
          eapply ltb_leb_trans; [apply Ht; left; reflexivity|]. exact (proj2 (Bounds v0 _ (or_introl eq_refl) (or_intror eq_refl))). }
      constructor.
      - clear - P1 Bot. induction out as [|[k u] out IH]; cbn [map app].
        + repeat constructor.
        + apply StronglySorted_inv in P1. destruct P1 as [P1 P2]. constructor.
          * apply IH; [assumption|]. intros; eapply Bot; right; eassumption.
          * apply Forall_app. split.
            -- rewrite Forall_map. eapply Forall_impl; [|exact P2]. auto.
            -- constructor; [|constructor]. eapply Bot. left. reflexivity.
      - apply Forall_app. split; [|constructor; [assumption|constructor]]. rewrite Forall_map, Forall_forall.
        intros [k u] Hu. eapply Pos. exact Hu. }
    intros i a b Ha Hb. eapply sorted_adjacent; [exact Sd| |]; rewrite nth_error_map; [rewrite Ha|rewrite Hb]; reflexivity.
  Qed.

  Lemma crit_bnd : forall (m : smodel T) c w, crit_at m w (if w then cd_pNum c else cd_sNum c) (cd_depth c) ->
    bnd (sm_layers m w) (cd_depth c).
  Proof.
    intros m c w [[k [y [_ [H1 H2]]]]|[l [y [H1 [_ H2]]]]].
    - exists y. split; [eapply nth_error_In; eassumption|left; assumption].
    - exists y. split; [rewrite H1; apply in_or_app; right; left; reflexivity|right; assumption].
  Qed.

  Lemma tiles_meet : forall crit (bs : list (tbranch T)), tiles crit bs -> b_meet bs.
  Proof.
    intros crit bs [Hl H] i a b Ha Hb.
    assert (K : (S i < List.length bs)%nat) by (apply nth_error_Some; congruence).
    destruct (nth_error crit i) as [c0|] eqn:E0; [|apply nth_error_None in E0; lia].
    destruct (nth_error crit (S i)) as [c1|] eqn:E1; [|apply nth_error_None in E1; lia].
    destruct (nth_error crit (S (S i))) as [c2|] eqn:E2; [|apply nth_error_None in E2; lia].
    destruct (H _ _ _ _ Ha E0 E1) as [_ ->]. destruct (H _ _ _ _ Hb E1 E2) as [-> _]. reflexivity.
  Qed.
  Lemma tiles_upright : forall crit (bs : list (tbranch T)), tiles crit bs -> increasing crit -> b_upright bs.
  Proof.
    intros crit bs [Hl H] Hi b Hb. apply In_nth_error in Hb. destruct Hb as [i Hb].
    assert (K : (i < List.length bs)%nat) by (apply nth_error_Some; congruence).
    destruct (nth_error crit i) as [c0|] eqn:E0; [|apply nth_error_None in E0; lia].
    destruct (nth_error crit (S i)) as [c1|] eqn:E1; [|apply nth_error_None in E1; lia].
    destruct (H _ _ _ _ Hb E0 E1) as [-> ->]. eapply Hi; eassumption.
  Qed.

  Lemma newTauModel_inv : forall fuel (m : smodel T) t, newTauModel fuel m = Ok t ->
    sm_validate m = Ok true /\ tm_sMod t = m /\ tauRayParams m = Ok (tm_rayParams t) /\
    (forall w, make_branches fuel m w (tm_rayParams t) = Ok (branches t w)) /\
    closestBranch false (vm_moho (sm_vMod m)) (tm_P t) = Ok (tm_mohoBranch t, tm_mohoDepth t) /\
    closestBranch true (vm_cmb (sm_vMod m)) (tm_P t) = Ok (tm_cmbBranch t, tm_cmbDepth t) /\
    closestBranch true (vm_iocb (sm_vMod m)) (tm_P t) = Ok (tm_iocbBranch t, tm_iocbDepth t) /\
    tm_sourceDepth t = n_0 /\ tm_sourceBranch t = 0%Z /\ tm_radius t = n_lit 6371 0.
  Proof.
    intros fuel m t H. unfold newTauModel in H. if_eq H E; [discriminate|]. inv_as H as ok Hok. destruct ok; cbn [negb] in H; [|discriminate].
    inv_as H as rp Hrp. inv_as H as P HP. inv_as H as Sb HS. inv_as H as [mb md] Hm. inv_as H as [cb cd] Hc. inv_as H as [ib id] Hi.
    inversion H; subst t. cbn. repeat (split; [first [assumption|reflexivity|intros []; assumption]|]). reflexivity.
  Qed.

  Lemma tau_built : forall fuel fuel' (m0 m : smodel T) t, createSample fuel m0 = Ok m -> n_ok (vm_radius (sm_vMod m0)) ->
    contiguous (vm_layers (sm_vMod m0)) -> thick (vm_layers (sm_vMod m0)) ->
    ~ critical_top (sm_vMod m0) (sm_allowInnerCoreS m0) 0 ->
    newTauModel fuel' m = Ok t ->
    forall w, tiles (sm_crit m) (branches t w) /\ b_meet (branches t w) /\ b_upright (branches t w) /\
      (forall b, In b (branches t w) -> tb_isP b = w /\ all_rays m w (tm_rayParams t) b).
  Proof.
    intros fuel fuel' m0 m t H Hr Hc Ht Hq HT w.
    destruct (crit_increasing _ _ _ H Hr Hc Ht Hq) as [Hi Hn].
    pose proof (createSample_built _ _ _ H Hr) as [_ [_ [_ [G [_ [_ [Cr _]]]]]]].
    apply newTauModel_inv in HT. destruct HT as [_ [_ [_ [HB _]]]]. specialize (HB w).
    destruct (G w) as [_ [G2 _]].
    apply make_branches_spec in HB; [|exact G2|eapply good_upright; apply G| |exact Hi|exact Hn].
    2:{ intros c Hcin. apply crit_bnd. apply Cr. assumption. }
    destruct HB as [A [B _]]. split; [assumption|]. split; [eapply tiles_meet; exact A|]. split; [eapply tiles_upright; eassumption|].
    intros b Hb. destruct (B b Hb) as [B1 [B2 _]]. split; assumption.
  Qed.
End Build.

(** Proofs about tau models. *)
From Coq Require Import ZArith Bool List String Lia Sorted.
From Verif Require Import Base Num VelocityModel VelSpec SlownessLayer SlownessModel
  SlowSpec SlowProofs SlowAddProofs SlowBuildProofs TauModel TauSpec.
Import ListNotations.
Local Open Scope list_scope.
Local Open Scope num_scope.

Section RayParams.
  Context {T : Type} {N : Num T} {O : NumOrd T}.

  Fixpoint rec_go (mn : T) (vs : list T) : list T :=
    match vs with
    | [] => []
    | v :: vs => if v <? mn then v :: rec_go v vs else rec_go mn vs
    end.
  Lemma rayParams_flat : forall ls mn, rayParams_go mn ls = rec_go mn (slownesses ls).
  Proof.
    induction ls as [|y ls IH]; intros mn; [reflexivity|].
    cbn [rayParams_go slownesses flat_map app rec_go].
    destruct (sl_topP y <? mn); destruct (sl_botP y <? _); cbn [app]; rewrite IH; reflexivity.
  Qed.

  (** [mn] is the least of [pre] *)
  Lemma rec_go_spec : forall vs pre mn, (forall v, In v vs -> n_ok v) -> least mn pre ->
    exists idx, StronglySorted lt idx /\
      (forall i, In i idx <-> (List.length pre <= i)%nat /\ record_at (pre ++ vs) i) /\
      map (nth_error (pre ++ vs)) idx = map Some (rec_go mn vs).
  Proof.
    induction vs as [|v vs IH]; intros pre mn Hok [Hin Hle].
    - exists []. split; [constructor|]. split; [|reflexivity].
      intros i. split; [intros []|]. intros [Hi [v [Hv _]]]. rewrite app_nil_r in Hv.
      apply nth_error_None in Hi. congruence.
    - assert (Hmn : n_ok mn) by (destruct (ord_leb_ok _ _ (Hle _ Hin)); assumption).
      assert (Hv : n_ok v) by (apply Hok; left; reflexivity).
      assert (Rec : record_at (pre ++ v :: vs) (List.length pre) <-> v <? mn = true).
      { split.
        - intros [v' [Hv' H]]. rewrite nth_error_app2 in Hv' by lia. rewrite Nat.sub_diag in Hv'.
          inversion Hv'; subst v'. apply In_nth_error in Hin. destruct Hin as [j Hj].
          apply (H j); [apply nth_error_Some; congruence|]. rewrite nth_error_app1; [assumption|].
          apply nth_error_Some. congruence.
        - intros H. exists v. split; [rewrite nth_error_app2 by lia; rewrite Nat.sub_diag; reflexivity|].
          intros j u Hj Hu. rewrite nth_error_app1 in Hu by assumption. apply nth_error_In in Hu.
          eapply ltb_leb_trans; [exact H|]. apply Hle. assumption. }
      assert (A : (pre ++ v :: vs) = ((pre ++ [v]) ++ vs)) by (rewrite <- app_assoc; reflexivity).
      assert (Lp : List.length (pre ++ [v]) = S (List.length pre)) by (rewrite app_length; simpl; lia).
      cbn [rec_go]. destruct (v <? mn) eqn:E.
      + destruct (IH (pre ++ [v]) v) as [idx [S1 [S2 S3]]].
        * intros u Hu. apply Hok. right. assumption.
        * split; [apply in_or_app; right; left; reflexivity|]. intros u Hu. apply in_app_or in Hu.
          destruct Hu as [Hu|[<-|[]]]; [|apply leb_refl; assumption].
          apply ltb_leb. eapply ltb_leb_trans; [exact E|]. apply Hle. assumption.
        * exists (List.length pre :: idx). split; [|split].
          -- constructor; [assumption|]. apply Forall_forall. intros i Hi. apply S2 in Hi. lia.
          -- intros i. rewrite A. cbn [In]. rewrite S2, Lp. split.
             ++ intros [<-|[Hi Hr]]; [split; [lia|]; rewrite <- A; apply Rec; reflexivity|]. split; [lia|assumption].
             ++ intros [Hi Hr]. destruct (Nat.eq_dec (List.length pre) i); [left; assumption|right]. split; [lia|assumption].
          -- cbn [map]. rewrite A at 2. rewrite S3. f_equal.
             rewrite nth_error_app2 by lia. rewrite Nat.sub_diag. reflexivity.
      + destruct (IH (pre ++ [v]) mn) as [idx [S1 [S2 S3]]].
        * intros u Hu. apply Hok. right. assumption.
        * split; [apply in_or_app; left; assumption|]. intros u Hu. apply in_app_or in Hu.
          destruct Hu as [Hu|[<-|[]]]; [apply Hle; assumption|].
          apply ltb_false_leb; assumption.
        * exists idx. split; [assumption|]. rewrite A. split; [|assumption].
          intros i. rewrite S2, Lp. split; [intros [Hi Hr]; split; [lia|assumption]|].
          intros [Hi Hr]. split; [|assumption]. destruct (Nat.eq_dec (List.length pre) i) as [<-|]; [|lia].
          exfalso. rewrite <- A in Hr. apply Rec in Hr. congruence.
  Qed.

  Lemma rec_go_decreasing : forall vs mn, StronglySorted (fun a b => b <? a = true) (mn :: rec_go mn vs).
  Proof.
    induction vs as [|v vs IH]; intros mn; cbn [rec_go]; [repeat constructor|].
    destruct (v <? mn) eqn:E; [|apply IH].
    specialize (IH v). constructor; [assumption|]. apply Forall_forall. intros u Hu.
    destruct Hu as [<-|Hu]; [assumption|]. inversion IH; subst. rewrite Forall_forall in H2.
    eapply ltb_trans; [apply H2; exact Hu|assumption].
  Qed.
  Lemma rec_go_last : forall vs mn u, (forall v, In v vs -> n_ok v) -> n_ok mn -> In u (mn :: vs) ->
    last (mn :: rec_go mn vs) mn <=? u = true.
  Proof.
    assert (Last : forall (l : list T) a b c, last (a :: l) b = last (a :: l) c).
    { induction l as [|x l IH]; intros a b c; [reflexivity|]. cbn [last]. apply IH. }
    induction vs as [|v vs IH]; intros mn u Hok Hmn Hu.
    - destruct Hu as [<-|[]]. apply leb_refl. assumption.
    - assert (Hv : n_ok v) by (apply Hok; left; reflexivity).
      assert (Hok' : forall v, In v vs -> n_ok v) by (intros x Hx; apply Hok; right; assumption).
      cbn [rec_go]. destruct (v <? mn) eqn:E.
      + change (last (mn :: v :: rec_go v vs) mn) with (last (v :: rec_go v vs) mn). rewrite (Last _ _ _ v).
        destruct Hu as [<-|Hu]; [|apply IH; assumption].
        apply ord_trans with v; [apply IH; [assumption..|left; reflexivity]|apply ltb_leb; assumption].
      + destruct Hu as [<-|[<-|Hu]].
        * apply IH; [assumption..|left; reflexivity].
        * apply ord_trans with mn; [apply IH; [assumption..|left; reflexivity]|apply ltb_false_leb; assumption].
        * apply IH; [assumption..|right; assumption].
  Qed.

  Lemma tauRayParams_spec : forall (m : smodel T) rp, tauRayParams m = Ok rp ->
    (forall v, In v (slownesses (sm_S m)) -> n_ok v) ->
    records (slownesses (sm_S m)) rp /\ decreasing rp /\
    hd_error rp = hd_error (slownesses (sm_S m)) /\
    forall u d, In u (slownesses (sm_S m)) -> last rp d <=? u = true.
  Proof.
    intros m rp H Hok. unfold tauRayParams in H. inv_as H as y Hy. inversion H; subst rp. clear H.
    destruct (sm_S m) as [|y0 ls]; [discriminate|]. cbn in Hy. inversion Hy; subst y0. clear Hy.
    rewrite rayParams_flat. cbn [slownesses flat_map app] in *. fold (slownesses ls) in *.
    cbn [rec_go]. rewrite ltb_irrefl.
    assert (Ht : n_ok (sl_topP y)) by (apply Hok; left; reflexivity).
    set (vs := sl_botP y :: slownesses ls) in *.
    assert (Hok' : forall v, In v vs -> n_ok v) by (intros v Hv; apply Hok; right; assumption).
    change (if sl_botP y <? sl_topP y then sl_botP y :: rec_go (sl_botP y) (slownesses ls)
            else rec_go (sl_topP y) (slownesses ls)) with (rec_go (sl_topP y) vs).
    split; [|split; [apply rec_go_decreasing|split; [reflexivity|]]].
    - destruct (rec_go_spec vs [sl_topP y] (sl_topP y) Hok') as [idx [S1 [S2 S3]]].
      + split; [left; reflexivity|]. intros u [<-|[]]. apply leb_refl. assumption.
      + exists (0%nat :: idx). split; [|split].
        * constructor; [assumption|]. apply Forall_forall. intros i Hi. apply S2 in Hi. simpl in Hi. lia.
        * intros i. cbn [In]. rewrite S2. cbn [List.length app]. split.
          -- intros [<-|[Hi Hr]]; [|assumption]. exists (sl_topP y). split; [reflexivity|]. intros; lia.
          -- intros Hr. destruct i as [|i]; [left; reflexivity|right]. split; [lia|assumption].
        * cbn [map nth_error]. f_equal. exact S3.
    - intros u d Hu.
      assert (Last : forall (l : list T) a b c, last (a :: l) b = last (a :: l) c).
      { induction l as [|x l IH]; intros a b c; [reflexivity|]. cbn [last]. apply IH. }
      rewrite (Last _ _ _ (sl_topP y)). apply rec_go_last; assumption.
  Qed.
End RayParams.

Section Branch.
  Context {T : Type} {N : Num T} {O : NumOrd T} {L : Libm T}.

  Definition bnd (ls : list (slayer T)) (x : T) : Prop :=
    exists y, In y ls /\ (sl_topDepth y =? x = true \/ sl_botDepth y =? x = true).

  Lemma deepest_top : forall (ls : list (slayer T)) x i y z, s_meet ls -> s_upright ls -> bnd ls x ->
    deepest ls x i -> nth_error ls i = Some y -> In z ls -> x <? sl_botDepth z = true ->
    sl_topDepth y =? x = true.
  Proof.
    intros ls x i y z Hm Hu [u [Hu1 Hu2]] [[y' [Hy' [H1 H2]]] Hd] Hy Hz Hlt.
    rewrite Hy in Hy'. inversion Hy'; subst y'. clear Hy'.
    apply In_nth_error in Hu1. destruct Hu1 as [k Hk].
    pose proof (Hu u (nth_error_In _ _ Hk)) as Uu.
    assert (Hle : holds u x).
    { destruct Hu2 as [E|E]; split.
      - apply eqb_leb. assumption.
      - eapply ord_trans; [apply eqb_geb; exact E|assumption].
      - eapply ord_trans; [exact Uu|apply eqb_leb; assumption].
      - apply eqb_geb. assumption. }
    pose proof (Hd _ _ Hk Hle) as Hki.
    assert (Deep : (k < i)%nat -> x <=? sl_botDepth u = true -> sl_topDepth y =? x = true).
    { intros Lt Hx. rewrite ord_eqb, H1. cbn [andb]. eapply ord_trans; [exact Hx|].
      eapply s_sorted; [exact Hm|exact Hu|exact Hk|exact Hy|assumption]. }
    destruct (Nat.eq_dec k i) as [->|Nk]; [|apply Deep; [lia|apply Hle]].
    rewrite Hy in Hk. inversion Hk; subst u. destruct Hu2 as [E|E]; [assumption|].
    exfalso. apply In_nth_error in Hz. destruct Hz as [kz Hkz].
    assert (Lz : (i < kz)%nat).
    { destruct (Nat.lt_ge_cases i kz) as [|Ge]; [assumption|exfalso].
      assert (F : sl_botDepth z <=? sl_botDepth y = true).
      { destruct (Nat.eq_dec kz i) as [->|]; [rewrite Hy in Hkz; inversion Hkz; subst; apply leb_refl; apply eqb_ok in E; tauto|].
        eapply ord_trans; [eapply s_sorted; [exact Hm|exact Hu|exact Hkz|exact Hy|lia]|assumption]. }
      pose proof (ltb_leb_trans _ _ _ Hlt F) as G.
      apply eqb_leb in E. rewrite (ltb_not_leb _ _ G) in E. discriminate. }
    destruct (nth_error ls (S i)) as [v|] eqn:Ev.
    - assert (Hv : holds v x).
      { pose proof (Hm _ _ _ Hy Ev) as M. split.
        - apply eqb_leb. rewrite eqb_sym. eapply eqb_trans; [rewrite eqb_sym; exact E|exact M].
        - eapply ord_trans; [|apply Hu; eapply nth_error_In; exact Ev].
          apply eqb_leb. eapply eqb_trans; [rewrite eqb_sym; exact E|exact M]. }
      specialize (Hd _ _ Ev Hv). lia.
    - apply nth_error_None in Ev. assert (kz < List.length ls)%nat by (apply nth_error_Some; congruence). lia.
  Qed.
  Lemma shallowest_bot : forall (ls : list (slayer T)) x i y z, s_meet ls -> s_upright ls -> bnd ls x ->
    shallowest ls x i -> nth_error ls i = Some y -> In z ls -> sl_topDepth z <? x = true ->
    sl_botDepth y =? x = true.
  Proof.
    intros ls x i y z Hm Hu [u [Hu1 Hu2]] [[y' [Hy' [H1 H2]]] Hd] Hy Hz Hlt.
    rewrite Hy in Hy'. inversion Hy'; subst y'. clear Hy'.
    apply In_nth_error in Hu1. destruct Hu1 as [k Hk].
    pose proof (Hu u (nth_error_In _ _ Hk)) as Uu.
    assert (Hle : holds u x).
    { destruct Hu2 as [E|E]; split.
      - apply eqb_leb. assumption.
      - eapply ord_trans; [apply eqb_geb; exact E|assumption].
      - eapply ord_trans; [exact Uu|apply eqb_leb; assumption].
      - apply eqb_geb. assumption. }
    pose proof (Hd _ _ Hk Hle) as Hki.
    assert (Deep : (i < k)%nat -> sl_topDepth u <=? x = true -> sl_botDepth y =? x = true).
    { intros Lt Hx. rewrite ord_eqb, H2, andb_true_r. eapply ord_trans; [|exact Hx].
      eapply s_sorted; [exact Hm|exact Hu|exact Hy|exact Hk|assumption]. }
    destruct (Nat.eq_dec k i) as [->|Nk]; [|apply Deep; [lia|apply Hle]].
    rewrite Hy in Hk. inversion Hk; subst u. destruct Hu2 as [E|E]; [|assumption].
    exfalso. apply In_nth_error in Hz. destruct Hz as [kz Hkz].
    assert (Lz : (kz < i)%nat).
    { destruct (Nat.lt_ge_cases kz i) as [|Ge]; [assumption|exfalso].
      assert (F : sl_topDepth y <=? sl_topDepth z = true).
      { destruct (Nat.eq_dec i kz) as [->|]; [rewrite Hy in Hkz; inversion Hkz; subst; apply leb_refl; apply eqb_ok in E; tauto|].
        eapply ord_trans; [exact Uu|]. eapply s_sorted; [exact Hm|exact Hu|exact Hy|exact Hkz|lia]. }
      pose proof (leb_ltb_trans _ _ _ F Hlt) as G.
      apply eqb_geb in E. rewrite (ltb_not_leb _ _ G) in E. discriminate. }
    destruct i as [|i]; [lia|].
    destruct (nth_error ls i) as [v|] eqn:Ev.
    - assert (Hv : holds v x).
      { pose proof (Hm _ _ _ Ev Hy) as M. pose proof (eqb_trans _ _ _ M E) as ME. split.
        - eapply ord_trans; [apply Hu; eapply nth_error_In; exact Ev|]. apply eqb_leb. assumption.
        - apply eqb_geb. assumption. }
      specialize (Hd _ _ Ev Hv). lia.
    - apply nth_error_None in Ev. assert (S i < List.length ls)%nat by (apply nth_error_Some; congruence). lia.
  Qed.

  Lemma crosses_b : forall p (y : slayer T),
    (p <=? sl_topP y) && (p <=? sl_botP y) = true <-> crosses p y.
  Proof. intros. rewrite andb_true_iff. reflexivity. Qed.

  (** the summation loop *)
  Lemma ctd_spec : forall (m : smodel T) w p n i y td td' y',
    nth_error (sm_layers m w) i = Some y ->
    ctd_go m w p n (Z.of_nat i) y td = Ok (td', y') ->
    exists incs, (List.length incs <= n)%nat /\ td' = fold_left td_add incs td /\
      (forall k z, (k < List.length incs)%nat -> nth_error (sm_layers m w) (i + k) = Some z -> crosses p z) /\
      (forall k x, nth_error incs k = Some x -> layerTimeDist m p (Z.of_nat (i + k)) w = Ok x) /\
      (List.length incs = n \/
       nth_error (sm_layers m w) (i + List.length incs) = Some y' /\ ~ crosses p y').
  Proof.
    intros m w p. induction n as [|n IH]; intros i y td td' y' Hy H.
    - cbn in H. inversion H; subst. exists []. split; [simpl; lia|]. split; [reflexivity|].
      split; [intros k z Hk; simpl in Hk; lia|]. split; [intros [|k] x Hk; discriminate|]. left. reflexivity.
    - cbn [ctd_go] in H. destruct ((p <=? sl_topP y) && (p <=? sl_botP y)) eqn:E.
      + apply crosses_b in E. inv_as H as x Hx.
        assert (Step : forall td1 yy incs,
          (List.length incs <= n)%nat -> td1 = fold_left td_add incs (td_add td x) ->
          (forall k z, (k < List.length incs)%nat -> nth_error (sm_layers m w) (S i + k) = Some z -> crosses p z) ->
          (forall k x, nth_error incs k = Some x -> layerTimeDist m p (Z.of_nat (S i + k)) w = Ok x) ->
          (List.length incs = n \/ nth_error (sm_layers m w) (S i + List.length incs) = Some yy /\ ~ crosses p yy) ->
          exists incs, (List.length incs <= S n)%nat /\ td1 = fold_left td_add incs td /\
            (forall k z, (k < List.length incs)%nat -> nth_error (sm_layers m w) (i + k) = Some z -> crosses p z) /\
            (forall k x, nth_error incs k = Some x -> layerTimeDist m p (Z.of_nat (i + k)) w = Ok x) /\
            (List.length incs = S n \/ nth_error (sm_layers m w) (i + List.length incs) = Some yy /\ ~ crosses p yy)).
        { intros td1 yy incs L1 L2 L3 L4 L5. exists (x :: incs). split; [simpl; lia|]. split; [exact L2|].
          split; [|split].
          - intros [|k] z Hk Hz; [rewrite Nat.add_0_r, Hy in Hz; inversion Hz; subst; assumption|].
            apply (L3 k); [simpl in Hk; lia|]. rewrite <- Hz. f_equal. lia.
          - intros [|k] x' Hk; cbn in Hk; [inversion Hk; subst; rewrite Nat.add_0_r; assumption|].
            replace (i + S k)%nat with (S i + k)%nat by lia. apply L4. assumption.
          - cbn [List.length]. destruct L5 as [L5|L5]; [left; lia|right].
            replace (i + S (List.length incs))%nat with (S i + List.length incs)%nat by lia. assumption. }
        destruct n as [|n].
        * inversion H; subst. apply (Step _ _ []); simpl; try reflexivity; try lia; try tauto.
          intros [|k] x' Hk; discriminate.
        * inv_as H as z Hz. replace (Z.of_nat i + 1)%Z with (Z.of_nat (S i)) in Hz, H by lia.
          apply layer_py in Hz.
          destruct (IH (S i) z _ _ _ Hz H) as [incs [L1 [L2 [L3 [L4 L5]]]]].
          eapply Step; eassumption.
      + inversion H; subst. exists []. split; [simpl; lia|]. split; [reflexivity|].
        split; [intros k z Hk; simpl in Hk; lia|]. split; [intros [|k] x Hk; discriminate|].
        right. rewrite Nat.add_0_r. split; [assumption|]. intros C. apply crosses_b in C. congruence.
  Qed.
  Lemma fold_td : forall incs (td : timedist T),
    td_dist (fold_left td_add incs td) = fold_left (fun s x => s + td_dist x) incs (td_dist td) /\
    td_time (fold_left td_add incs td) = fold_left (fun s x => s + td_time x) incs (td_time td).
  Proof.
    induction incs as [|x incs IH]; intros td; [split; reflexivity|]. cbn [fold_left]. apply IH.
  Qed.

  Lemma calcTimeDist_spec : forall (m : smodel T) w maxRP i j p td,
    (i < List.length (sm_layers m w))%nat ->
    calcTimeDist m w maxRP (Z.of_nat i) (Z.of_nat j) p = Ok td ->
    (p <=? maxRP = false /\ td_dist td = n_0 /\ td_time td = n_0) \/
    (p <=? maxRP = true /\ exists incs,
       (descends m w p i j incs \/ (S j <= i)%nat /\ incs = []) /\
       td_dist td = sum_dist incs /\ td_time td = sum_time incs).
  Proof.
    intros m w maxRP i j p td Hi H. unfold calcTimeDist in H. destruct (p <=? maxRP).
    - right. split; [reflexivity|]. inv_as H as y Hy. inv_as H as [td' y'] Hc. apply layer_py in Hy.
      destruct (strictly_contains y' p) eqn:Es; [discriminate|]. inversion H; subst td'. clear H.
      apply ctd_spec in Hc; [|assumption]. destruct Hc as [incs [L1 [L2 [L3 [L4 L5]]]]].
      exists incs. split.
      + destruct (Nat.le_gt_cases (S j) i) as [G|G].
        * right. split; [assumption|]. destruct incs; [reflexivity|]. simpl in L1. lia.
        * left. unfold descends. split; [lia|]. split; [assumption|]. split; [assumption|].
          destruct L5 as [L5|[L5 L6]]; [left; lia|right]. exists y'. split; [assumption|]. split; [assumption|].
          unfold spans. unfold strictly_contains in Es. congruence.
      + subst td. destruct (fold_td incs (td_new p)) as [-> ->]. split; reflexivity.
    - left. split; [reflexivity|]. inversion H; subst. split; reflexivity.
  Qed.

  Lemma nth_combine3 : forall {A B C} (l : list A) (l' : list B) (l'' : list C) k a b c,
    nth_error l k = Some a -> nth_error l' k = Some b -> nth_error l'' k = Some c ->
    nth_error (combine (combine l l') l'') k = Some (a, b, c).
  Proof.
    intros A B C. induction l as [|x l IH]; intros l' l'' [|k] a b c; try discriminate;
    destruct l' as [|y l']; try discriminate; destruct l'' as [|z l'']; try discriminate; cbn; intros.
    - congruence.
    - apply IH; assumption.
  Qed.

  (** what a branch stores, when its ends were not moved *)
  Lemma createBranch_rays : forall fuel (m : smodel T) top bot w minP rp b,
    s_meet (sm_layers m w) -> s_upright (sm_layers m w) -> n_ok top -> n_ok bot ->
    createBranch fuel m top bot w minP rp = Ok b -> tb_top b = top -> tb_bot b = bot ->
    all_rays m w rp b.
  Proof.
    intros fuel m top bot w minP rp b Hm Hu Ot Ob H Eqt Eqb.
    unfold createBranch in H. inv_as H as tn Htn. inv_as H as bn Hbn. inv_as H as ts Hts. inv_as H as bs Hbs.
    inv_as H as [top' bot'] He. inv_as H as mt Hmt. inv_as H as mr Hmr. inv_as H as tds Htds.
    inversion H; subst b. clear H. cbn [tb_top tb_bot] in Eqt, Eqb. subst top' bot'.
    apply below_sound in Htn; [|assumption..]. apply above_sound in Hbn; [|assumption..].
    destruct Htn as [Tn Td]. destruct Hbn as [Bn Bs].
    apply layer_py_Z in Hts; [|assumption]. apply layer_py_Z in Hbs; [|assumption].
    pose proof (mapM_Ok_length _ _ _ Htds) as Len. apply mapM_Ok_Forall2 in Htds.
    unfold all_rays. cbn [tb_dist tb_time tb_tau].
    split; [rewrite map_length; assumption|]. split; [rewrite map_length; assumption|].
    split; [rewrite map_length, !combine_length, !map_length; lia|].
    intros k p d t u Hp Hd Ht Hu'. rewrite nth_error_map in Hd, Ht, Hu'.
    destruct (nth_error tds k) as [x|] eqn:Ex; [|discriminate]. inversion Hd; subst d. inversion Ht; subst t.
    rewrite (nth_combine3 _ _ _ k (td_time x) (td_dist x) p) in Hu';
      [|rewrite nth_error_map, Ex; reflexivity..|assumption].
    inversion Hu'; subst u. unfold ray_values. cbn [tb_maxRP tb_top tb_bot]. split; [reflexivity|].
    assert (Hc : calcTimeDist m w minP tn bn p = Ok x).
    { clear - Htds Hp Ex. revert k Hp Ex. induction Htds as [|a b l l' Hab F IH]; intros [|k] Hp Ex; try discriminate.
      - cbn in Hp, Ex. congruence.
      - eapply IH; eassumption. }
    rewrite <- (Z2Nat.id tn), <- (Z2Nat.id bn) in Hc by assumption.
    apply calcTimeDist_spec in Hc; [|apply nth_error_Some; congruence].
    destruct Hc as [Hc|[Hc1 [incs Hc2]]]; [left; assumption|right]. split; [assumption|].
    exists (Z.to_nat tn), (Z.to_nat bn), incs. tauto.
  Qed.

  Lemma createBranch_exact : forall fuel (m : smodel T) top bot w minP rp b,
    s_meet (sm_layers m w) -> s_upright (sm_layers m w) ->
    bnd (sm_layers m w) top -> bnd (sm_layers m w) bot -> top <? bot = true ->
    createBranch fuel m top bot w minP rp = Ok b ->
    tb_top b = top /\ tb_bot b = bot /\ tb_isP b = w /\ tb_maxRP b = minP /\ all_rays m w rp b /\
    getMinTurnRayParam fuel m bot w = Ok (tb_minTurnRP b) /\ getMinRayParam fuel m bot w = Ok (tb_minRP b).
  Proof.
    intros fuel m top bot w minP rp b Hm Hu Bt Bb Lt H. destruct (ord_ltb_ok _ _ Lt) as [Ot Ob].
    pose proof (createBranch_rays fuel m top bot w minP rp b Hm Hu Ot Ob H) as Rays.
    unfold createBranch in H. inv_as H as tn Htn. inv_as H as bn Hbn. inv_as H as ts Hts. inv_as H as bs Hbs.
    inv_as H as [top' bot'] He. inv_as H as mt Hmt. inv_as H as mr Hmr. inv_as H as tds Htds.
    inversion H; subst b. clear H. cbn [tb_top tb_bot tb_isP tb_maxRP tb_minTurnRP tb_minRP] in *.
    apply below_sound in Htn; [|assumption..]. apply above_sound in Hbn; [|assumption..].
    destruct Htn as [Tn Td]. destruct Hbn as [Bn Bs].
    apply layer_py_Z in Hts; [|assumption]. apply layer_py_Z in Hbs; [|assumption].
    pose proof Td as [[y1 [Hy1 [Hy2 Hy3]]] _]. rewrite Hts in Hy1. inversion Hy1; subst y1.
    pose proof Bs as [[z1 [Hz1 [Hz2 Hz3]]] _]. rewrite Hbs in Hz1. inversion Hz1; subst z1.
    assert (E1 : sl_topDepth ts =? top = true).
    { eapply deepest_top; [exact Hm|exact Hu|exact Bt|exact Td|exact Hts|eapply nth_error_In; exact Hbs|].
      eapply ltb_leb_trans; eassumption. }
    assert (E2 : sl_botDepth bs =? bot = true).
    { eapply shallowest_bot; [exact Hm|exact Hu|exact Bb|exact Bs|exact Hbs|eapply nth_error_In; exact Hts|].
      eapply leb_ltb_trans; eassumption. }
    unfold branch_ends in He. rewrite E1, E2 in He. cbn [negb orb] in He. inversion He; subst top' bot'. clear He.
    split; [reflexivity|]. split; [reflexivity|]. split; [reflexivity|]. split; [reflexivity|].
    split; [|split; assumption].
    apply Rays; reflexivity.
  Qed.

  (** the branches of one wave type *)
  Definition increasing (crit : list (critdepth T)) : Prop :=
    forall i a b, nth_error crit i = Some a -> nth_error crit (S i) = Some b -> cd_depth a <? cd_depth b = true.
  (** largest ray parameter of the branch below the one between [c] and [c'] *)
  Definition next_max (m : smodel T) (w : bool) (mx : T) (c c' : critdepth T) (mx' : T) : Prop :=
    exists y z u j, getSlownessLayer m (if w then cd_pNum c else cd_sNum c) w = Ok y /\
      getSlownessLayer m ((if w then cd_pNum c' else cd_sNum c') - 1) w = Ok z /\
      shallowest (sm_layers m w) (cd_depth c') j /\ nth_error (sm_layers m w) j = Some u /\
      mx' = py_min (py_min mx (py_min (sl_topP y) (sl_botP z))) (sl_botP u).

  Lemma branches_spec : forall fuel (m : smodel T) w rp l acc mx r,
    s_meet (sm_layers m w) -> s_upright (sm_layers m w) ->
    (forall c c', In (c, c') l -> bnd (sm_layers m w) (cd_depth c) /\ bnd (sm_layers m w) (cd_depth c') /\
       cd_depth c <? cd_depth c' = true) ->
    foldM (branch_step fuel m w rp) l (acc, mx) = Ok r ->
    exists bs, fst r = acc ++ bs /\ List.length bs = List.length l /\
      (forall i b c c', nth_error bs i = Some b -> nth_error l i = Some (c, c') ->
         tb_top b = cd_depth c /\ tb_bot b = cd_depth c' /\ tb_isP b = w /\ all_rays m w rp b /\
         getMinTurnRayParam fuel m (cd_depth c') w = Ok (tb_minTurnRP b) /\
         getMinRayParam fuel m (cd_depth c') w = Ok (tb_minRP b)) /\
      (forall b, nth_error bs 0 = Some b -> tb_maxRP b = mx) /\
      (forall i a b c c', nth_error bs i = Some a -> nth_error bs (S i) = Some b -> nth_error l i = Some (c, c') ->
         next_max m w (tb_maxRP a) c c' (tb_maxRP b)).
  Proof.
    intros fuel m w rp. induction l as [|[c c'] l IH]; intros acc mx r Hm Hu Hl H.
    - inversion H; subst. exists []. rewrite app_nil_r. split; [reflexivity|]. split; [reflexivity|].
      split; [intros [|i]; discriminate|]. split; [discriminate|]. intros [|i]; discriminate.
    - cbn [foldM] in H. inv_as H as [acc' mx'] Hs. destruct (Hl c c' (or_introl eq_refl)) as [B1 [B2 Lt]].
      unfold branch_step in Hs. inv_as Hs as b Hb. inv_as Hs as y Hy. inv_as Hs as z Hz.
      inv_as Hs as n Hn. inv_as Hs as u Hu'. inversion Hs; subst acc' mx'. clear Hs.
      apply createBranch_exact in Hb; [|assumption..]. destruct Hb as [C1 [C2 [C3 [C4 [C5 [C6 C7]]]]]].
      apply IH in H; [|assumption..|intros; apply Hl; right; assumption].
      destruct H as [bs [E1 [E2 [E3 [E4 E5]]]]]. exists (b :: bs).
      split; [rewrite E1, <- app_assoc; reflexivity|]. split; [simpl; lia|]. split; [|split].
      + intros [|i] b0 d d' Hb0 Hd; cbn in Hb0, Hd.
        * inversion Hb0; inversion Hd; subst. tauto.
        * eapply E3; eassumption.
      + intros b0 Hb0. inversion Hb0; subst. reflexivity.
      + intros [|i] a b0 d d' Ha Hb0 Hd; cbn in Ha, Hb0, Hd.
        * inversion Ha; inversion Hd; subst. apply E4 in Hb0. rewrite Hb0.
          apply above_sound in Hn; [|assumption..|apply ord_ltb_ok in Lt; tauto]. destruct Hn as [Hn0 Hn].
          apply layer_py_Z in Hu'; [|assumption].
          exists y, z, u, (Z.to_nat n). split; [assumption|]. split; [assumption|]. split; [assumption|]. split; [assumption|]. reflexivity.
        * eapply E5; eassumption.
  Qed.

  Lemma adjacent_nth' : forall {A} (l : list A) k a b,
    nth_error (adjacent l) k = Some (a, b) <-> nth_error l k = Some a /\ nth_error l (S k) = Some b.
  Proof.
    intros A. induction l as [|x l IH]; intros k a b.
    - cbn. destruct k; split; [discriminate|intros []; discriminate|discriminate|intros []; discriminate].
    - destruct l as [|y l].
      + cbn. destruct k as [|k]; split; try discriminate; intros [_ F]; [discriminate|destruct k; discriminate].
      + change (adjacent (x :: y :: l)) with ((x, y) :: adjacent (y :: l)). destruct k as [|k].
        * cbn. split; [intros F; inversion F; auto|intros [F1 F2]; congruence].
        * cbn [nth_error]. rewrite IH. reflexivity.
  Qed.
  Lemma adjacent_length : forall {A} (l : list A), List.length (adjacent l) = pred (List.length l).
  Proof. intros A. induction l as [|x l IH]; [reflexivity|]. destruct l as [|y l]; [reflexivity|].
    change (adjacent (x :: y :: l)) with ((x, y) :: adjacent (y :: l)). cbn [List.length]. rewrite IH. reflexivity. Qed.

  Lemma make_branches_spec : forall fuel (m : smodel T) w rp bs,
    s_meet (sm_layers m w) -> s_upright (sm_layers m w) ->
    (forall c, In c (sm_crit m) -> bnd (sm_layers m w) (cd_depth c)) -> increasing (sm_crit m) ->
    sm_crit m <> [] ->
    make_branches fuel m w rp = Ok bs ->
    tiles (sm_crit m) bs /\
    (forall b, In b bs -> tb_isP b = w /\ all_rays m w rp b /\
       getMinTurnRayParam fuel m (tb_bot b) w = Ok (tb_minTurnRP b) /\
       getMinRayParam fuel m (tb_bot b) w = Ok (tb_minRP b)) /\
    (forall b y, nth_error bs 0 = Some b -> nth_error (sm_layers m w) 0 = Some y -> tb_maxRP b = sl_topP y) /\
    (forall i a b c c', nth_error bs i = Some a -> nth_error bs (S i) = Some b ->
       nth_error (sm_crit m) i = Some c -> nth_error (sm_crit m) (S i) = Some c' ->
       next_max m w (tb_maxRP a) c c' (tb_maxRP b)).
  Proof.
    intros fuel m w rp bs Hm Hu Hb Hi Hne H. unfold make_branches in H. inv_as H as y Hy. inv_as H as r Hr.
    inversion H; subst bs. clear H. apply branches_spec in Hr; [|assumption..|].
    2:{ intros c c' Hc. apply In_nth_error in Hc. destruct Hc as [k Hk]. apply adjacent_nth' in Hk. destruct Hk as [K1 K2].
        split; [apply Hb; eapply nth_error_In; exact K1|]. split; [apply Hb; eapply nth_error_In; exact K2|]. eapply Hi; eassumption. }
    destruct Hr as [bs [E1 [E2 [E3 [E4 E5]]]]]. cbn [app] in E1. rewrite E1. rewrite adjacent_length in E2.
    split; [|split; [|split]].
    - split; [destruct (sm_crit m); [congruence|simpl in *; lia]|].
      intros i b c c' Hb' Hc Hc'. destruct (E3 i b c c' Hb') as [F1 [F2 _]]; [apply adjacent_nth'; split; assumption|].
      split; assumption.
    - intros b Hb'. apply In_nth_error in Hb'. destruct Hb' as [i Hb'].
      destruct (nth_error (adjacent (sm_crit m)) i) as [[c c']|] eqn:Ec.
      2:{ apply nth_error_None in Ec. rewrite adjacent_length in Ec.
          assert (i < List.length bs)%nat by (apply nth_error_Some; congruence). lia. }
      destruct (E3 i b c c' Hb' Ec) as [F1 [F2 [F3 [F4 [F5 F6]]]]]. rewrite F2. tauto.
    - intros b y' Hb' Hy'. unfold getSlownessLayer in Hy. change 0%Z with (Z.of_nat 0) in Hy. rewrite py_index_nat, Hy' in Hy.
      inversion Hy; subst. apply E4. assumption.
    - intros i a b c c' Ha Hb' Hc Hc'. eapply E5; [eassumption..|]. apply adjacent_nth'. split; assumption.
  Qed.
End Branch.

(** Proofs about slowness models: layer search, validation, adding samples. *)
From Coq Require Import ZArith Bool List String Reals Lia Lra.
From Verif Require Import Base Num PyStr VelocityModel VelSpec VelProofs SlownessLayer SlownessModel SlowSpec.
Import ListNotations.
Local Open Scope list_scope.
Local Open Scope num_scope.

(** ** layer search *)
Section Search.
  Context {T : Type} {N : Num T} {O : NumOrd T}.

  Lemma s_meet_tail : forall x (ls : list (slayer T)), s_meet (x :: ls) -> s_meet ls.
  Proof. intros x ls H i a b Ha Hb. apply (H (S i) a b); assumption. Qed.
  Lemma s_join_tail : forall x (ls : list (slayer T)), s_join (x :: ls) -> s_join ls.
  Proof. intros x ls H i a b Ha Hb. apply (H (S i) a b); assumption. Qed.
  Lemma s_upright_tail : forall x (ls : list (slayer T)), s_upright (x :: ls) -> s_upright ls.
  Proof. intros x ls H y Hy. apply H. right. assumption. Qed.

  (** deeper layers start at or below the bottom of shallower ones *)
  Lemma s_sorted : forall (ls : list (slayer T)) j i a b, s_meet ls -> s_upright ls ->
    nth_error ls i = Some a -> nth_error ls j = Some b -> (i < j)%nat ->
    sl_botDepth a <=? sl_topDepth b = true.
  Proof.
    intros ls j i. remember (j - i - 1)%nat as n eqn:En. revert i j En.
    induction n as [|n IH]; intros i j En a b Hm Hu Ha Hb Hij.
    - replace j with (S i) in * by lia. apply eqb_leb. eapply Hm; eassumption.
    - destruct (nth_error ls (S i)) as [c|] eqn:Ec.
      + eapply ord_trans; [apply eqb_leb; eapply Hm; eassumption|].
        eapply ord_trans; [apply Hu; eapply nth_error_In; eassumption|].
        apply (IH (S i) j); try assumption; lia.
      + exfalso. apply nth_error_None in Ec.
        assert (j < List.length ls)%nat by (apply nth_error_Some; congruence). lia.
  Qed.

  Lemma layer_py : forall (m : smodel T) w i y,
    getSlownessLayer m (Z.of_nat i) w = Ok y <-> nth_error (sm_layers m w) i = Some y.
  Proof.
    intros. unfold getSlownessLayer. rewrite py_index_nat.
    destruct (nth_error _ _); split; congruence.
  Qed.
  Lemma layer_py_Z : forall (m : smodel T) w i y, (0 <= i)%Z ->
    getSlownessLayer m i w = Ok y <-> nth_error (sm_layers m w) (Z.to_nat i) = Some y.
  Proof. intros. rewrite <- layer_py. rewrite Z2Nat.id by assumption. tauto. Qed.

  (** the final scan *)
  Lemma scan_spec : forall (m : smodel T) w x n cur i, (0 <= cur)%Z ->
    scan_layers m w x n cur = Ok (Some i) ->
    (cur <= i < cur + Z.of_nat n)%Z /\ exists y, nth_error (sm_layers m w) (Z.to_nat i) = Some y /\ holds y x.
  Proof.
    induction n as [|n IH]; intros cur i Hc H; simpl in H; [discriminate|].
    inv_bind H. apply layer_py_Z in Ha; [|lia].
    match type of H with (if ?b then _ else _) = _ => destruct b eqn:E end.
    - inversion H; subst. split; [lia|]. exists v. split; [assumption|].
      apply andb_prop in E. assumption.
    - apply IH in H; [|lia]. split; [lia|tauto].
  Qed.
  Lemma scan_none : forall (m : smodel T) w x n cur, (0 <= cur)%Z ->
    scan_layers m w x n cur = Ok None ->
    forall i y, (cur <= Z.of_nat i < cur + Z.of_nat n)%Z -> nth_error (sm_layers m w) i = Some y -> ~ holds y x.
  Proof.
    induction n as [|n IH]; intros cur Hc H i y Hi Hy; simpl in H; [lia|].
    inv_bind H. apply layer_py_Z in Ha; [|lia].
    match type of H with (if ?b then _ else _) = _ => destruct b eqn:E end; [discriminate|].
    destruct (Z.eq_dec (Z.of_nat i) cur) as [Ei|Ei].
    - replace i with (Z.to_nat cur) in Hy by lia. rewrite Ha in Hy. inversion Hy; subst.
      intros [H1 H2]. rewrite H1, H2 in E. discriminate.
    - apply (IH (cur + 1)%Z ltac:(lia) H i y ltac:(lia) Hy).
  Qed.
  Lemma scan_ok : forall (m : smodel T) w x n cur, (0 <= cur)%Z ->
    (cur + Z.of_nat n <= Z.of_nat (List.length (sm_layers m w)))%Z ->
    exists r, scan_layers m w x n cur = Ok r.
  Proof.
    induction n as [|n IH]; intros cur Hc Hn; simpl; [eauto|].
    destruct (nth_error (sm_layers m w) (Z.to_nat cur)) as [y|] eqn:E.
    - apply layer_py_Z in E; [|lia]. rewrite E. simpl. destruct (_ && _); [eauto|].
      apply IH; lia.
    - apply nth_error_None in E. lia.
  Qed.

  Lemma half_even_bounds : forall s, (s / 2 <= half_even s <= s / 2 + 1)%Z.
  Proof. intros s. unfold half_even. destruct (Z.even s), (Z.even (s / 2)); lia. Qed.
  Lemma half_even_mid : forall a b, (a + 3 <= b)%Z -> (a < half_even (a + b) < b)%Z.
  Proof.
    intros a b H. pose proof (half_even_bounds (a + b)).
    assert (2 * ((a + b) / 2) <= a + b)%Z by (apply Z.mul_div_le; lia).
    assert (a + b < 2 * Z.succ ((a + b) / 2))%Z by (apply Z.mul_succ_div_gt; lia). lia.
  Qed.

  (** whatever the layers, a layer that is found contains the depth (or is not
      comparable with it) *)
  Lemma lnfd_step_inr : forall (m : smodel T) w x s l cur i, (0 <= cur)%Z ->
    lnfd_step m w x s l cur = Ok (inr i) ->
    i = cur /\ exists y, nth_error (sm_layers m w) (Z.to_nat cur) = Some y /\
      x <? sl_topDepth y = false /\ sl_botDepth y <? x = false.
  Proof.
    intros m w x s l cur i Hc H. unfold lnfd_step in H. inv_bind H. apply layer_py_Z in Ha; [|lia].
    destruct (x <? sl_topDepth v) eqn:E1; [destruct (_ >? _)%Z; discriminate|].
    destruct (sl_botDepth v <? x) eqn:E2; [destruct (_ >? _)%Z; discriminate|].
    inversion H; subst. split; [reflexivity|]. exists v. auto.
  Qed.
  Lemma lnfd_step_inl : forall (m : smodel T) w x s l cur s' l', (0 <= s)%Z -> (0 <= cur)%Z ->
    lnfd_step m w x s l cur = Ok (inl (s', l')) -> (0 <= s')%Z.
  Proof.
    intros m w x s l cur s' l' Hs Hc H. unfold lnfd_step in H. inv_bind H.
    destruct (_ <? _); [destruct (_ >? _)%Z; inversion H; lia|].
    destruct (_ <? _); [destruct (_ >? _)%Z; inversion H; lia|]. discriminate.
  Qed.
  Lemma lnfd_sound : forall (m : smodel T) w x fuel s l i, (0 <= s)%Z -> s_upright (sm_layers m w) -> n_ok x ->
    while fuel (lnfd_body m w x) (s, l) = Ok i ->
    (0 <= i)%Z /\ exists y, nth_error (sm_layers m w) (Z.to_nat i) = Some y /\ holds y x.
  Proof.
    intros m w x. induction fuel as [|fuel IH]; intros s l i Hs Hu Hx H; [discriminate|].
    assert (Step : forall cur r, (0 <= cur)%Z -> lnfd_step m w x s l cur = Ok r ->
      match r with inl s => while fuel (lnfd_body m w x) s | inr b => Ok b end = Ok i ->
      (0 <= i)%Z /\ exists y, nth_error (sm_layers m w) (Z.to_nat i) = Some y /\ holds y x).
    { intros cur r Hc Hr Hi. destruct r as [[s' l']|j].
      - eapply IH; [|assumption|assumption|exact Hi]. eapply lnfd_step_inl; [| |exact Hr]; assumption.
      - inversion Hi; subst. apply lnfd_step_inr in Hr; [|assumption].
        destruct Hr as [-> [y [Hy [H1 H2]]]]. split; [assumption|]. exists y. split; [assumption|].
        assert (Hok := Hu _ (nth_error_In _ _ Hy)). apply ord_leb_ok in Hok. destruct Hok.
        split; apply ltb_false_leb; assumption. }
    cbn [while] in H. inv_bind H. unfold lnfd_body in Ha. destruct (_ <? 3)%Z eqn:E.
    - inv_bind Ha. destruct v0 as [c|].
      + inversion Ha; subst. inversion H; subst. apply scan_spec in Haa; [|assumption].
        destruct Haa. split; [lia|assumption].
      + eapply Step; [|exact Ha|exact H]. lia.
    - eapply Step; [|exact Ha|exact H]. apply Z.ltb_ge in E. pose proof (half_even_mid s l). lia.
  Qed.

  (** on a gap-free stack the search finds a layer *)
  Lemma lnfd_complete : forall (m : smodel T) w x fuel s l k y,
    s_meet (sm_layers m w) -> s_upright (sm_layers m w) ->
    (0 <= s)%Z -> (l < Z.of_nat (List.length (sm_layers m w)))%Z ->
    nth_error (sm_layers m w) k = Some y -> holds y x -> (s <= Z.of_nat k <= l)%Z ->
    (Z.to_nat (l - s) < fuel)%nat ->
    exists i, while fuel (lnfd_body m w x) (s, l) = Ok i.
  Proof.
    intros m w x. induction fuel as [|fuel IH]; intros s l k y Hm Hu Hs Hl Hy Hh Hk Hf; [lia|].
    cbn [while]. unfold lnfd_body. destruct (Z.ltb_spec (l - s) 3) as [E|E].
    - destruct (scan_ok m w x (Z.to_nat (l + 1 - s)) s) as [r Hr]; [lia|lia|].
      rewrite Hr. destruct r as [c|]; [simpl; eauto|].
      exfalso. eapply scan_none; [| exact Hr | | exact Hy | exact Hh]; lia.
    - pose proof (half_even_mid s l ltac:(lia)) as Hc. set (cur := half_even (s + l)) in *.
      destruct (nth_error (sm_layers m w) (Z.to_nat cur)) as [t|] eqn:Et;
        [|apply nth_error_None in Et; lia].
      assert (Ht : getSlownessLayer m cur w = Ok t) by (apply layer_py_Z; [lia|assumption]).
      unfold lnfd_step. rewrite Ht. cbn [bind]. destruct Hh as [H1 H2].
      destruct (x <? sl_topDepth t) eqn:E1.
      + assert (Z.of_nat k < cur)%Z.
        { destruct (Z_lt_dec (Z.of_nat k) cur) as [L|L]; [assumption|exfalso].
          assert (Hle : sl_topDepth t <=? sl_topDepth y = true).
          { destruct (Nat.eq_dec (Z.to_nat cur) k) as [Ek|Ek].
            - rewrite Ek in Et. rewrite Et in Hy. inversion Hy; subst.
              apply leb_refl. apply ord_leb_ok in H1. tauto.
            - eapply ord_trans; [apply Hu; eapply nth_error_In; exact Et|].
              eapply s_sorted; [exact Hm|exact Hu|exact Et|exact Hy|lia]. }
          pose proof (ltb_leb_trans _ _ _ E1 Hle) as F.
          rewrite (ltb_not_leb _ _ F) in H1. discriminate. }
        destruct (Z.gtb_spec s (cur - 1)); [lia|]. cbn [bind].
        apply (IH s (cur - 1)%Z k y); try assumption; try lia. split; assumption.
      + destruct (sl_botDepth t <? x) eqn:E2; [|simpl; eauto].
        assert (cur < Z.of_nat k)%Z.
        { destruct (Z_lt_dec cur (Z.of_nat k)) as [L|L]; [assumption|exfalso].
          assert (Hle : sl_botDepth y <=? sl_botDepth t = true).
          { destruct (Nat.eq_dec (Z.to_nat cur) k) as [Ek|Ek].
            - rewrite Ek in Et. rewrite Et in Hy. inversion Hy; subst.
              apply leb_refl. apply ord_leb_ok in H2. tauto.
            - eapply ord_trans; [eapply s_sorted; [exact Hm|exact Hu|exact Hy|exact Et|lia]|].
              apply Hu; eapply nth_error_In; exact Et. }
          pose proof (leb_ltb_trans _ _ _ Hle E2) as F.
          rewrite (ltb_not_leb _ _ F) in H2. discriminate. }
        destruct (Z.gtb_spec (cur + 1) l); [lia|]. cbn [bind].
        apply (IH (cur + 1)%Z l k y); try assumption; try lia. split; assumption.
  Qed.

  (** every depth between top and bottom lies in a layer *)
  Lemma s_cover : forall (ls : list (slayer T)) f x, s_meet (f :: ls) -> s_upright (f :: ls) ->
    sl_topDepth f <=? x = true -> x <=? sl_botDepth (last ls f) = true ->
    exists k y, nth_error (f :: ls) k = Some y /\ holds y x.
  Proof.
    induction ls as [|g ls IH]; intros f x Hm Hu H1 H2.
    - exists 0%nat, f. split; [reflexivity|]. split; assumption.
    - destruct (x <=? sl_botDepth f) eqn:E.
      + exists 0%nat, f. split; [reflexivity|]. split; assumption.
      + destruct (IH g x (s_meet_tail _ _ Hm) (s_upright_tail _ _ Hu)) as [k [y [Hy Hh]]].
        * assert (Hf : sl_botDepth f =? sl_topDepth g = true) by (apply (Hm 0%nat); reflexivity).
          eapply ord_trans; [apply eqb_geb; exact Hf|]. apply ltb_leb.
          apply leb_false_ltb; [apply ord_leb_ok in H1; tauto|apply eqb_ok in Hf; tauto|assumption].
        * rewrite last_cons in H2. assumption.
        * exists (S k), y. auto.
  Qed.
  Lemma first_holds : forall (ls : list (slayer T)) f k y, s_meet (f :: ls) -> s_upright (f :: ls) ->
    nth_error (f :: ls) k = Some y -> sl_topDepth f <=? sl_topDepth y = true.
  Proof.
    intros ls f k y Hm Hu Hy. destruct k as [|k].
    - inversion Hy; subst. apply leb_refl. assert (H := Hu y (or_introl eq_refl)). apply ord_leb_ok in H. tauto.
    - eapply ord_trans; [apply Hu; left; reflexivity|].
      eapply s_sorted with (i := 0%nat) (j := S k); [exact Hm|exact Hu|reflexivity|exact Hy|lia].
  Qed.
  Lemma last_holds : forall (ls : list (slayer T)) f k y, s_meet (f :: ls) -> s_upright (f :: ls) ->
    nth_error (f :: ls) k = Some y -> sl_botDepth y <=? sl_botDepth (last ls f) = true.
  Proof.
    induction ls as [|g ls IH]; intros f k y Hm Hu Hy.
    - destruct k as [|[|k]]; try discriminate Hy. inversion Hy; subst. apply leb_refl.
      assert (H := Hu y (or_introl eq_refl)). apply ord_leb_ok in H. tauto.
    - rewrite last_cons. destruct k as [|k].
      + inversion Hy; subst. eapply ord_trans; [apply eqb_leb; apply (Hm 0%nat y g); reflexivity|].
        eapply ord_trans; [apply Hu; right; left; reflexivity|].
        eapply (IH g 0%nat); [eapply s_meet_tail; eassumption|eapply s_upright_tail; eassumption|reflexivity].
      + eapply (IH g k); [eapply s_meet_tail; eassumption|eapply s_upright_tail; eassumption|assumption].
  Qed.

  Lemma py_index_last : forall {A} (l : list A) f, py_index (f :: l) (-1) = Ok (last l f).
  Proof.
    intros A l f. unfold py_index. cbn [List.length]. cbv zeta.
    destruct (Z.ltb_spec (-1) 0); [|lia].
    destruct (Z.ltb_spec (-1 + Z.of_nat (S (List.length l))) 0); [lia|].
    replace (Z.to_nat (-1 + Z.of_nat (S (List.length l)))) with (List.length l) by lia.
    assert (E : nth_error (f :: l) (List.length l) = Some (last l f)).
    { clear. revert f. induction l as [|g l IH]; intros f; [reflexivity|].
      rewrite last_cons. cbn [List.length nth_error]. apply IH. }
    rewrite E. reflexivity.
  Qed.

  (** layerNumForDepth *)
  Lemma lnfd_range : forall fuel (m : smodel T) w f ls x, sm_layers m w = f :: ls ->
    layerNumForDepth fuel m x w =
    if (x <? sl_topDepth f) || (sl_botDepth (last ls f) <? x) then Raise SlownessModelError
    else while fuel (lnfd_body m w x) (0%Z, (Z.of_nat (List.length ls))%Z).
  Proof.
    intros fuel m w f ls x E. unfold layerNumForDepth. rewrite E.
    change (py_index (f :: ls) 0) with (Ok f). cbn [bind].
    destruct (x <? sl_topDepth f); [reflexivity|]. rewrite py_index_last. cbn [bind orb].
    destruct (_ <? _); [reflexivity|]. cbn [List.length]. do 2 f_equal. lia.
  Qed.

  Lemma lnfd_holds : forall fuel (m : smodel T) w x i, s_upright (sm_layers m w) -> n_ok x ->
    layerNumForDepth fuel m x w = Ok i ->
    (0 <= i)%Z /\ exists y, nth_error (sm_layers m w) (Z.to_nat i) = Some y /\ holds y x.
  Proof.
    intros fuel m w x i Hu Hx H. destruct (sm_layers m w) as [|f ls] eqn:E.
    - unfold layerNumForDepth in H. rewrite E in H. discriminate.
    - rewrite (lnfd_range _ _ _ _ _ _ E) in H. destruct (_ || _); [discriminate|].
      rewrite <- E in *. eapply lnfd_sound; [|exact Hu|exact Hx|exact H]. lia.
  Qed.

  Lemma lnfd_total : forall fuel (m : smodel T) w x k y, s_meet (sm_layers m w) -> s_upright (sm_layers m w) ->
    nth_error (sm_layers m w) k = Some y -> holds y x -> (List.length (sm_layers m w) <= fuel)%nat ->
    exists i, layerNumForDepth fuel m x w = Ok i.
  Proof.
    intros fuel m w x k y Hm Hu Hy Hh Hf. destruct (sm_layers m w) as [|f ls] eqn:E.
    - destruct k; discriminate.
    - rewrite (lnfd_range _ _ _ _ _ _ E).
      pose proof (first_holds _ _ _ _ Hm Hu Hy) as A. pose proof (last_holds _ _ _ _ Hm Hu Hy) as B.
      destruct Hh as [H1 H2].
      assert (E1 : x <? sl_topDepth f = false).
      { destruct (x <? sl_topDepth f) eqn:E1; [|reflexivity].
        pose proof (ltb_leb_trans _ _ _ E1 A) as F. rewrite (ltb_not_leb _ _ F) in H1. discriminate. }
      assert (E2 : sl_botDepth (last ls f) <? x = false).
      { destruct (sl_botDepth (last ls f) <? x) eqn:E2; [|reflexivity].
        pose proof (leb_ltb_trans _ _ _ B E2) as F. rewrite (ltb_not_leb _ _ F) in H2. discriminate. }
      rewrite E1, E2. cbn [orb]. rewrite <- E in *.
      assert (Z.of_nat k < Z.of_nat (List.length (sm_layers m w)))%Z.
      { apply inj_lt. apply nth_error_Some. congruence. }
      eapply lnfd_complete; try eassumption; try (rewrite E in *; cbn [List.length] in *; lia).
      split; assumption.
  Qed.

  (** walking to the first / last layer that contains the depth *)
  Lemma walk_up_spec : forall (m : smodel T) w x, s_meet (sm_layers m w) -> s_upright (sm_layers m w) ->
    forall n y, nth_error (sm_layers m w) n = Some y -> holds y x ->
    exists i, walk_up m w x n y = Ok i /\ shallowest (sm_layers m w) x i.
  Proof.
    intros m w x Hm Hu. induction n as [|n IH]; intros y Hy Hh.
    - exists 0%nat. split; [simpl; destruct (_ =? _); reflexivity|]. split; [eauto|]. intros; lia.
    - cbn [walk_up]. destruct (sl_topDepth y =? x) eqn:E.
      + destruct (nth_error (sm_layers m w) n) as [z|] eqn:Ez.
        * assert (Hz : getSlownessLayer m (Z.of_nat n) w = Ok z) by (apply layer_py; assumption).
          rewrite Hz. cbn [bind]. apply IH; [reflexivity|]. pose proof (Hm _ _ _ Ez Hy) as J.
          pose proof (eqb_trans _ _ _ J E) as F. split; [|apply eqb_geb; assumption].
          eapply ord_trans; [apply Hu; eapply nth_error_In; exact Ez|]. apply eqb_leb. exact F.
        * exfalso. apply nth_error_None in Ez.
          assert (S n < List.length (sm_layers m w))%nat by (apply nth_error_Some; congruence). lia.
      + exists (S n). split; [reflexivity|]. split; [eauto|].
        intros j z Hz [_ Hzb]. destruct (Nat.le_gt_cases (S n) j) as [L|L]; [assumption|exfalso].
        pose proof (s_sorted _ _ _ _ _ Hm Hu Hz Hy L) as A. pose proof (ord_trans _ _ _ Hzb A) as B.
        destruct Hh as [H1 _]. rewrite ord_eqb, H1, B in E. discriminate.
  Qed.

  Lemma walk_down_spec : forall (m : smodel T) w x, s_meet (sm_layers m w) -> s_upright (sm_layers m w) ->
    forall k n y, (n + k + 1 = List.length (sm_layers m w))%nat ->
    nth_error (sm_layers m w) n = Some y -> holds y x ->
    exists i, walk_down m w x k (Z.of_nat n) y = Ok (Z.of_nat i) /\ deepest (sm_layers m w) x i.
  Proof.
    intros m w x Hm Hu. induction k as [|k IH]; intros n y Hn Hy Hh.
    - exists n. split; [reflexivity|]. split; [eauto|]. intros j z Hz _.
      assert (j < List.length (sm_layers m w))%nat by (apply nth_error_Some; congruence). lia.
    - cbn [walk_down]. destruct (sl_botDepth y =? x) eqn:E.
      + destruct (nth_error (sm_layers m w) (S n)) as [z|] eqn:Ez.
        * replace (Z.of_nat n + 1)%Z with (Z.of_nat (S n)) by lia.
          assert (Hz : getSlownessLayer m (Z.of_nat (S n)) w = Ok z) by (apply layer_py; assumption).
          rewrite Hz. cbn [bind]. apply IH; [lia|assumption|]. pose proof (Hm _ _ _ Hy Ez) as J.
          rewrite eqb_sym in E. pose proof (eqb_trans _ _ _ E J) as F. split; [apply eqb_geb; assumption|].
          eapply ord_trans; [apply eqb_leb; exact F|]. apply Hu; eapply nth_error_In; exact Ez.
        * exfalso. apply nth_error_None in Ez. lia.
      + exists n. split; [reflexivity|]. split; [eauto|].
        intros j z Hz [Hzt _]. destruct (Nat.le_gt_cases j n) as [L|L]; [assumption|exfalso].
        pose proof (s_sorted _ _ _ _ _ Hm Hu Hy Hz L) as A. pose proof (ord_trans _ _ _ A Hzt) as B.
        destruct Hh as [_ H1]. rewrite ord_eqb, H1, B in E. discriminate.
  Qed.

  Lemma shallowest_unique : forall (ls : list (slayer T)) x i j,
    shallowest ls x i -> shallowest ls x j -> i = j.
  Proof.
    intros ls x i j [[y [Hy Hhy]] Hi] [[z [Hz Hhz]] Hj].
    pose proof (Hi _ _ Hz Hhz). pose proof (Hj _ _ Hy Hhy). lia.
  Qed.
  Lemma deepest_unique : forall (ls : list (slayer T)) x i j,
    deepest ls x i -> deepest ls x j -> i = j.
  Proof.
    intros ls x i j [[y [Hy Hhy]] Hi] [[z [Hz Hhz]] Hj].
    pose proof (Hi _ _ Hz Hhz). pose proof (Hj _ _ Hy Hhy). lia.
  Qed.

  (** success gives the shallowest / deepest layer, for any fuel *)
  Lemma above_sound : forall fuel (m : smodel T) w x i, s_meet (sm_layers m w) -> s_upright (sm_layers m w) ->
    n_ok x -> layerNumberAbove fuel m x w = Ok i ->
    (0 <= i)%Z /\ shallowest (sm_layers m w) x (Z.to_nat i).
  Proof.
    intros fuel m w x i Hm Hu Hx H. unfold layerNumberAbove in H. inv_bind H. inv_bind H. inv_bind H.
    apply lnfd_holds in Ha; [|assumption|assumption]. destruct Ha as [Hi [y [Hy Hh]]].
    apply layer_py_Z in Ha0; [|assumption]. rewrite Hy in Ha0. inversion Ha0; subst v0.
    destruct (walk_up_spec m w x Hm Hu _ _ Hy Hh) as [j [Hj Hs]].
    rewrite Hj in Ha1. inversion Ha1; subst. inversion H; subst. split; [lia|]. rewrite Nat2Z.id. assumption.
  Qed.
  Lemma below_sound : forall fuel (m : smodel T) w x i, s_meet (sm_layers m w) -> s_upright (sm_layers m w) ->
    n_ok x -> layerNumberBelow fuel m x w = Ok i ->
    (0 <= i)%Z /\ deepest (sm_layers m w) x (Z.to_nat i).
  Proof.
    intros fuel m w x i Hm Hu Hx H. unfold layerNumberBelow in H. inv_bind H. inv_bind H.
    apply lnfd_holds in Ha; [|assumption|assumption]. destruct Ha as [Hi [y [Hy Hh]]].
    apply layer_py_Z in Ha0; [|assumption]. rewrite Hy in Ha0. inversion Ha0; subst v0.
    assert (Z.to_nat v < List.length (sm_layers m w))%nat by (apply nth_error_Some; congruence).
    destruct (walk_down_spec m w x Hm Hu (List.length (sm_layers m w) - 1 - Z.to_nat v) (Z.to_nat v) y)
      as [j [Hj Hs]]; [lia|assumption|assumption|].
    rewrite Z2Nat.id in Hj by assumption. rewrite Hj in H. inversion H; subst.
    split; [lia|]. rewrite Nat2Z.id. assumption.
  Qed.
  Lemma above_total : forall fuel (m : smodel T) w x k y, s_meet (sm_layers m w) -> s_upright (sm_layers m w) ->
    nth_error (sm_layers m w) k = Some y -> holds y x -> (List.length (sm_layers m w) <= fuel)%nat ->
    exists i, layerNumberAbove fuel m x w = Ok i.
  Proof.
    intros fuel m w x k y Hm Hu Hy Hh Hf.
    destruct (lnfd_total fuel m w x k y Hm Hu Hy Hh Hf) as [i Hi].
    unfold layerNumberAbove. rewrite Hi. cbn [bind].
    apply lnfd_holds in Hi; [|assumption|destruct Hh as [H _]; apply ord_leb_ok in H; tauto].
    destruct Hi as [Hi [z [Hz Hhz]]].
    assert (E : getSlownessLayer m i w = Ok z) by (apply layer_py_Z; assumption).
    rewrite E. cbn [bind]. destruct (walk_up_spec m w x Hm Hu _ _ Hz Hhz) as [j [Hj _]].
    rewrite Hj. simpl. eauto.
  Qed.
  Lemma below_total : forall fuel (m : smodel T) w x k y, s_meet (sm_layers m w) -> s_upright (sm_layers m w) ->
    nth_error (sm_layers m w) k = Some y -> holds y x -> (List.length (sm_layers m w) <= fuel)%nat ->
    exists i, layerNumberBelow fuel m x w = Ok i.
  Proof.
    intros fuel m w x k y Hm Hu Hy Hh Hf.
    destruct (lnfd_total fuel m w x k y Hm Hu Hy Hh Hf) as [i Hi].
    unfold layerNumberBelow. rewrite Hi. cbn [bind].
    apply lnfd_holds in Hi; [|assumption|destruct Hh as [H _]; apply ord_leb_ok in H; tauto].
    destruct Hi as [Hi [z [Hz Hhz]]].
    assert (E : getSlownessLayer m i w = Ok z) by (apply layer_py_Z; assumption).
    rewrite E. cbn [bind].
    assert (Z.to_nat i < List.length (sm_layers m w))%nat by (apply nth_error_Some; congruence).
    destruct (walk_down_spec m w x Hm Hu (List.length (sm_layers m w) - 1 - Z.to_nat i) (Z.to_nat i) z)
      as [j [Hj _]]; [lia|assumption|assumption|].
    rewrite Z2Nat.id in Hj by assumption. rewrite Hj. eauto.
  Qed.

  Lemma above_iff_s : forall fuel (m : smodel T) w x i, s_meet (sm_layers m w) -> s_upright (sm_layers m w) ->
    n_ok x -> (List.length (sm_layers m w) <= fuel)%nat ->
    (layerNumberAbove fuel m x w = Ok (Z.of_nat i) <-> shallowest (sm_layers m w) x i).
  Proof.
    intros fuel m w x i Hm Hu Hx Hf. split.
    - intros H. apply above_sound in H; [|assumption..]. destruct H as [_ H]. rewrite Nat2Z.id in H. assumption.
    - intros H. pose proof H as [[y [Hy Hh]] _].
      destruct (above_total fuel m w x i y Hm Hu Hy Hh Hf) as [j Hj]. rewrite Hj.
      apply above_sound in Hj; [|assumption..]. destruct Hj as [Hj Hs].
      f_equal. rewrite (shallowest_unique _ _ _ _ H Hs). lia.
  Qed.
  Lemma below_iff_s : forall fuel (m : smodel T) w x i, s_meet (sm_layers m w) -> s_upright (sm_layers m w) ->
    n_ok x -> (List.length (sm_layers m w) <= fuel)%nat ->
    (layerNumberBelow fuel m x w = Ok (Z.of_nat i) <-> deepest (sm_layers m w) x i).
  Proof.
    intros fuel m w x i Hm Hu Hx Hf. split.
    - intros H. apply below_sound in H; [|assumption..]. destruct H as [_ H]. rewrite Nat2Z.id in H. assumption.
    - intros H. pose proof H as [[y [Hy Hh]] _].
      destruct (below_total fuel m w x i y Hm Hu Hy Hh Hf) as [j Hj]. rewrite Hj.
      apply below_sound in Hj; [|assumption..]. destruct Hj as [Hj Hs].
      f_equal. rewrite (deepest_unique _ _ _ _ H Hs). lia.
  Qed.

  (** outside the stack: SlownessModelError, and only there *)
  Lemma search_outside : forall fuel (m : smodel T) w f ls x, sm_layers m w = f :: ls ->
    x <? sl_topDepth f = true \/ sl_botDepth (last ls f) <? x = true ->
    layerNumForDepth fuel m x w = Raise SlownessModelError /\
    layerNumberAbove fuel m x w = Raise SlownessModelError /\
    layerNumberBelow fuel m x w = Raise SlownessModelError.
  Proof.
    intros fuel m w f ls x E H.
    assert (A : layerNumForDepth fuel m x w = Raise SlownessModelError).
    { rewrite (lnfd_range _ _ _ _ _ _ E). destruct H as [H|H]; rewrite H; [reflexivity|].
      rewrite orb_true_r; reflexivity. }
    unfold layerNumberAbove, layerNumberBelow. rewrite A. auto.
  Qed.
  Lemma search_inside : forall fuel (m : smodel T) w f ls x, sm_layers m w = f :: ls ->
    s_meet (sm_layers m w) -> s_upright (sm_layers m w) -> (List.length (sm_layers m w) <= fuel)%nat ->
    sl_topDepth f <=? x = true -> x <=? sl_botDepth (last ls f) = true ->
    exists i j k, layerNumForDepth fuel m x w = Ok i /\
                  layerNumberAbove fuel m x w = Ok j /\ layerNumberBelow fuel m x w = Ok k.
  Proof.
    intros fuel m w f ls x E Hm Hu Hf H1 H2.
    destruct (s_cover ls f x) as [k [y [Hy Hh]]]; try (rewrite <- E; assumption); try assumption.
    rewrite <- E in Hy.
    destruct (lnfd_total fuel m w x k y) as [a Ha]; try assumption.
    destruct (above_total fuel m w x k y) as [b Hb]; try assumption.
    destruct (below_total fuel m w x k y) as [c Hc]; try assumption. eauto 6.
  Qed.
End Search.

(** ** validation *)
Section Validate.
  Context {T : Type} {N : Num T} {O : NumOrd T}.

  Lemma leb_false_iff : forall x y : T, n_ok x -> n_ok y -> (x <=? y = false <-> y <? x = true).
  Proof.
    intros. split; intros H1; [apply leb_false_ltb; assumption|apply ltb_not_leb; assumption].
  Qed.
  Lemma ltb_false_iff : forall x y : T, n_ok x -> n_ok y -> (x <? y = false <-> y <=? x = true).
  Proof.
    intros x y Hx Hy. rewrite ord_ltb by assumption. destruct (y <=? x); simpl; split; congruence.
  Qed.

  Lemma zones_ok_iff : forall (zs : list (drange T)) prev, n_ok prev -> zones_numbers zs ->
    (zones_ok prev zs = true <->
     (forall z, In z zs -> dr_top z <? dr_bot z = true) /\
     (forall i a b, nth_error zs i = Some a -> nth_error zs (S i) = Some b -> dr_bot a <? dr_top b = true) /\
     (forall z, nth_error zs 0 = Some z -> prev <? dr_top z = true)).
  Proof.
    induction zs as [|z zs IH]; intros prev Hp Hn.
    - simpl. split; [|reflexivity]. intros _. split; [intros z []|].
      split; [intros [|i]; discriminate|discriminate].
    - destruct (Hn z (or_introl eq_refl)) as [Ht Hb].
      assert (Hn' : zones_numbers zs) by (intros y Hy; apply Hn; right; assumption).
      cbn [zones_ok]. destruct (dr_top z >=? dr_bot z) eqn:E1.
      { split; [discriminate|]. intros [H _]. specialize (H z (or_introl eq_refl)).
        rewrite (ltb_not_leb _ _ H) in E1. discriminate. }
      apply leb_false_iff in E1; [|assumption..].
      destruct (dr_top z <=? prev) eqn:E2.
      { split; [discriminate|]. intros [_ [_ H]]. specialize (H z eq_refl).
        rewrite (ltb_not_leb _ _ H) in E2. discriminate. }
      apply leb_false_iff in E2; [|assumption..].
      rewrite IH by assumption. split.
      + intros [A [B C]]. split; [|split].
        * intros y [<-|Hy]; auto.
        * intros [|i] a b Ha Hb'; [|eapply B; eassumption].
          inversion Ha; subst. apply C. exact Hb'.
        * intros y Hy. inversion Hy; subst. assumption.
      + intros [A [B C]]. split; [|split].
        * intros y Hy. apply A. right. assumption.
        * intros i a b Ha Hb'. apply (B (S i)); assumption.
        * intros y Hy. apply (B 0%nat z y); [reflexivity|assumption].
  Qed.

  Lemma sl_validate_iff : forall y : slayer T,
    (sl_validate y = Ok true <->
     n_ok (sl_topDepth y) /\ n_ok (sl_botDepth y) /\ n_0 <=? sl_topP y = true /\ n_0 <=? sl_botP y = true /\
     sl_topDepth y <=? sl_botDepth y = true) /\
    (sl_validate y = Ok true \/ sl_validate y = Raise SlownessModelError).
  Proof.
    intros y. unfold sl_validate. rewrite !ord_isnan. unfold n_ok.
    destruct (sl_topDepth y =? sl_topDepth y) eqn:E1; [|cbn; split; [split; [discriminate|tauto + (intros [H _]; discriminate H)]|auto]].
    destruct (sl_botDepth y =? sl_botDepth y) eqn:E2; [|cbn; split; [split; [discriminate|intros [_ [H _]]; discriminate H]|auto]].
    destruct (sl_topP y =? sl_topP y) eqn:E3.
    2:{ cbn. split; [split; [discriminate|]|auto]. intros [_ [_ [H _]]]. apply ord_leb_ok in H.
        destruct H as [_ H]. unfold n_ok in H. congruence. }
    destruct (sl_botP y =? sl_botP y) eqn:E4.
    2:{ cbn. split; [split; [discriminate|]|auto]. intros [_ [_ [_ [H _]]]]. apply ord_leb_ok in H.
        destruct H as [_ H]. unfold n_ok in H. congruence. }
    cbn [negb orb]. pose proof (n_0_ok : n_ok (n_0 : T)) as H0.
    destruct (sl_topP y <? n_0) eqn:A.
    { cbn. split; [|auto]. split; [discriminate|]. intros [_ [_ [H _]]].
      rewrite (ltb_not_leb _ _ A) in H. discriminate. }
    destruct (sl_botP y <? n_0) eqn:B.
    { cbn. split; [|auto]. split; [discriminate|]. intros [_ [_ [_ [H _]]]].
      rewrite (ltb_not_leb _ _ B) in H. discriminate. }
    apply ltb_false_iff in A, B; [|assumption..]. cbn [orb].
    destruct (sl_botDepth y <? sl_topDepth y) eqn:C.
    { split; [|auto]. split; [discriminate|]. intros [_ [_ [_ [_ H]]]].
      rewrite (ltb_not_leb _ _ C) in H. discriminate. }
    apply ltb_false_iff in C; [|assumption..]. split; [|auto]. tauto.
  Qed.

  Lemma slayers_validate_iff : forall radius (ls : list (slayer T)) prevD prevP,
    n_ok radius -> n_ok prevD ->
    (slayers_validate radius prevD prevP ls = Ok tt <->
     (forall y, nth_error ls 0 = Some y -> prevD =? sl_topDepth y = true /\ sl_topP y =? prevP = true) /\
     s_meet ls /\ s_join ls /\
     forall y, In y ls ->
      n_0 <=? sl_topP y = true /\ n_0 <=? sl_botP y = true /\
      sl_topDepth y <=? sl_botDepth y = true /\ sl_botDepth y <=? radius = true) /\
    (slayers_validate radius prevD prevP ls = Ok tt \/
     slayers_validate radius prevD prevP ls = Raise SlownessModelError).
  Proof.
    intros radius. induction ls as [|y ls IH]; intros prevD prevP Hr Hd.
    - simpl. split; [|auto]. split; [|reflexivity]. intros _.
      split; [discriminate|]. split; [intros [|i]; discriminate|]. split; [intros [|i]; discriminate|intros y []].
    - cbn [slayers_validate]. destruct (sl_validate_iff y) as [V [Vo|Vo]]; rewrite Vo; cbn [bind].
      2:{ split; [|auto]. split; [discriminate|]. intros [_ [_ [_ H]]].
          destruct (H y (or_introl eq_refl)) as [A [B [C D]]].
          pose proof (ord_leb_ok _ _ C) as [? ?].
          assert (sl_validate y = Ok true) by (apply V; tauto). congruence. }
      apply V in Vo. destruct Vo as [Ot [Ob [P0 [P1 Le]]]].
      assert (D : (prevD <? sl_topDepth y = false /\ sl_topDepth y <? prevD = false)
                  <-> prevD =? sl_topDepth y = true).
      { rewrite !ltb_false_iff by assumption. rewrite ord_eqb, andb_true_iff. tauto. }
      destruct (prevD <? sl_topDepth y) eqn:E1.
      { split; [|auto]. split; [discriminate|]. intros [H _]. destruct (H y eq_refl) as [H' _].
        apply D in H'. destruct H'. discriminate. }
      destruct (sl_topDepth y <? prevD) eqn:E2.
      { split; [|auto]. split; [discriminate|]. intros [H _]. destruct (H y eq_refl) as [H' _].
        apply D in H'. destruct H'. discriminate. }
      assert (D1 : prevD =? sl_topDepth y = true) by tauto. clear D.
      destruct (sl_topP y =? prevP) eqn:E3; cbn [negb].
      2:{ split; [|auto]. split; [discriminate|]. intros [H _]. destruct (H y eq_refl) as [_ H'].
          congruence. }
      rewrite !ord_isnan. unfold n_ok in Ot, Ob. rewrite Ot, Ob. cbn [negb orb].
      destruct (radius <? sl_botDepth y) eqn:E4.
      { split; [|auto]. split; [discriminate|]. intros [_ [_ [_ H]]].
        destruct (H y (or_introl eq_refl)) as [_ [_ [_ H']]].
        rewrite (ltb_not_leb _ _ E4) in H'. discriminate. }
      apply ltb_false_iff in E4; [|assumption..].
      destruct (IH (sl_botDepth y) (sl_botP y) Hr Ob) as [IHa IHb]. split; [|exact IHb].
      rewrite IHa. split.
      + intros [A [B [C F]]]. split; [|split; [|split]].
        * intros z Hz. inversion Hz; subst. auto.
        * intros [|i] a b Ha Hb'; [|eapply B; eassumption]. inversion Ha; subst. apply A. exact Hb'.
        * intros [|i] a b Ha Hb'; [|eapply C; eassumption]. inversion Ha; subst.
          rewrite eqb_sym. apply A. exact Hb'.
        * intros z [<-|Hz]; auto.
      + intros [A [B [C F]]]. split; [|split; [|split]].
        * intros z Hz. split; [apply (B 0%nat y z); [reflexivity|assumption]|].
          rewrite eqb_sym. apply (C 0%nat y z); [reflexivity|assumption].
        * eapply s_meet_tail; eassumption.
        * eapply s_join_tail; eassumption.
        * intros z Hz. apply F. right. assumption.
  Qed.

  Lemma slayers_check_iff : forall radius (ls : list (slayer T)), n_ok radius ->
    (slayers_check radius ls = Ok tt <-> stack_good radius ls) /\
    (slayers_check radius ls = Ok tt \/ slayers_check radius ls = Raise SlownessModelError).
  Proof.
    intros radius ls Hr. destruct ls as [|f ls].
    - simpl. split; [|auto]. split; [|reflexivity]. intros _. split; [discriminate|].
      split; [intros [|i]; discriminate|]. split; [intros [|i]; discriminate|intros y []].
    - unfold slayers_check. destruct (slayers_validate_iff radius (f :: ls) n_0 (sl_topP f) Hr n_0_ok) as [A B].
      split; [|exact B]. rewrite A. unfold stack_good. split.
      + intros [H [H1 [H2 H3]]]. split; [|tauto]. intros y Hy. apply H. assumption.
      + intros [H [H1 [H2 H3]]]. split; [|tauto]. intros y Hy. inversion Hy; subst. split; [auto|].
        destruct (H3 y (or_introl eq_refl)) as [P _]. apply ord_leb_ok in P. destruct P. assumption.
  Qed.

  Lemma sm_validate_iff : forall m : smodel T,
    n_ok (sm_radius m) -> n_ok (sm_maxDepthInterval m) -> n_ok (- n_lit 1 300 : T) ->
    zones_numbers (sm_hiP m) -> zones_numbers (sm_hiS m) -> zones_numbers (sm_fluid m) ->
    (sm_validate m = Ok true <->
     n_0 <? sm_radius m = true /\ n_0 <? sm_maxDepthInterval m = true /\
     zones_good (sm_hiP m) /\ zones_good (sm_hiS m) /\ zones_good (sm_fluid m) /\
     stack_good (sm_radius m) (sm_P m) /\ stack_good (sm_radius m) (sm_S m)) /\
    (sm_validate m = Ok true \/ sm_validate m = Raise SlownessModelError).
  Proof.
    intros m Hr Hd Hl ZP ZS ZF. unfold sm_validate.
    pose proof (n_0_ok : n_ok (n_0 : T)) as H0.
    destruct (sm_radius m <=? n_0) eqn:E1.
    { split; [|auto]. split; [discriminate|]. intros [H _]. rewrite (ltb_not_leb _ _ H) in E1. discriminate. }
    apply leb_false_iff in E1; [|assumption..].
    destruct (sm_maxDepthInterval m <=? n_0) eqn:E2.
    { split; [|auto]. split; [discriminate|]. intros [_ [H _]]. rewrite (ltb_not_leb _ _ H) in E2. discriminate. }
    apply leb_false_iff in E2; [|assumption..].
    pose proof (zones_ok_iff (sm_hiP m) _ Hl ZP) as A. fold (zones_good (sm_hiP m)) in A.
    pose proof (zones_ok_iff (sm_hiS m) _ Hl ZS) as B. fold (zones_good (sm_hiS m)) in B.
    pose proof (zones_ok_iff (sm_fluid m) _ Hl ZF) as C. fold (zones_good (sm_fluid m)) in C.
    destruct (zones_ok _ (sm_hiP m)) eqn:EA; cbn [negb]; [|split; [|auto]; split; [discriminate|];
      intros [_ [_ [H _]]]; apply A in H; discriminate].
    destruct (zones_ok _ (sm_hiS m)) eqn:EB; cbn [negb]; [|split; [|auto]; split; [discriminate|];
      intros [_ [_ [_ [H _]]]]; apply B in H; discriminate].
    destruct (zones_ok _ (sm_fluid m)) eqn:EC; cbn [negb]; [|split; [|auto]; split; [discriminate|];
      intros [_ [_ [_ [_ [H _]]]]]; apply C in H; discriminate].
    destruct (slayers_check_iff (sm_radius m) (sm_P m) Hr) as [P1 [P2|P2]]; rewrite P2; cbn [bind].
    2:{ split; [|auto]. split; [discriminate|]. intros [_ [_ [_ [_ [_ [H _]]]]]]. apply P1 in H. congruence. }
    destruct (slayers_check_iff (sm_radius m) (sm_S m) Hr) as [S1 [S2|S2]]; rewrite S2; cbn [bind].
    2:{ split; [|auto]. split; [discriminate|]. intros [_ [_ [_ [_ [_ [_ H]]]]]]. apply S1 in H. congruence. }
    split; [|auto]. split; [|reflexivity]. intros _. tauto.
  Qed.

  (** a constructed model has been validated *)
  Lemma createSample_valid : forall {L : Libm T} fuel (m m' : smodel T),
    createSample fuel m = Ok m' -> sm_validate m' = Ok true.
  Proof.
    intros L fuel m m' H. unfold createSample in H.
    inv_as H as ok Hok. destruct (negb ok); [discriminate|]. destruct (_ =? 0)%Z; [discriminate|].
    inv_as H as f Hf. destruct (_ =? _); [discriminate|].
    inv_as H as m1 H1. inv_as H as m2 H2. inv_as H as m3 H3. inv_as H as m4 H4. inv_as H as m5 H5.
    inv_as H as m6 H6. inv_as H as ok' Hv. destruct ok'; inversion H; subst. assumption.
  Qed.
End Validate.

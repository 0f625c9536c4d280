From Coq Require Import ZArith Bool List String Reals Lia Lra Psatz.
From Verif Require Import Base Num VelocityModel VelSpec VelProofs SlownessLayer SlownessModel SlowSpec SlowBuildProofs
  CritSpec SlowRealProofs FindSpec.
Import ListNotations.
Local Open Scope R_scope.

Section Find.
  Variable m : smodel R.
  Variable w : bool.
  Variable p : R.
  Let vm := sm_vMod m.
  Let r := sm_radius m.
  Hypothesis Hc : contiguous (vm_layers vm).
  Hypothesis Ht : thick (vm_layers vm).
  Hypothesis Hl : forall v, In v (vm_layers vm) -> layer_ok v.

  Lemma wvel_top : forall w v, In v (vm_layers vm) -> wvel w v (vl_topDepth v) = if w then vl_topP v else vl_topS v.
  Proof. intros w0 v Hv. assert (X := v_thick vm Ht v Hv). unfold wvel, line. destruct w0; field; lra. Qed.
  Lemma wvel_bot : forall w v, In v (vm_layers vm) -> wvel w v (vl_botDepth v) = if w then vl_botP v else vl_botS v.
  Proof. intros w0 v Hv. assert (X := v_thick vm Ht v Hv). unfold wvel, line. destruct w0; field; lra. Qed.

  Lemma toSlow_iff : forall v x q : R, toSlowness r v x = Ok q <-> v <> 0 /\ q * v = r - x.
  Proof.
    intros v x q. unfold toSlowness. destruct (n_eqb v n_0) eqn:E.
    - apply Reqb_eq in E. rewrite n_0_R in E. split; [discriminate|]. intros [H _]. contradiction.
    - apply Reqb_ne in E. rewrite n_0_R in E. rewrite py_div_R by assumption. cbn [n_sub Num_R]. split.
      + intros H. inversion H. split; [assumption|]. field. assumption.
      + intros [_ H]. f_equal. field_simplify_eq; [|assumption]. lra.
  Qed.
  Lemma slow_top : forall w v q, In v (vm_layers vm) ->
    (slow_at r w v (vl_topDepth v) q <-> toSlowness r (if w : bool then vl_topP v else vl_topS v) (vl_topDepth v) = Ok q).
  Proof. intros w0 v q Hv. unfold slow_at. rewrite (wvel_top w0 v Hv), toSlow_iff. tauto. Qed.
  Lemma slow_bot : forall w v q, In v (vm_layers vm) ->
    (slow_at r w v (vl_botDepth v) q <-> toSlowness r (if w : bool then vl_botP v else vl_botS v) (vl_botDepth v) = Ok q).
  Proof. intros w0 v q Hv. unfold slow_at. rewrite (wvel_bot w0 v Hv), toSlow_iff. tauto. Qed.
  Lemma slow_fun : forall w v x q q', slow_at r w v x q -> slow_at r w v x q' -> q = q'.
  Proof. intros w0 v x q q' [A B] [_ C]. apply (Rmult_eq_reg_r (wvel w0 v x)); [lra|assumption]. Qed.

  Lemma eval_top : forall w (v : vlayer R), evaluateAtTop v (if w : bool then "P"%string else "S"%string) = Ok (if w then vl_topP v else vl_topS v).
  Proof. intros [] v; reflexivity. Qed.
  Lemma eval_bot : forall w (v : vlayer R), evaluateAtBottom v (if w : bool then "P"%string else "S"%string) = Ok (if w then vl_botP v else vl_botS v).
  Proof. intros [] v; reflexivity. Qed.
  Lemma vel_signs : forall w v, In v (vm_layers vm) ->
    0 <= (if w : bool then vl_topP v else vl_topS v) /\ 0 <= (if w : bool then vl_botP v else vl_botS v).
  Proof.
    intros w0 v Hv. destruct (Hl v Hv) as [_ [P1 [P2 [S1 [S2 _]]]]]. rewrite n_0_R in *. apply Rltb_lt in P1, P2. apply Rleb_le in S1, S2.
    destruct w0; lra.
  Qed.

  Lemma in_fluid_iff : forall zs x, in_fluid zs x = true <-> exists z : drange R, In z zs /\ dr_top z <= x < dr_bot z.
  Proof.
    intros zs x. unfold in_fluid. rewrite existsb_exists. split; intros [z [A B]]; exists z; (split; [assumption|]).
    - apply andb_true_iff in B. destruct B as [B1 B2]. apply Rleb_le in B1. apply Rltb_lt in B2. lra.
    - apply andb_true_iff. split; [apply Rleb_le|apply Rltb_lt]; lra.
  Qed.

  (** the affine root *)
  Lemma affine_root : forall (a b va vb z : R), a < b -> 0 < va -> 0 < vb ->
    let s := (vb - va) / (b - a) in p * s + 1 <> 0 ->
    z = (r + p * (a * s - va)) / (p * s + 1) ->
    p * (va + (vb - va) * ((z - a) / (b - a))) = r - z /\
    ((r - a - p * va) * (p * vb - (r - b)) >= 0 -> a <= z <= b).
  Proof.
    intros a b va vb z Hab Ha Hb s Hd Hz.
    assert (E : z * (p * s + 1) = r + p * (a * s - va)) by (rewrite Hz; field; assumption).
    assert (Es : s * (b - a) = vb - va) by (unfold s; field; lra).
    assert (V : (vb - va) * ((z - a) / (b - a)) = s * (z - a)) by (unfold s; field; lra).
    split; [rewrite V; nra|]. intros Q.
    (* (r - a - p va) = (z - a) k, p vb - (r - b) = (b - z) k *)
    set (k := p * s + 1) in *.
    assert (E1 : r - a - p * va = (z - a) * k) by (unfold k in *; nra).
    assert (E2 : p * vb - (r - b) = (b - z) * k) by (unfold k in *; nra).
    rewrite E1, E2 in Q. assert (K : 0 < k * k) by nra.
    assert (Q' : 0 <= (z - a) * (b - z)) by (apply (Rmult_le_reg_r (k * k)); [assumption|]; nra).
    split; nra.
  Qed.

  Definition vlo (v : vlayer R) := if w then vl_topP v else vl_topS v.
  Definition vhi (v : vlayer R) := if w then vl_botP v else vl_botS v.

  (** one iteration *)
  Lemma find_go_step : forall i nums lb top z v, nth_layer (vm_layers vm) i v ->
    findDepth_go vm r (sm_tolerance m) (sm_fluid m) p top w (i :: nums) lb = Ok z ->
    (turns m w p i v /\ turns_at m w p v z) \/
    (~ turns m w p i v /\ exists lb', findDepth_go vm r (sm_tolerance m) (sm_fluid m) p top w nums lb' = Ok z).
  Proof.
    intros i nums lb top z v Hv H. assert (Iv := nth_layer_In _ _ _ Hv). assert (Tv := v_thick vm Ht v Iv).
    cbn [findDepth_go] in H. rewrite (nth_layer_py _ _ _ Hv) in H. cbn [bind] in H.
    rewrite eval_top, eval_bot in H. cbn [bind] in H.
    inv_as H as q1 H1. inv_as H as q2 H2.
    assert (S1 := proj2 (slow_top w v q1 Iv) H1). assert (S2 := proj2 (slow_bot w v q2 Iv) H2).
    assert (NT : near_top m w p v <-> Rabs (q1 - p) < sm_tolerance m).
    { split; [intros [q [A B]]; rewrite (slow_fun _ _ _ _ _ S1 A); exact B|intros B; exists q1; split; assumption]. }
    assert (NB : near_bot m w p v <-> Rabs (q2 - p) < sm_tolerance m).
    { split; [intros [q [A B]]; rewrite (slow_fun _ _ _ _ _ S2 A); exact B|intros B; exists q2; split; assumption]. }
    assert (NI : inside m w p v <-> (q1 <= p <= q2 \/ q2 <= p <= q1)).
    { split; [intros [a [b [A [B C]]]]; rewrite (slow_fun _ _ _ _ _ S1 A), (slow_fun _ _ _ _ _ S2 B); exact C|
        intros B; exists q1, q2; split; [|split]; assumption]. }
    match type of H with (if ?b then _ else _) = _ => destruct b eqn:E1 end.
    { apply Rltb_lt in E1. change (Rabs (q1 - p) < sm_tolerance m) in E1. apply NT in E1. injection H as <-.
      left. split; [left; exact E1|]. split; [reflexivity|]. split; [|split]; intros F; contradiction. }
    apply Rltb_ge in E1. change (~ Rabs (q1 - p) < sm_tolerance m) in E1. rewrite <- NT in E1.
    match type of H with (if ?b then _ else _) = _ => destruct b eqn:E2 end.
    { apply Rltb_lt in E2. change (Rabs (p - q2) < sm_tolerance m) in E2. rewrite Rabs_minus_sym in E2. apply NB in E2. injection H as <-.
      left. split; [right; left; exact E2|]. split; [intros F; contradiction|]. split; [reflexivity|]. split; intros _ F; contradiction. }
    apply Rltb_ge in E2. change (~ Rabs (p - q2) < sm_tolerance m) in E2. rewrite Rabs_minus_sym, <- NB in E2.
    match type of H with (if ?b then _ else _) = _ => destruct b eqn:E3 end.
    { apply Rleb_le in E3. rewrite n_0_R in E3. change (0 <= (q1 - p) * (p - q2)) in E3.
      assert (I : inside m w p v) by (apply NI; clear - E3; destruct (Rle_lt_dec q1 p), (Rle_lt_dec p q2); [left; lra|right; nra|right; nra|right; nra]).
      left. split; [right; right; left; exact I|]. split; [intros F; contradiction|]. split; [intros _ F; contradiction|].
      split; [|intros _ _ F; contradiction]. intros _ _ _.
      inv_as H as sl Hs. cbn [n_sub Num_R] in Hs. rewrite py_div_R in Hs by lra. injection Hs as <-.
      unfold interpolate in H. match type of H with (if ?b then _ else _) = _ => destruct b eqn:E4 end; [discriminate|].
      apply Reqb_ne in E4. rewrite n_0_R, n_1_R in E4. cbn [n_add n_mul Num_R] in E4.
      rewrite n_1_R in H. cbn [n_sub n_add n_mul Num_R] in H. rewrite py_div_R in H by exact E4. injection H as Hz.
      destruct (proj1 (toSlow_iff _ _ _) H1) as [V1 W1]. destruct (proj1 (toSlow_iff _ _ _) H2) as [V2 W2].
      destruct (vel_signs w v Iv) as [P1 P2].
      set (va := if w then vl_topP v else vl_topS v) in *. set (vb := if w then vl_botP v else vl_botS v) in *.
      destruct (affine_root (vl_topDepth v) (vl_botDepth v) va vb z Tv ltac:(lra) ltac:(lra) E4 (eq_sym Hz)) as [R1 R2].
      assert (Wz : wvel w v z = va + (vb - va) * ((z - vl_topDepth v) / (vl_botDepth v - vl_topDepth v))).
      { unfold wvel, line, va, vb. destruct w; reflexivity. }
      assert (B : vl_topDepth v <= z <= vl_botDepth v).
      { apply R2. replace (r - vl_topDepth v - p * va) with ((q1 - p) * va) by (clear - W1; nra).
        replace (p * vb - (r - vl_botDepth v)) with ((p - q2) * vb) by (clear - W2; nra).
        assert (X : 0 < va * vb) by (apply Rmult_lt_0_compat; lra). clear - E3 X. nra. }
      assert (Wp : 0 < wvel w v z).
      { rewrite Wz. set (f := (z - vl_topDepth v) / (vl_botDepth v - vl_topDepth v)).
        assert (F : 0 <= f <= 1).
        { unfold f. split; [apply Rmult_le_pos; [lra|left; apply Rinv_0_lt_compat; lra]|].
          apply (Rmult_le_reg_r (vl_botDepth v - vl_topDepth v)); [lra|]. field_simplify; lra. }
        clear - P1 P2 V1 V2 F. destruct (Rle_lt_dec f (1/2)); nra. }
      assert (Sz : slow_at r w v z p) by (split; [lra|rewrite Wz; exact R1]).
      split; [exact B|exact Sz]. }
    assert (E3' : ~ inside m w p v).
    { intros I. apply NI in I. assert (X := Rleb_le n_0 ((q1 - p) * (p - q2))). rewrite n_0_R in X.
      apply (eq_true_false_abs _ (proj2 X ltac:(clear - I; nra)) ). rewrite <- E3. rewrite n_0_R. reflexivity. }
    match type of H with (if ?b then _ else _) = _ => destruct b eqn:E4 end.
    { exfalso. apply andb_true_iff in E4. destruct E4 as [_ E4]. apply Rltb_lt in E4. change (Rabs (p - q1) < sm_tolerance m) in E4.
      rewrite Rabs_minus_sym in E4. apply E1. apply NT. exact E4. }
    destruct (i <? getNumLayers vm - 1)%Z eqn:E5.
    - apply Z.ltb_lt in E5. unfold getNumLayers in E5.
      inv_as H as u Hu. assert (Hu' : nth_layer (vm_layers vm) (i + 1) u).
      { destruct Hv as [Hi _]. apply py_index_nonneg in Hu; [|lia]. split; [lia|exact Hu]. }
      assert (Iu := nth_layer_In _ _ _ Hu'). rewrite eval_top in H. cbn [bind] in H.
      inv_as H as tv Htv. inv_as H as q3 H3.
      assert (Ew : exists w', tv = (if w' : bool then vl_topP u else vl_topS u) /\ (w = true -> w' = true) /\
                (w = false -> (w' = true <-> exists z, In z (sm_fluid m) /\ dr_top z <= vl_topDepth u < dr_bot z))).
      { destruct w; cbn [negb andb] in Htv.
        - injection Htv as <-. exists true. split; [reflexivity|]. split; [reflexivity|discriminate].
        - destruct (in_fluid (sm_fluid m) (vl_topDepth u)) eqn:Ef.
          + injection Htv as <-. exists true. split; [reflexivity|]. split; [reflexivity|]. intros _. rewrite <- in_fluid_iff, Ef. tauto.
          + injection Htv as <-. exists false. split; [reflexivity|]. split; [discriminate|]. intros _. rewrite <- in_fluid_iff, Ef.
            split; discriminate. }
      destruct Ew as [w' [-> [W1 W2]]].
      assert (S3 := proj2 (slow_top w' u q3 Iu) H3).
      assert (NR : reflected m w p v u <-> q3 <= p <= q2).
      { split.
        - intros [a [b [w2 [A [B [C [D1 D2]]]]]]].
          assert (w2 = w').
          { destruct w; [rewrite W1, D1 by reflexivity; reflexivity|]. specialize (W2 eq_refl). specialize (D2 eq_refl).
            destruct w2, w'; try reflexivity; exfalso; clear - W2 D2; intuition discriminate. }
          subst w2. rewrite (slow_fun _ _ _ _ _ S2 A), (slow_fun _ _ _ _ _ S3 B). exact C.
        - intros C. exists q2, q3, w'. do 3 (split; [assumption|]). split; assumption. }
      match type of H with (if ?b then _ else _) = _ => destruct b eqn:E6 end.
      + apply andb_true_iff in E6. destruct E6 as [E6 E7]. apply Rleb_le in E6, E7. injection H as <-.
        assert (Rf : reflected m w p v u) by (apply NR; lra).
        left. split; [right; right; right; exists u; split; [exact Hu'|exact Rf]|].
        split; [intros F; contradiction|]. split; [intros _ F; contradiction|]. split; [intros _ _ F; contradiction|]. intros _ _ _.
        assert (X := Hc _ _ _ Hv Hu'). apply Reqb_eq in X. symmetry. exact X.
      + right. split.
        * intros [F|[F|[F|[u' [Hu2 F]]]]]; try contradiction. assert (u' = u) by (eapply nth_layer_fun; eassumption). subst u'.
          apply NR in F. apply andb_false_iff in E6. destruct E6 as [E6|E6]; refine (eq_true_false_abs _ _ E6); apply Rleb_le; lra.
        * eexists. exact H.
    - apply Z.ltb_ge in E5. unfold getNumLayers in E5. right. split; [|eexists; exact H].
      intros [F|[F|[F|[u' [[_ Hu2] _]]]]]; try contradiction.
      assert (X : (Z.to_nat (i + 1) < List.length (vm_layers vm))%nat) by (apply nth_error_Some; fold vm in Hu2; congruence). destruct Hv as [Hi _]. lia.
  Qed.

  Lemma find_go_sound : forall nums lb top z,
    (forall i, In i nums -> exists v, nth_layer (vm_layers vm) i v) ->
    findDepth_go vm r (sm_tolerance m) (sm_fluid m) p top w nums lb = Ok z ->
    exists n1 i n2 v, nums = n1 ++ i :: n2 /\ nth_layer (vm_layers vm) i v /\
      turns m w p i v /\ turns_at m w p v z /\
      forall j u, In j n1 -> nth_layer (vm_layers vm) j u -> ~ turns m w p j u.
  Proof.
    induction nums as [|i nums IH]; intros lb top z Hn H.
    - cbn [findDepth_go] in H. destruct lb; [|discriminate]. match type of H with (if ?b then _ else _) = _ => destruct b end; discriminate.
    - destruct (Hn i (or_introl eq_refl)) as [v Hv].
      destruct (find_go_step i nums lb top z v Hv H) as [[A B]|[A [lb' H']]].
      + exists [], i, nums, v. split; [reflexivity|]. split; [exact Hv|]. split; [exact A|]. split; [exact B|]. intros j u [].
      + destruct (IH lb' top z (fun j Hj => Hn j (or_intror Hj)) H') as [n1 [k [n2 [v' [-> [Hk [B [C D]]]]]]]].
        exists (i :: n1), k, n2, v'. split; [reflexivity|]. split; [exact Hk|]. split; [exact B|]. split; [exact C|].
        intros j u [<-|Hj] Hu; [|exact (D j u Hj Hu)]. assert (u = v) by (eapply nth_layer_fun; eassumption). subst u. exact A.
  Qed.

  Lemma zrange_split : forall a b n1 i n2, zrange a b = n1 ++ i :: n2 -> forall j, (a <= j < i)%Z <-> In j n1.
  Proof.
    intros a b n1. revert a. induction n1 as [|k n1 IH]; intros a i n2 E j.
    - destruct (Z_lt_le_dec a b) as [L|L]; [|rewrite zrange_nil in E by lia; discriminate].
      rewrite zrange_cons in E by lia. injection E as E1 _. subst. split; [lia|intros []].
    - destruct (Z_lt_le_dec a b) as [L|L]; [|rewrite zrange_nil in E by lia; discriminate].
      rewrite zrange_cons in E by lia. cbn [app] in E. injection E as E1 E2. subst k.
      assert (Hi : (a + 1 <= i)%Z).
      { assert (In i (zrange (a + 1) b)) by (rewrite E2; apply in_app_iff; right; left; reflexivity). apply zrange_In in H. lia. }
      cbn [In]. rewrite <- (IH (a + 1)%Z i n2 E2 j). lia.
  Qed.

  Lemma layer_order : forall i j u v, (i < j)%Z -> nth_layer (vm_layers vm) i u -> nth_layer (vm_layers vm) j v ->
    vl_botDepth u <= vl_topDepth v.
  Proof.
    intros i j u v Hij Hu Hv.
    assert (G : forall ls, contiguous ls -> thick ls -> forall i j, (i < j)%nat -> forall u v, nth_error ls i = Some u -> nth_error ls j = Some v ->
      vl_botDepth u <= vl_topDepth v).
    { clear. induction ls as [|x ls IH]; intros Hc Ht i j L u v Hi Hj; [destruct i; discriminate|].
      destruct j as [|j]; [lia|]. destruct i as [|i].
      - injection Hi as <-. cbn [nth_error] in Hj. apply nth_error_In in Hj. exact (below_all_R ls x v Hc Ht Hj).
      - apply (IH (contiguous_tail _ _ Hc) (thick_tail _ _ Ht) i j); [lia|exact Hi|exact Hj]. }
    destruct Hu as [A1 A2]. destruct Hv as [B1 B2]. apply (G _ Hc Ht (Z.to_nat i) (Z.to_nat j)); [lia|assumption..].
  Qed.

  Lemma range_covers : forall a b i j, v_layerNumberBelow vm a = Ok i -> v_layerNumberAbove vm b = Ok j ->
    forall k v, nth_layer (vm_layers vm) k v -> ((i <= k <= j)%Z <-> covers a b v).
  Proof.
    intros a b i j Hi Hj k v Hv. apply below_iff in Hi; [|assumption..]. apply above_iff in Hj; [|assumption..].
    destruct Hi as [u1 [U1 [U2 U3]]]. destruct Hj as [u2 [V1 [V2 V3]]]. apply Rleb_le in U2, V3. apply Rltb_lt in U3, V2.
    assert (T := v_thick vm Ht v (nth_layer_In _ _ _ Hv)). unfold covers. split.
    - intros [L1 L2]. split.
      + destruct (Z.eq_dec i k) as [<-|N]; [assert (u1 = v) by (eapply nth_layer_fun; eassumption); subst; lra|].
        assert (X := layer_order i k u1 v ltac:(lia) U1 Hv). lra.
      + destruct (Z.eq_dec k j) as [->|N]; [assert (u2 = v) by (eapply nth_layer_fun; eassumption); subst; lra|].
        assert (X := layer_order k j v u2 ltac:(lia) Hv V1). lra.
    - intros [L1 L2]. split.
      + destruct (Z_lt_le_dec k i) as [N|N]; [|exact N]. assert (X := layer_order k i v u1 N Hv U1). lra.
      + destruct (Z_lt_le_dec j k) as [N|N]; [|exact N]. assert (X := layer_order j k u2 v N V1 Hv). lra.
  Qed.

  Lemma from_depths_eq : forall a b, findDepth_from_depths m p a b w =
    (let! i := v_layerNumberBelow vm a in let! j := v_layerNumberAbove vm b in findDepth m (sm_fluid m) p i j w).
  Proof.
    intros a b. unfold findDepth_from_depths. fold vm. destruct (v_layerNumberBelow vm a) as [i| |] eqn:E; try reflexivity.
    cbn [bind]. apply below_iff in E; [|assumption..]. destruct E as [l [A [B C]]]. rewrite (nth_layer_py _ _ _ A). cbn [bind].
    apply Rltb_lt in C. destruct (n_eqb (vl_botDepth l) a) eqn:E; [apply Reqb_eq in E; lra|reflexivity].
  Qed.

  Lemma find_sound : forall a b z, findDepth_from_depths m p a b w = Ok z ->
    exists i v, nth_layer (vm_layers vm) i v /\ covers a b v /\ turns m w p i v /\ turns_at m w p v z /\
      forall j u, (j < i)%Z -> nth_layer (vm_layers vm) j u -> covers a b u -> ~ turns m w p j u.
  Proof.
    intros a b z H. rewrite from_depths_eq in H. inv_as H as i Hi. inv_as H as j Hj. unfold findDepth in H.
    match type of H with (if ?b then _ else _) = _ => destruct b eqn:E end; [discriminate|]. fold vm r in H.
    apply find_go_sound in H.
    - destruct H as [n1 [k [n2 [v [En [Hv [A [B C]]]]]]]]. exists k, v. split; [exact Hv|].
      assert (Ik : In k (zrange i (j + 1))) by (rewrite En; apply in_app_iff; right; left; reflexivity). apply zrange_In in Ik.
      split; [apply (range_covers a b i j Hi Hj k v Hv); lia|]. split; [exact A|]. split; [exact B|].
      intros l u Hl0 Hu Hcov. apply (C l u); [|exact Hu]. apply (range_covers a b i j Hi Hj l u Hu) in Hcov.
      apply (zrange_split _ _ _ _ _ En). lia.
    - intros k Hk. apply zrange_In in Hk. apply above_iff in Hj; [|assumption..]. destruct Hj as [l [[J1 J2] _]].
      apply below_iff in Hi; [|assumption..]. destruct Hi as [l' [[I1 _] _]].
      assert (X : (Z.to_nat j < List.length (vm_layers vm))%nat) by (apply nth_error_Some; congruence).
      destruct (nth_error (vm_layers vm) (Z.to_nat k)) as [v|] eqn:Ev; [exists v; split; [lia|exact Ev]|].
      apply nth_error_None in Ev. lia.
  Qed.

  (** ** there is a result *)
  Hypothesis Htol : 0 < sm_tolerance m.
  Hypothesis Hf : forall v, In v (vm_layers vm) -> (in_fluid (sm_fluid m) (vl_topDepth v) = true <-> vl_topS v = 0).
  Definition moves (v : vlayer R) : Prop := w = true \/ vl_topS v <> 0.

  Lemma moves_vel : forall v, In v (vm_layers vm) -> moves v ->
    0 < (if w then vl_topP v else vl_topS v) /\ 0 < (if w then vl_botP v else vl_botS v).
  Proof.
    intros v Hv Mv. unfold moves in Mv. destruct (Hl v Hv) as [_ [P1 [P2 [S1 [S2 S3]]]]]. rewrite n_0_R in *. apply Rltb_lt in P1, P2. apply Rleb_le in S1, S2.
    rewrite !Reqb_eq in S3. destruct w; [split; assumption|]. destruct Mv as [F|F]; [discriminate|].
    split; [lra|]. assert (vl_botS v <> 0) by tauto. lra.
  Qed.
  Lemma toSlow_ok : forall v x : R, 0 < v -> toSlowness r v x = Ok ((r - x) / v).
  Proof. intros v x Hv. apply toSlow_iff. split; [lra|]. field. lra. Qed.

  Lemma flat_layer : forall a b va vb t1 t2, a < b -> 0 < va -> 0 < vb -> t1 * va = r - a -> t2 * vb = r - b ->
    p * ((vb - va) / (b - a)) + 1 = 0 -> 0 <= (t1 - p) * (p - t2) -> t1 - p = 0.
  Proof.
    intros a b va vb t1 t2 Hab V1 V2 W1 W2 E4 E3.
    assert (W3 : p * (vb - va) = - (b - a)).
    { replace (p * (vb - va)) with ((p * ((vb - va) / (b - a))) * (b - a)) by (field; lra).
      replace (p * ((vb - va) / (b - a))) with (-1) by lra. ring. }
    assert (W4 : (t1 - p) * va = (t2 - p) * vb) by lra.
    clear - W4 E3 V1 V2. destruct (Rtotal_order (t1 - p) 0) as [C|[C|C]]; [exfalso|exact C|exfalso].
    - assert (t2 - p < 0) by nra. nra.
    - assert (0 < t2 - p) by nra. nra.
  Qed.

  Lemma find_go_found : forall n k lb top v0, nth_layer (vm_layers vm) k v0 ->
    (forall j v, (k <= j <= k + Z.of_nat n)%Z -> nth_layer (vm_layers vm) j v -> moves v) ->
    (exists q, slow_at r w v0 (vl_topDepth v0) q /\ p <= q) ->
    (exists v q, nth_layer (vm_layers vm) (k + Z.of_nat n) v /\ slow_at r w v (vl_botDepth v) q /\ q <= p) ->
    exists z, findDepth_go vm r (sm_tolerance m) (sm_fluid m) p top w (zrange k (k + Z.of_nat n + 1)) lb = Ok z.
  Proof.
    induction n as [|n IH]; intros k lb top v Hv Hmv [q1 [S1 P1]] Last.
    all: assert (Iv := nth_layer_In _ _ _ Hv); assert (Tv := v_thick vm Ht v Iv).
    all: rewrite zrange_cons by lia; cbn [findDepth_go]; rewrite (nth_layer_py _ _ _ Hv); cbn [bind]; rewrite eval_top, eval_bot; cbn [bind].
    all: destruct (moves_vel v Iv (Hmv k v ltac:(lia) Hv)) as [V1 V2].
    all: set (va := if w then vl_topP v else vl_topS v) in *; set (vb := if w then vl_botP v else vl_botS v) in *.
    all: rewrite (toSlow_ok va) by exact V1; rewrite (toSlow_ok vb) by exact V2; cbn [bind].
    all: set (t1 := (r - vl_topDepth v) / va) in *; set (t2 := (r - vl_botDepth v) / vb) in *.
    all: assert (S1' : slow_at r w v (vl_topDepth v) t1) by (apply slow_top; [exact Iv|apply toSlow_ok; exact V1]).
    all: assert (S2' : slow_at r w v (vl_botDepth v) t2) by (apply slow_bot; [exact Iv|apply toSlow_ok; exact V2]).
    all: assert (q1 = t1) by exact (slow_fun _ _ _ _ _ S1 S1'); subst q1.
    all: match goal with |- exists z, (if ?b then _ else _) = _ => destruct b eqn:E1 end; [eexists; reflexivity|].
    all: match goal with |- exists z, (if ?b then _ else _) = _ => destruct b eqn:E2 end; [eexists; reflexivity|].
    all: apply Rltb_ge in E1; change (~ Rabs (t1 - p) < sm_tolerance m) in E1.
    all: match goal with |- exists z, (if ?b then _ else _) = _ => destruct b eqn:E3 end.
    1,3: cbn [n_sub Num_R]; rewrite py_div_R by lra; cbn [bind]; unfold interpolate.
    1,2: match goal with |- exists z, (if ?b then _ else _) = _ => destruct b eqn:E4 end;
      [exfalso|apply Reqb_ne in E4; rewrite n_0_R in E4; rewrite py_div_R by exact E4; eexists; reflexivity].
    1,2: apply Reqb_eq in E4; rewrite n_0_R, n_1_R in E4; cbn [n_add n_mul Num_R] in E4;
      apply Rleb_le in E3; rewrite n_0_R in E3; change (0 <= (t1 - p) * (p - t2)) in E3;
      apply E1; assert (W1 : t1 * va = r - vl_topDepth v) by (unfold t1; field; lra);
      assert (W2 : t2 * vb = r - vl_botDepth v) by (unfold t2; field; lra);
      assert (W5 := flat_layer (vl_topDepth v) (vl_botDepth v) va vb t1 t2 Tv V1 V2 W1 W2 E4 E3);
      rewrite W5, Rabs_R0; exact Htol.
    all: assert (B : p < t2) by (destruct (Rle_lt_dec t2 p) as [C|C]; [exfalso|exact C]; refine (eq_true_false_abs _ _ E3);
      apply Rleb_le; rewrite n_0_R; change (0 <= (t1 - p) * (p - t2)); clear - C P1; nra).
    - exfalso. destruct Last as [v' [q [Hv' [Sq Hq]]]]. rewrite Z.add_0_r in Hv'. assert (v' = v) by (eapply nth_layer_fun; eassumption). subst v'.
      assert (q = t2) by exact (slow_fun _ _ _ _ _ Sq S2'). lra.
    - match goal with |- exists z, (if ?b then _ else _) = _ => destruct b eqn:E4 end; [eexists; reflexivity|].
      assert (Hu : exists u, nth_layer (vm_layers vm) (k + 1) u).
      { destruct Last as [v' [q [[L1 L2] _]]]. assert (X : (Z.to_nat (k + Z.of_nat (S n)) < List.length (vm_layers vm))%nat) by (apply nth_error_Some; congruence).
        destruct Hv as [Hk _]. destruct (nth_error (vm_layers vm) (Z.to_nat (k + 1))) as [u|] eqn:Eu; [exists u; split; [lia|exact Eu]|].
        apply nth_error_None in Eu. lia. }
      destruct Hu as [u Hu]. assert (Iu := nth_layer_In _ _ _ Hu).
      assert (E5 : (k <? getNumLayers vm - 1)%Z = true).
      { apply Z.ltb_lt. unfold getNumLayers. destruct Hu as [Hk Hu]. destruct Hv as [Hk' _].
        assert (X : (Z.to_nat (k + 1) < List.length (vm_layers vm))%nat) by (apply nth_error_Some; congruence). lia. }
      rewrite E5, (nth_layer_py _ _ _ Hu). cbn [bind]. rewrite eval_top. cbn [bind].
      assert (Mu := Hmv (k + 1)%Z u ltac:(lia) Hu). destruct (moves_vel u Iu Mu) as [U1 U2].
      assert (Etv : negb w && in_fluid (sm_fluid m) (vl_topDepth u) = false).
      { unfold moves in Mu. destruct w eqn:Ew; [reflexivity|]. cbn [negb andb]. destruct (in_fluid (sm_fluid m) (vl_topDepth u)) eqn:Ef; [|reflexivity].
        exfalso. apply (Hf u Iu) in Ef. destruct Mu as [Mu|Mu]; [discriminate|exact (Mu Ef)]. }
      rewrite Etv. cbn [bind]. rewrite (toSlow_ok _ _ U1). cbn [bind].
      match goal with |- exists z, (if ?b then _ else _) = _ => destruct b eqn:E6 end; [eexists; reflexivity|].
      replace (k + Z.of_nat (S n) + 1)%Z with (k + 1 + Z.of_nat n + 1)%Z by lia.
      apply (IH (k + 1)%Z (Some t2) top u Hu).
      + intros j v' Hj. apply Hmv. lia.
      + exists ((r - vl_topDepth u) / (if w then vl_topP u else vl_topS u)). split.
        * apply slow_top; [exact Iu|apply toSlow_ok; exact U1].
        * apply andb_false_iff in E6. destruct E6 as [E6|E6].
          -- exfalso. refine (eq_true_false_abs _ _ E6). apply Rleb_le. lra.
          -- destruct (Rle_lt_dec p ((r - vl_topDepth u) / (if w then vl_topP u else vl_topS u))) as [C|C]; [exact C|exfalso].
             refine (eq_true_false_abs _ _ E6). apply Rleb_le. lra.
      + destruct Last as [v' [q [L1 L2]]]. exists v', q. replace (k + 1 + Z.of_nat n)%Z with (k + Z.of_nat (S n))%Z by lia. split; assumption.
  Qed.
End Find.

Lemma runs_cover : forall (ls : list (vlayer R)) zs v, fluid_runs ls zs -> contiguous ls -> thick ls ->
  In v ls -> fluid_layer v -> exists z, In z zs /\ dr_top z <= vl_topDepth v < dr_bot z.
Proof.
  intros ls zs v H. induction H as [|u ls zs Hn H IH|u run rest zs Hr Hs H IH]; intros Hc Ht Hv Fv; [destruct Hv| |].
  - destruct Hv as [<-|Hv]; [contradiction|]. apply IH; [eapply contiguous_tail; exact Hc|eapply thick_tail; exact Ht|exact Hv|exact Fv].
  - apply in_app_iff in Hv. destruct Hv as [Hv|Hv].
    + exists (mkDR (vl_topDepth u) (vl_botDepth (last run u)) (- 1)). split; [left; cbn [n_opp Num_R]; rewrite n_1_R; reflexivity|]. cbn [dr_top dr_bot].
      assert (Hc' : contiguous (u :: run)).
      { intros i a b Ha Hb. apply (Hc i a b); destruct Ha as [A1 A2]; destruct Hb as [B1 B2]; (split; [assumption|]); rewrite nth_error_app1; try assumption; apply nth_error_Some; congruence. }
      assert (Ht' : thick (u :: run)) by (intros y Hy; apply Ht; apply in_app_iff; left; exact Hy).
      split.
      * apply Rleb_le. apply (first_top run u Hc' Ht'). exact Hv.
      * assert (X := last_bot run u Hc' Ht' v Hv). apply Rleb_le in X.
        assert (Y := Ht' v Hv). apply Rltb_lt in Y. lra.
    + destruct (IH (contiguous_app_r _ _ Hc) (thick_app_r _ _ Ht) Hv Fv) as [z [A B]]. exists z. split; [right; exact A|exact B].
Qed.

Section Found.
  Variable m : smodel R.
  Variable w : bool.
  Variable p : R.
  Let vm := sm_vMod m.
  Hypothesis Hc : contiguous (vm_layers vm).
  Hypothesis Ht : thick (vm_layers vm).
  Hypothesis Hl : forall v, In v (vm_layers vm) -> layer_ok v.

  Lemma not_cut : forall v x, In v (vm_layers vm) -> layer_end vm x -> ~ (vl_topDepth v < x < vl_botDepth v).
  Proof.
    intros v x Hv [u [Hu Hx]] H. destruct (In_nth_layer vm v Hv) as [i Hi]. destruct (In_nth_layer vm u Hu) as [j Hj].
    assert (Tu := v_thick vm Ht u Hu).
    destruct (Ztrichotomy i j) as [L|[L|L]].
    - assert (X := layer_order m Hc Ht i j v u L Hi Hj). lra.
    - subst j. assert (u = v) by (eapply nth_layer_fun; eassumption). subst. lra.
    - assert (X := layer_order m Hc Ht j i u v ltac:(lia) Hj Hi). lra.
  Qed.
  Lemma find_between : forall a b z, layer_end vm a -> layer_end vm b ->
    findDepth_from_depths m p a b w = Ok z -> a <= z <= b.
  Proof.
    intros a b z Ha Hb H. apply find_sound in H; [|assumption..].
    destruct H as [i [v [Hv [[C1 C2] [_ [[Z1 [Z2 [Z3 Z4]]] _]]]]]].
    assert (Iv := nth_layer_In _ _ _ Hv). assert (Tv := v_thick vm Ht v Iv).
    assert (A : a <= vl_topDepth v) by (destruct (Rle_lt_dec a (vl_topDepth v)) as [L|L]; [exact L|exfalso; apply (not_cut v a Iv Ha); lra]).
    assert (B : vl_botDepth v <= b) by (destruct (Rle_lt_dec (vl_botDepth v) b) as [L|L]; [exact L|exfalso; apply (not_cut v b Iv Hb); lra]).
    destruct (Classical_Prop.classic (near_top m w p v)) as [N1|N1]; [specialize (Z1 N1); lra|].
    destruct (Classical_Prop.classic (near_bot m w p v)) as [N2|N2]; [specialize (Z2 N1 N2); lra|].
    destruct (Classical_Prop.classic (inside m w p v)) as [N3|N3]; [specialize (Z3 N1 N2 N3); lra|]. specialize (Z4 N1 N2 N3). lra.
  Qed.

  Lemma find_found : forall a b i j u v,
    0 < sm_tolerance m -> fluid_runs (vm_layers vm) (sm_fluid m) -> a < b ->
    nth_layer (vm_layers vm) i u -> vl_topDepth u <= a < vl_botDepth u ->
    nth_layer (vm_layers vm) j v -> vl_topDepth v < b <= vl_botDepth v ->
    (forall x, In x (vm_layers vm) -> covers a b x -> w = true \/ vl_topS x <> 0) ->
    (exists q, slow_at (sm_radius m) w u (vl_topDepth u) q /\ p <= q) ->
    (exists q, slow_at (sm_radius m) w v (vl_botDepth v) q /\ q <= p) ->
    exists z, findDepth_from_depths m p a b w = Ok z.
  Proof.
    intros a b i j u v Tol Fl Hab Hi Hu Hj Hv Mv Su Sv.
    assert (Bi : v_layerNumberBelow vm a = Ok i).
    { apply below_iff; [assumption..|]. exists u. split; [exact Hi|]. split; [apply Rleb_le|apply Rltb_lt]; lra. }
    assert (Bj : v_layerNumberAbove vm b = Ok j).
    { apply above_iff; [assumption..|]. exists v. split; [exact Hj|]. split; [apply Rltb_lt|apply Rleb_le]; lra. }
    rewrite from_depths_eq by assumption. fold vm. rewrite Bi, Bj. cbn [bind]. unfold findDepth. fold vm.
    assert (Lij : (i <= j)%Z).
    { destruct (Z_lt_le_dec j i) as [L|L]; [exfalso|exact L]. assert (X := layer_order m Hc Ht j i v u L Hj Hi). lra. }
    assert (E : (i >? j)%Z = false) by (rewrite Z.gtb_ltb; apply Z.ltb_ge; exact Lij). rewrite E.
    replace (j + 1)%Z with (i + Z.of_nat (Z.to_nat (j - i)) + 1)%Z by lia.
    apply (find_go_found m w p Ht Hl Tol) with (v0 := u).
    - intros x Hx. rewrite in_fluid_iff. split.
      + intros [z [A B]]. assert (F := runs_fluid _ _ _ _ Fl Hc Ht A Hx B). apply Reqb_eq in F. rewrite n_0_R in F. exact F.
      + intros F. apply (runs_cover _ _ _ Fl Hc Ht Hx). apply Reqb_eq. rewrite n_0_R. exact F.
    - exact Hi.
    - intros k x Hk Hx. apply Mv; [eapply nth_layer_In; exact Hx|]. apply (range_covers m Hc Ht a b i j Bi Bj k x Hx). lia.
    - exact Su.
    - exists v. destruct Sv as [q Sv]. exists q. split; [|exact Sv]. replace (i + Z.of_nat (Z.to_nat (j - i)))%Z with j by lia. exact Hj.
  Qed.
End Found.

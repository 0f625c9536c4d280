(** Proofs about sampling over the real numbers: the samples lie on the velocity model. *)
From Coq Require Import ZArith Bool List String Reals Lia Lra.
From Verif Require Import Base Num PyStr VelocityModel VelSpec VelProofs SlownessLayer SlownessModel
  SlowSpec SlowProofs SlowAddProofs CalcTimeProofs SlowBuildProofs CritSpec CritProofs.
Import ListNotations.
Local Open Scope list_scope.
Local Open Scope R_scope.

Lemma Reqb_eq : forall a b : R, n_eqb a b = true <-> a = b.
Proof. exact Reqb_true. Qed.
Lemma Rleb_le : forall a b : R, n_leb a b = true <-> a <= b.
Proof. exact Rleb_true. Qed.
Lemma Rltb_lt : forall a b : R, n_ltb a b = true <-> a < b.
Proof. exact Rltb_true. Qed.

Lemma Reqb_ne : forall a b : R, n_eqb a b = false <-> a <> b.
Proof. exact Reqb_false. Qed.
Lemma Rltb_ge : forall a b : R, n_ltb a b = false <-> ~ a < b.
Proof. intros. rewrite <- Rltb_lt. destruct (n_ltb a b); split; congruence. Qed.

Section OnModel.
  Variable vm : vmodel R.
  Hypothesis Hc : contiguous (vm_layers vm).
  Hypothesis Ht : thick (vm_layers vm).
  Hypothesis Hl : forall v, In v (vm_layers vm) -> layer_ok v.

  Lemma v_thick : forall v, In v (vm_layers vm) -> vl_topDepth v < vl_botDepth v.
  Proof. intros v Hv. apply Rltb_lt, Ht, Hv. Qed.
  Lemma In_nth_layer : forall v, In v (vm_layers vm) -> exists i, nth_layer (vm_layers vm) i v.
  Proof.
    intros v Hv. apply In_nth_error in Hv. destruct Hv as [i Hi]. exists (Z.of_nat i).
    split; [lia|]. rewrite Nat2Z.id. assumption.
  Qed.

  (** velocities just inside a velocity layer *)
  Lemma eval_below_in : forall v x w, In v (vm_layers vm) -> vl_topDepth v <= x < vl_botDepth v ->
    evaluateBelow vm x (if w : bool then "P"%string else "S"%string) = Ok (wvel w v x).
  Proof.
    intros v x w Hv Hx. destruct (In_nth_layer v Hv) as [i Hi]. apply evaluateBelow_iff; [assumption..|].
    destruct w.
    - exists i, v, (vl_topP v), (vl_botP v). split; [assumption|]. split; [assumption|].
      split; [apply values_iff; reflexivity|reflexivity].
    - exists i, v, (vl_topS v), (vl_botS v). split; [assumption|]. split; [assumption|].
      split; [apply values_iff; reflexivity|reflexivity].
  Qed.
  Lemma eval_above_in : forall v x w, In v (vm_layers vm) -> vl_topDepth v < x <= vl_botDepth v ->
    evaluateAbove vm x (if w : bool then "P"%string else "S"%string) = Ok (wvel w v x).
  Proof.
    intros v x w Hv Hx. destruct (In_nth_layer v Hv) as [i Hi]. apply evaluateAbove_iff; [assumption..|].
    destruct w.
    - exists i, v, (vl_topP v), (vl_botP v). split; [assumption|]. split; [assumption|].
      split; [apply values_iff; reflexivity|reflexivity].
    - exists i, v, (vl_topS v), (vl_botS v). split; [assumption|]. split; [assumption|].
      split; [apply values_iff; reflexivity|reflexivity].
  Qed.

  Lemma wvel_pos : forall (w : bool) v x, In v (vm_layers vm) -> vl_topDepth v <= x <= vl_botDepth v ->
    w = true \/ vl_topS v <> 0 -> 0 < wvel w v x.
  Proof.
    intros w v x Hv Hx Hw. pose proof (v_thick v Hv) as Tv. pose proof (Hl v Hv) as [_ [P1 [P2 [S1 [S2 S3]]]]].
    rewrite n_0_R in *. apply Rltb_lt in P1, P2. apply Rleb_le in S1, S2.
    assert (S4 : vl_topS v = 0 <-> vl_botS v = 0) by (rewrite <- !Reqb_eq; exact S3).
    unfold wvel. destruct w.
    - pose proof (line_between _ (vl_topP v) _ (vl_botP v) x Tv Hx) as [B _].
      eapply Rlt_le_trans; [|exact B]. apply Rmin_pos; assumption.
    - destruct Hw as [Hw|Hw]; [discriminate|].
      pose proof (line_between _ (vl_topS v) _ (vl_botS v) x Tv Hx) as [B _].
      eapply Rlt_le_trans; [|exact B]. apply Rmin_pos; [lra|].
      destruct (Req_dec (vl_botS v) 0) as [E|E]; [apply S4 in E; contradiction|lra].
  Qed.
  Lemma wvel_fluid : forall v x, In v (vm_layers vm) -> vl_topS v = 0 -> wvel false v x = 0.
  Proof.
    intros v x Hv E. pose proof (Hl v Hv) as [_ [_ [_ [_ [_ S3]]]]].
    rewrite n_0_R in *. assert (S4 : vl_topS v = 0 <-> vl_botS v = 0) by (rewrite <- !Reqb_eq; exact S3).
    assert (E' : vl_botS v = 0) by (apply S4; assumption). unfold wvel, line. rewrite E, E'. ring.
  Qed.
  Lemma wvel_lin : forall w v x t b, vl_topDepth v < vl_botDepth v -> t < b ->
    wvel w v x = wvel w v t + (wvel w v b - wvel w v t) / (b - t) * (x - t).
  Proof. intros w v x t b H1 H2. unfold wvel, line. destruct w; field; lra. Qed.

  (** the cut *)
  Lemma split_on_layer : forall w v y p tv bv n a b r, In v (vm_layers vm) ->
    w = true \/ vl_topS v <> 0 ->
    on_layer r w v y -> sl_topDepth y < sl_botDepth y ->
    layer_velocities vm w y = Ok (tv, bv) -> spans y p ->
    split_pair r p tv bv y n = Ok (a, b) ->
    sl_topDepth y < sl_botDepth a < sl_botDepth y /\ on_layer r w v a /\ on_layer r w v b.
  Proof.
    intros w v y p tv bv n a b r Hv Hw [O1 [O2 [O3 O4]]] Ty HV Hs H.
    pose proof (v_thick v Hv) as Tv.
    pose proof (split_pair_halves _ _ _ _ _ _ _ _ H) as [[A1 [A2 [A3 [A4 [A5 [A6 A7]]]]]] _].
    assert (EV : tv = wvel w v (sl_topDepth y) /\ bv = wvel w v (sl_botDepth y)).
    { unfold layer_velocities in HV.
      assert (E : n_eqb (sl_topDepth y) (sl_botDepth y) = false) by (apply Reqb_false; lra).
      rewrite E in HV. cbn [negb] in HV.
      rewrite (eval_below_in v) in HV by (try assumption; lra).
      rewrite (eval_above_in v) in HV by (try assumption; lra). cbn [bind] in HV. inversion HV. auto. }
    destruct EV as [-> ->].
    pose proof (wvel_pos w v (sl_topDepth y) Hv ltac:(lra) Hw) as PT.
    pose proof (wvel_pos w v (sl_botDepth y) Hv ltac:(lra) Hw) as PB.
    set (t := sl_topDepth y) in *. set (bo := sl_botDepth y) in *.
    set (Vt := wvel w v t) in *. set (Vb := wvel w v bo) in *.
    unfold spans in Hs. apply Rltb_lt in Hs. rewrite n_0_R in Hs.
    cbn [n_mul n_sub Num_R] in Hs.
    unfold split_pair in H. fold t bo in H.
    assert (E : n_eqb bo t = false) by (apply Reqb_false; lra). rewrite E in H. cbn [negb] in H.
    inv_as H as z Hz. inv_as Hz as sl Hsl.
    apply py_div_R_inv in Hsl. destruct Hsl as [_ Esl]. cbn [n_sub Num_R] in Esl.
    unfold interpolate in Hz. rewrite n_1_R, n_0_R in Hz.
    match type of Hz with (if ?b then _ else _) = _ => destruct b; [discriminate|] end.
    apply py_div_R_inv in Hz. destruct Hz as [Nz Ez]. cbn [n_add n_sub n_mul Num_R] in Nz, Ez.
    assert (Eza : sl_botDepth a = z).
    { inv_as H as bb Hb. inv_as H as aa Ha. inversion H; subst aa bb. unfold new_slayer in Ha, Hb.
      if_in Ha; [|discriminate]. if_in Ha; inversion Ha; subst. reflexivity. }
    assert (Gz : p * wvel w v z = r - z).
    { rewrite (wvel_lin w v z t bo Tv Ty). fold Vt Vb. rewrite <- Esl.
      assert (Ez' : z * (p * sl + 1) = r + p * (t * sl - Vt)) by (rewrite Ez; field; assumption). lra. }
    assert (In1 : t < z < bo).
    { pose proof (wvel_lin w v z t bo Tv Ty) as Lz. fold Vt Vb in Lz.
      (* g x = r - x - p V(x) is linear, with opposite signs at the ends *)
      set (L := (z - t) / (bo - t)).
      assert (Hz1 : z = t + L * (bo - t)) by (unfold L; field; lra).
      assert (HVz : wvel w v z = Vt + L * (Vb - Vt)) by (rewrite Lz; unfold L; field; lra).
      assert (G0 : (1 - L) * ((sl_topP y - p) * Vt) + L * ((sl_botP y - p) * Vb) = 0).
      { replace ((sl_topP y - p) * Vt) with (r - t - p * Vt) by lra.
        replace ((sl_botP y - p) * Vb) with (r - bo - p * Vb) by lra.
        rewrite HVz, Hz1 in Gz. lra. }
      set (X := (sl_topP y - p) * Vt) in *. set (Y := (sl_botP y - p) * Vb) in *.
      assert (XY : X * Y < 0).
      { unfold X, Y. replace ((sl_topP y - p) * Vt * ((sl_botP y - p) * Vb)) with
          (- (((sl_topP y - p) * (p - sl_botP y)) * (Vt * Vb))) by ring.
        assert (0 < Vt * Vb) by (apply Rmult_lt_0_compat; assumption).
        assert (0 < (sl_topP y - p) * (p - sl_botP y) * (Vt * Vb)) by (apply Rmult_lt_0_compat; assumption).
        lra. }
      assert (LL : 0 < L < 1).
      { destruct (Rlt_le_dec X 0) as [HX|HX].
        - assert (HY : 0 < Y) by (destruct (Rlt_le_dec 0 Y); [assumption|exfalso; assert (0 <= X * Y) by nra; lra]).
          split; nra.
        - assert (HX' : 0 < X) by (destruct HX as [HX|HX]; [assumption|rewrite <- HX in XY; lra]).
          assert (HY : Y < 0) by (destruct (Rlt_le_dec Y 0); [assumption|exfalso; assert (0 <= X * Y) by nra; lra]).
          split; nra. }
      rewrite Hz1. split; nra. }
    rewrite Eza in *. split; [assumption|]. unfold on_layer.
    rewrite A1, A2, A3, A4, A6, A7, <- A5, Eza. fold t bo.
    split; (split; [lra|]; split; [lra|]; split; assumption).
  Qed.

  Lemma fluid_not_cut : forall v y, In v (vm_layers vm) -> vl_topS v = 0 ->
    vl_topDepth v <= sl_topDepth y -> sl_botDepth y <= vl_botDepth v -> sl_topDepth y < sl_botDepth y ->
    fluid_there vm y.
  Proof.
    intros v y Hv E H1 H2 H3. exists 0. split; [apply Reqb_eq; rewrite n_0_R; reflexivity|]. left.
    split; [apply Reqb_false; lra|].
    rewrite (eval_below_in v (sl_topDepth y) false Hv) by lra. rewrite wvel_fluid by assumption. reflexivity.
  Qed.

  Lemma split_zero : forall w y p tv bv n a b r, sl_topDepth y = sl_botDepth y ->
    layer_velocities vm w y = Ok (tv, bv) -> split_pair r p tv bv y n = Ok (a, b) ->
    sl_topDepth a = sl_botDepth a /\ sl_topDepth b = sl_botDepth b.
  Proof.
    intros w y p tv bv n a b r E _ H.
    pose proof (split_pair_halves _ _ _ _ _ _ _ _ H) as [[A1 [A2 [A3 [A4 [A5 [A6 A7]]]]]] _].
    unfold split_pair in H. assert (E' : n_eqb (sl_botDepth y) (sl_topDepth y) = true) by (apply Reqb_eq; auto).
    rewrite E' in H. cbn [negb bind] in H.
    assert (Eza : sl_botDepth a = sl_botDepth y).
    { inv_as H as bb Hb. inv_as H as aa Ha. inversion H; subst aa bb. unfold new_slayer in Ha, Hb.
      if_in Ha; [|discriminate]. if_in Ha; inversion Ha; subst. reflexivity. }
    split; congruence.
  Qed.

  Lemma halves_upright : forall (p : R) y a b, halves p y a b ->
    sl_topDepth a = sl_topDepth y /\ sl_topDepth b = sl_botDepth a /\ sl_botDepth b = sl_botDepth y.
  Proof. intros p y a b [A1 [A2 [A3 [A4 [A5 [A6 A7]]]]]]. auto. Qed.

  Lemma s_inv_cuts : forall m p w m', well_sampled vm m -> ids_ok m ->
    (forall y, In y (sm_P m) \/ In y (sm_S m) -> sl_topDepth y <= sl_botDepth y) ->
    addSlowness m p w = Ok m' -> (well_sampled vm m' /\
    (forall y, In y (sm_P m') \/ In y (sm_S m') -> sl_topDepth y <= sl_botDepth y)) /\
    exists f, (forall v, sm_layers m' v = splice f (sm_layers m v)) /\
      forall v y a b, In y (sm_layers m v) -> f (sl_id y) = Some (a, b) -> spans y p /\ halves p y a b /\
        (sl_topDepth y < sl_botDepth y -> sl_topDepth a < sl_botDepth a /\ sl_topDepth b < sl_botDepth b).
  Proof.
    intros m p w m' [I1 [I2 [IP IS]]] Hid Up H.
    assert (Hid2 := Hid). apply addSlowness_spec0 in H; [|assumption].
    destruct H as [Hid' [Hn [SS [f [A [B [C [D E]]]]]]]].
    destruct SS as [V [_ [_ [_ [_ [_ [Inn [_ [R _]]]]]]]]].
    rewrite I1, I2 in *.
    destruct Hid2 as [ND1 [ND2 [Lt Ag]]].
    (* every cut: where, and what comes out *)
    assert (Cut : forall y a b, In y (sm_layers m w) -> f (sl_id y) = Some (a, b) ->
      (sm_next m <= sl_id a)%Z /\ (sm_next m <= sl_id b)%Z /\
      ((sl_topDepth y = sl_botDepth y /\ sl_topDepth a = sl_botDepth a /\ sl_topDepth b = sl_botDepth b) \/
       (sl_topDepth y < sl_botDepth y /\ sl_topDepth a < sl_botDepth a /\ sl_topDepth b < sl_botDepth b /\
        (w = false -> ~ In (sl_id y) (map sl_id (sm_P m)) /\
                      exists v, In v (vm_layers vm) /\ on_layer (vm_radius vm) false v a /\ on_layer (vm_radius vm) false v b /\
                        ~ uses_P vm (sm_allowInnerCoreS m) v) /\
        (w = true -> (forall v, In v (vm_layers vm) -> on_layer (vm_radius vm) true v y ->
                        on_layer (vm_radius vm) true v a /\ on_layer (vm_radius vm) true v b))))).
    { intros y a b Hy F. destruct (D y a b Hy F) as [Sp [Hh [H0 [tv [bv [n [Hnn [HV HP]]]]]]]].
      pose proof (split_pair_halves _ _ _ _ _ _ _ _ HP) as [_ [_ [Eb Ea]]].
      split; [lia|]. split; [lia|].
      assert (Uy : sl_topDepth y <= sl_botDepth y) by (apply Up; destruct w; [left|right]; exact Hy).
      destruct (halves_upright _ _ _ _ Hh) as [U1 [U2 U3]].
      destruct Uy as [Uy|Uy].
      2:{ left. split; [assumption|]. eapply split_zero; eassumption. }
      right. split; [assumption|]. destruct w.
      - destruct (IP y Hy Uy) as [v [Hv Ov]].
        assert (Q : forall v, In v (vm_layers vm) -> on_layer (vm_radius vm) true v y ->
           sl_topDepth y < sl_botDepth a < sl_botDepth y /\
           on_layer (vm_radius vm) true v a /\ on_layer (vm_radius vm) true v b).
        { intros v' Hv' Ov'. eapply split_on_layer; try eassumption. left. reflexivity. }
        destruct (Q v Hv Ov) as [Q1 [Q2 Q3]]. split; [lra|]. split; [lra|]. split; [discriminate|].
        intros _ v' Hv' Ov'. apply Q; assumption.
      - assert (Nfl : forall v, In v (vm_layers vm) -> vl_topDepth v <= sl_topDepth y -> sl_botDepth y <= vl_botDepth v ->
                 vl_topS v <> 0).
        { intros v Hv X1 X2 X3. apply In_nth_error in Hy. destruct Hy as [i Hi].
          assert (f (sl_id y) = None); [|congruence]. apply (E i y Hi). intros [_ [X|[X _]]]; [discriminate|].
          apply X. eapply fluid_not_cut; eassumption. }
        assert (Hy0 := Hy). destruct (IS y Hy Uy) as [[v [Hv [Ov [Nid Nu]]]]|[v [Hv [Ov Uv]]]].
        + destruct (split_on_layer false v y p tv bv n a b (vm_radius vm)) as [Q1 [Q2 Q3]]; try assumption.
          { right. apply Nfl; [assumption|apply Ov|apply Ov]. }
          split; [lra|]. split; [lra|]. split; [|discriminate]. intros _. split; [assumption|].
          exists v. auto.
        + exfalso. destruct Uv as [Uv|[Uv1 Uv2]].
          * apply (Nfl v Hv); [apply Ov|apply Ov|assumption].
          * apply In_nth_error in Hy0. destruct Hy0 as [i Hi].
            assert (f (sl_id y) = None); [|congruence]. apply (E i y Hi). intros [_ [X|[_ [X|X]]]]; [discriminate|congruence|].
            specialize (X i y (Nat.le_refl _) Hi). apply Rltb_false in X.
            destruct Ov as [Ov1 _]. lra. }
    assert (CutO : forall y a b, In y (sm_layers m (negb w)) -> f (sl_id y) = Some (a, b) -> In y (sm_layers m w)).
    { intros y a b Hy F. assert (I : f (sl_id y) <> None) by congruence. apply C in I. apply in_map_iff in I.
      destruct I as [z [Ez Hz]]. destruct w; cbn [sm_layers negb] in *.
      - assert (z = y) by (apply Ag; assumption). subst. assumption.
      - assert (y = z) by (apply Ag; auto). subst. assumption. }
    assert (CutA : forall v y a b, In y (sm_layers m v) -> f (sl_id y) = Some (a, b) -> In y (sm_layers m w)).
    { intros v y a b Hy F. destruct (bool_dec v w) as [->|Hne]; [assumption|].
      assert (v = negb w) by (destruct v, w; try reflexivity; exfalso; apply Hne; reflexivity).
      subst v. eapply CutO; eassumption. }
    assert (AB : forall v, sm_layers m' v = splice f (sm_layers m v)).
    { intros v. destruct (bool_dec v w) as [->|Hne]; [assumption|].
      assert (v = negb w) by (destruct v, w; try reflexivity; exfalso; apply Hne; reflexivity).
      subst v. assumption. }
    assert (UP' : forall v y, In y (sm_layers m' v) -> sl_topDepth y <= sl_botDepth y).
    { intros v y Hy. rewrite AB in Hy. apply splice_In in Hy. destruct Hy as [[Hy _]|[z [a [b [Hz [F Hab]]]]]].
      - apply Up. destruct v; [left|right]; exact Hy.
      - pose proof (CutA _ _ _ _ Hz F) as Hz'. destruct (Cut _ _ _ Hz' F) as [_ [_ K]].
        destruct Hab; subst; destruct K as [[_ [K1 K2]]|[_ [K1 [K2 _]]]]; lra. }
    assert (Pids : forall id, In id (map sl_id (sm_P m')) -> In id (map sl_id (sm_P m)) \/
        (exists z a b, In z (sm_P m) /\ f (sl_id z) = Some (a, b) /\ (id = sl_id a \/ id = sl_id b))).
    { intros id Hi. apply in_map_iff in Hi. destruct Hi as [y [<- Hy]].
      change (sm_P m') with (sm_layers m' true) in Hy. rewrite AB in Hy.
      apply splice_In in Hy. destruct Hy as [[Hy _]|[z [a [b [Hz [F Hab]]]]]].
      - left. apply in_map. assumption.
      - right. exists z, a, b. split; [assumption|]. split; [assumption|]. destruct Hab; subst; auto. }
    split.
    2:{ exists f. split; [exact AB|]. intros v y a b Hy F. pose proof (CutA _ _ _ _ Hy F) as Hy'.
        destruct (D y a b Hy' F) as [Sp [Hh _]]. split; [exact Sp|]. split; [exact Hh|]. intros Ty.
        destruct (Cut _ _ _ Hy' F) as [_ [_ [[K _]|[_ [K1 [K2 _]]]]]]; [lra|auto]. }
    split; [|intros y [Hy|Hy]; [apply (UP' true)|apply (UP' false)]; assumption].
    split; [congruence|]. split; [congruence|]. split.
    - intros y Hy Ty. change (sm_P m') with (sm_layers m' true) in Hy. rewrite AB in Hy. apply splice_In in Hy.
      destruct Hy as [[Hy _]|[z [a [b [Hz [F Hab]]]]]]; [apply IP; assumption|].
      pose proof (CutA _ _ _ _ Hz F) as Hz'. destruct (Cut _ _ _ Hz' F) as [_ [_ K]].
      destruct K as [[_ [K1 K2]]|[Tz [K1 [K2 [K3 K4]]]]]; [destruct Hab; subst; lra|].
      destruct w.
      + destruct (IP z Hz Tz) as [v [Hv Ov]]. destruct (K4 eq_refl v Hv Ov) as [Oa Ob].
        exists v. split; [assumption|]. destruct Hab; subst; assumption.
      + destruct (K3 eq_refl) as [N0 _]. exfalso. apply N0. apply in_map. assumption.
    - intros y Hy Ty. rewrite Inn.
      change (sm_S m') with (sm_layers m' false) in Hy. assert (Hy0 := Hy). rewrite AB in Hy. apply splice_In in Hy.
      destruct Hy as [[Hy _]|[z [a [b [Hz [F Hab]]]]]].
      + destruct (IS y Hy Ty) as [[v [Hv [Ov [Nid Nu]]]]|X]; [|right; exact X].
        left. exists v. split; [assumption|]. split; [assumption|]. split; [|assumption]. intros X. apply Pids in X.
        destruct X as [X|[z [a [b [Hz [F X]]]]]]; [contradiction|].
        pose proof (CutA true _ _ _ Hz F) as Hz'. destruct (Cut _ _ _ Hz' F) as [K1 [K2 _]].
        assert (sl_id y < sm_next m)%Z by (apply Lt; right; exact Hy). lia.
      + pose proof (CutA _ _ _ _ Hz F) as Hz'. destruct (Cut _ _ _ Hz' F) as [K5 [K6 K]].
        destruct K as [[_ [K1 K2]]|[Tz [K1 [K2 [K3 K4]]]]]; [destruct Hab; subst; lra|].
        destruct w.
        * right. destruct (IS z Hz Tz) as [[v [Hv [Ov [Nid Nu]]]]|[v [Hv [Ov Uv]]]].
          { exfalso. apply Nid. apply in_map. exact Hz'. }
          destruct (K4 eq_refl v Hv Ov) as [Oa Ob]. exists v. split; [assumption|].
          split; [destruct Hab; subst; assumption|assumption].
        * left. destruct (K3 eq_refl) as [N0 [v [Hv [Oa [Ob Nu]]]]]. exists v. split; [assumption|].
          split; [destruct Hab; subst; assumption|]. split; [|assumption]. intros X. apply in_map_iff in X. destruct X as [q [Eq Hq]].
          destruct Hid' as [_ [_ [_ Ag']]].
          assert (q = y) by (apply Ag'; assumption). subst q.
          change (sm_P m') with (sm_layers m' true) in Hq. rewrite AB in Hq. apply splice_In in Hq.
          destruct Hq as [[Hq _]|[u [c [e [Hu [G Hce]]]]]].
          -- assert (sl_id y < sm_next m)%Z by (apply Lt; left; exact Hq). destruct Hab; subst; lia.
          -- pose proof (CutA true _ _ _ Hu G) as Hu'. destruct (Cut _ _ _ Hu' G) as [_ [_ J]].
             destruct J as [[_ [J1 J2]]|[_ [_ [_ [J3 _]]]]]; [destruct Hce; subst; lra|].
             destruct (J3 eq_refl) as [J4 _]. apply J4. apply in_map. exact Hu.
  Qed.

  Lemma s_inv_step : forall m p w m', well_sampled vm m -> ids_ok m ->
    (forall y, In y (sm_P m) \/ In y (sm_S m) -> sl_topDepth y <= sl_botDepth y) ->
    addSlowness m p w = Ok m' -> well_sampled vm m' /\
    (forall y, In y (sm_P m') \/ In y (sm_S m') -> sl_topDepth y <= sl_botDepth y).
  Proof. intros m p w m' A B C H. exact (proj1 (s_inv_cuts _ _ _ _ A B C H)). Qed.

  Lemma s_inv_samples : forall m m', samples m m' -> well_sampled vm m -> ids_ok m ->
    (forall y, In y (sm_P m) \/ In y (sm_S m) -> sl_topDepth y <= sl_botDepth y) -> well_sampled vm m'.
  Proof.
    intros m m' H. induction H as [m|m p w m1 m2 H S IH]; intros HI Hid Up; [assumption|].
    destruct (s_inv_step _ _ _ _ HI Hid Up H) as [HI1 Up1].
    apply addSlowness_spec in H; [|assumption]. apply IH; tauto.
  Qed.
End OnModel.

(** ** the initial layers *)
Lemma runs_tops : forall (ls : list (vlayer R)) zs z, fluid_runs ls zs -> In z zs ->
  exists v, In v ls /\ dr_top z = vl_topDepth v.
Proof.
  intros ls zs z H. induction H as [|v ls zs Hn H IH|v run rest zs Hr Hs H IH]; intros Hz; [destruct Hz| |].
  - destruct (IH Hz) as [u [Hu E]]. exists u. split; [right; assumption|assumption].
  - destruct Hz as [<-|Hz]; [exists v; split; [left; reflexivity|reflexivity]|].
    destruct (IH Hz) as [u [Hu E]]. exists u. split; [rewrite in_app_iff; auto|assumption].
Qed.
Lemma below_all_R : forall ls x v, contiguous (x :: ls) -> thick (x :: ls) -> In v ls ->
  vl_botDepth x <= vl_topDepth v.
Proof.
  induction ls as [|u ls IH]; intros x v Hc Ht Hv; [destruct Hv|].
  pose proof (contiguous_head _ _ _ Hc) as E. apply Reqb_eq in E.
  assert (Tu : vl_topDepth u < vl_botDepth u) by (apply Rltb_lt, Ht; right; left; reflexivity).
  destruct Hv as [<-|Hv]; [lra|].
  assert (vl_botDepth u <= vl_topDepth v); [|lra].
  apply IH; [eapply contiguous_tail; eassumption|eapply thick_tail; eassumption|assumption].
Qed.
Lemma contiguous_app_r : forall l l' : list (vlayer R), contiguous (l ++ l') -> contiguous l'.
Proof. induction l as [|x l IH]; intros l' H; [exact H|]. apply IH. eapply contiguous_tail. exact H. Qed.
Lemma thick_app_r : forall l l' : list (vlayer R), thick (l ++ l') -> thick l'.
Proof. intros l l' H v Hv. apply H. rewrite in_app_iff. auto. Qed.
Lemma runs_fluid : forall (ls : list (vlayer R)) zs z v, fluid_runs ls zs -> contiguous ls -> thick ls ->
  In z zs -> In v ls -> dr_top z <= vl_topDepth v < dr_bot z -> fluid_layer v.
Proof.
  intros ls zs z v H. induction H as [|u ls zs Hn H IH|u run rest zs Hr Hs H IH]; intros Hc Ht Hz Hv Hx; [destruct Hz| |].
  - destruct Hv as [<-|Hv].
    + exfalso. destruct (runs_tops _ _ _ H Hz) as [q [Hq E]].
      pose proof (below_all_R _ _ _ Hc Ht Hq). assert (vl_topDepth u < vl_botDepth u) by (apply Rltb_lt, Ht; left; reflexivity).
      lra.
    + apply IH; try assumption; [eapply contiguous_tail; eassumption|eapply thick_tail; eassumption].
  - rewrite in_app_iff in Hv. destruct Hv as [Hv|Hv]; [apply Hr; assumption|].
    destruct Hz as [<-|Hz].
    + exfalso. cbn [dr_top dr_bot] in Hx.
      assert (vl_botDepth (last run u) <= vl_topDepth v); [|lra].
      destruct (exists_last (l := u :: run)) as [l' [z' Ez]]; [discriminate|].
      assert (El : last run u = z') by (rewrite <- (last_cons run u u), Ez; apply last_last).
      rewrite El. rewrite Ez, <- app_assoc in Hc, Ht. cbn [app] in Hc, Ht.
      apply contiguous_app_r in Hc. apply thick_app_r in Ht. eapply below_all_R; eassumption.
    + apply IH; try assumption; [eapply contiguous_app_r; eassumption|eapply thick_app_r; eassumption].
Qed.

(** the zones contain the fluid layers *)
Lemma fluid_in_zone : forall (ls : list (vlayer R)) zs v, fluid_runs ls zs -> contiguous ls -> thick ls ->
  In v ls -> fluid_layer v -> exists z, In z zs /\ dr_top z <= vl_topDepth v < dr_bot z.
Proof.
  intros ls zs v H. induction H as [|u ls zs Hn H IH|u run rest zs Hr Hs H IH]; intros Hc Ht Hv Hf; [destruct Hv| |].
  - destruct Hv as [<-|Hv]; [contradiction|].
    apply IH; try assumption; [eapply contiguous_tail; eassumption|eapply thick_tail; eassumption].
  - rewrite in_app_iff in Hv. destruct Hv as [Hv|Hv].
    + eexists. split; [left; reflexivity|]. cbn [dr_top dr_bot].
      assert (Tv : vl_topDepth v < vl_botDepth v) by (apply Rltb_lt, Ht, in_app_iff; left; exact Hv).
      assert (A : vl_topDepth u <= vl_topDepth v).
      { destruct Hv as [<-|Hv]; [lra|].
        assert (vl_botDepth u <= vl_topDepth v)
          by (apply (below_all_R (run ++ rest) u v); [exact Hc|exact Ht|rewrite in_app_iff; auto]).
        assert (vl_topDepth u < vl_botDepth u) by (apply Rltb_lt, Ht; left; reflexivity). lra. }
      split; [exact A|].
      destruct (exists_last (l := u :: run)) as [l' [z' Ez]]; [discriminate|].
      assert (El : last run u = z') by (rewrite <- (last_cons run u u), Ez; apply last_last).
      rewrite El. rewrite Ez in Hv. rewrite in_app_iff in Hv. destruct Hv as [Hv|[<-|[]]]; [|exact Tv].
      apply in_split in Hv. destruct Hv as [l1 [l2 E2]].
      assert (Z : In z' (l2 ++ z' :: rest)) by (rewrite in_app_iff; right; left; reflexivity).
      change (u :: run ++ rest) with ((u :: run) ++ rest) in Hc, Ht.
      rewrite Ez, E2, <- !app_assoc in Hc, Ht. cbn [app] in Hc, Ht.
      apply contiguous_app_r in Hc. apply thick_app_r in Ht.
      pose proof (below_all_R _ _ _ Hc Ht Z) as B.
      assert (vl_topDepth z' < vl_botDepth z') by (apply Rltb_lt, Ht; right; exact Z). lra.
    + destruct IH as [z [Hz Hx]]; try assumption; [eapply contiguous_app_r; eassumption|eapply thick_app_r; eassumption|].
      exists z. split; [right; assumption|assumption].
Qed.

Lemma ends_on : forall (w : bool) (v : vlayer R) y tp bp, vl_topDepth v < vl_botDepth v ->
  ends w v tp bp -> sl_topDepth y = vl_topDepth v -> sl_botDepth y = vl_botDepth v ->
  sl_topP y = tp -> sl_botP y = bp -> on_layer 6371 w v y.
Proof.
  intros w v y tp bp Tv [E1 E2] T1 T2 P1 P2. apply py_div_R_inv in E1, E2.
  destruct E1 as [N1 E1], E2 as [N2 E2]. cbn [n_sub Num_R] in E1, E2.
  assert (E6 : @n_lit R _ 6371 0 = 6371) by (exact (Rlit_0 6371)).
  rewrite E6 in *. unfold on_layer. rewrite T1, T2, P1, P2, E1, E2.
  split; [lra|]. split; [lra|]. unfold wvel.
  destruct w; rewrite ?(proj1 (line_ends _ _ _ _ Tv)), ?(proj2 (line_ends _ _ _ _ Tv));
    split; field; assumption.
Qed.

Section Start.
  Variable m : smodel R.
  Let vm := sm_vMod m.
  Hypothesis Hc : contiguous (vm_layers vm).
  Hypothesis Ht : thick (vm_layers vm).
  Hypothesis Hr : vm_radius vm = 6371.
  Hypothesis Hf : fluid_runs (vm_layers vm) (sm_fluid m).

  Definition start_inv (Ps Ss : list (slayer R)) (next : Z) : Prop :=
    ids2 Ps Ss next /\
    (forall y, In y Ps -> sl_topDepth y <= sl_botDepth y /\ good_P vm y) /\
    (forall y, In y Ss -> sl_topDepth y <= sl_botDepth y /\ good_S vm (sm_allowInnerCoreS m) (map sl_id Ps) y).

  Lemma good_S_more : forall innerS Ps y (x : slayer R), good_S vm innerS (map sl_id Ps) y -> sl_id y <> sl_id x ->
    good_S vm innerS (map sl_id (Ps ++ [x])) y.
  Proof.
    intros innerS Ps y x H E T. destruct (H T) as [[v [A [B C]]]|H']; [left|right; assumption].
    exists v. split; [assumption|]. split; [assumption|]. destruct C as [C Nu]. split; [|assumption]. rewrite map_app, in_app_iff. cbn [map In].
    intros [D|[D|[]]]; [contradiction|auto].
  Qed.

  Lemma start_snoc : forall Ps Ss next cP cS, start_inv Ps Ss next -> sl_id cP = next ->
    cS = cP \/ sl_id cS = (next + 1)%Z ->
    sl_topDepth cP <= sl_botDepth cP -> good_P vm cP -> sl_topDepth cS <= sl_botDepth cS ->
    good_S vm (sm_allowInnerCoreS m) (map sl_id (Ps ++ [cP])) cS ->
    start_inv (Ps ++ [cP]) (Ss ++ [cS]) (next + 2).
  Proof.
    intros Ps Ss next cP cS [I [IP IS]] E1 E2 U1 G1 U2 G2. split; [apply ids2_snoc; assumption|]. split.
    - intros y Hy. rewrite in_app_iff in Hy. destruct Hy as [Hy|[<-|[]]]; auto.
    - intros y Hy. rewrite in_app_iff in Hy. destruct Hy as [Hy|[<-|[]]]; [|auto].
      destruct (IS y Hy) as [U G]. split; [assumption|]. apply good_S_more; [assumption|].
      destruct I as [_ [_ [C _]]]. assert (sl_id y < next)%Z by auto. lia.
  Qed.

  Lemma coarse_step_inv : forall Ps Ss next prev v Ps' Ss' next' prev',
    coarse_step m (Ps, Ss, next, prev) v = Ok (Ps', Ss', next', prev') -> In v (vm_layers vm) ->
    start_inv Ps Ss next -> start_inv Ps' Ss' next'.
  Proof.
    intros Ps Ss next prev v Ps' Ss' next' prev' H Hv HI. unfold coarse_step in H. fold vm in H.
    inv_as H as [[Pa Sa] na] Ha. inv_as H as cP HcP. inv_as H as cS HcS. inversion H; subst. clear H.
    assert (Tv : vl_topDepth prev' < vl_botDepth prev') by (apply Rltb_lt, Ht, Hv).
    apply create_from_vlayer_iff in HcP. destruct HcP as [A1 [A2 [A3 A4]]].
    assert (HA : start_inv Pa Sa na).
    { if_in Ha; [|inversion Ha; subst; assumption].
      inv_as Ha as dP HdP. inv_as Ha as dS HdS. inversion Ha; subst. clear Ha.
      apply create_from_vlayer_iff in HdP. destruct HdP as [B1 [B2 [B3 B4]]]. cbn [vl_topDepth vl_botDepth] in B2, B3.
      assert (D : (dS = dP \/ sl_id dS = (next + 1)%Z) /\ sl_topDepth dS = sl_botDepth dS).
      { if_in HdS; [inversion HdS; subst; split; [auto|congruence]|].
        apply create_from_vlayer_iff in HdS. destruct HdS as [C1 [C2 [C3 C4]]]. cbn [vl_topDepth vl_botDepth] in C2, C3.
        split; [auto|congruence]. }
      destruct D as [D1 D2].
      apply start_snoc; try assumption; [right; congruence|intros F; lra|right; assumption|intros F; lra]. }
    clear Ha. pose proof (ends_on _ _ cP _ _ Tv A4 A2 A3 eq_refl eq_refl) as On.
    assert (U : sl_topDepth cP <= sl_botDepth cP) by (rewrite A2, A3; lra).
    assert (G : good_P vm cP) by (intros _; exists prev'; rewrite Hr; auto).
    match type of HcS with (if ?b then _ else _) = _ => destruct b eqn:Eb end.
    - inversion HcS; subst cS. apply start_snoc; try assumption; [auto|].
      intros _. right. exists prev'. split; [assumption|]. rewrite Hr. split; [assumption|].
      apply orb_true_iff in Eb. destruct Eb as [Eb|Eb].
      + left. unfold depthInFluid, in_fluid in Eb. apply existsb_exists in Eb. destruct Eb as [z [Hz Eb]].
        apply andb_true_iff in Eb. destruct Eb as [E1 E2]. apply Rleb_le in E1. apply Rltb_lt in E2.
        assert (F : fluid_layer prev') by (eapply runs_fluid; eauto).
        apply Reqb_eq in F. rewrite n_0_R in F. assumption.
      + right. apply andb_true_iff in Eb. destruct Eb as [E1 E2]. split; [apply negb_true_iff; assumption|].
        apply Rleb_le in E2. assumption.
    - apply create_from_vlayer_iff in HcS. destruct HcS as [C1 [C2 [C3 C4]]].
      pose proof (ends_on _ _ cS _ _ Tv C4 C2 C3 eq_refl eq_refl) as OnS.
      apply start_snoc; try assumption; [auto|rewrite C2, C3; lra|].
      intros _. left. exists prev'. split; [assumption|]. rewrite Hr. split; [assumption|].
      split.
      2:{ apply orb_false_iff in Eb. destruct Eb as [E1 E2]. intros [Uv|[Uv1 Uv2]].
          - assert (F : fluid_layer prev') by (apply Reqb_eq; rewrite n_0_R; assumption).
            destruct (fluid_in_zone _ _ _ Hf Hc Ht Hv F) as [z [Hz [Z1 Z2]]].
            unfold depthInFluid, in_fluid in E1. rewrite (proj2 (existsb_exists _ _)) in E1; [discriminate|].
            exists z. split; [assumption|]. apply andb_true_iff. split; [apply Rleb_le|apply Rltb_lt]; assumption.
          - rewrite Uv1 in E2. cbn [negb andb] in E2. apply Rleb_le in Uv2. unfold vm in Uv2, E2. rewrite Uv2 in E2. discriminate. }
      rewrite map_app, in_app_iff. cbn [map In]. destruct HA as [[_ [_ [K _]]] _].
      intros [X|[X|[]]]; [|lia]. apply in_map_iff in X. destruct X as [q [Eq Hq]].
      assert (sl_id q < na)%Z by auto. lia.
  Qed.

  Lemma coarse_fold_inv : forall ls Ps Ss next prev Ps' Ss' next' prev',
    foldM (coarse_step m) ls (Ps, Ss, next, prev) = Ok (Ps', Ss', next', prev') ->
    (forall v, In v ls -> In v (vm_layers vm)) ->
    start_inv Ps Ss next -> start_inv Ps' Ss' next'.
  Proof.
    induction ls as [|v ls IH]; intros Ps Ss next prev Ps' Ss' next' prev' H Hi HI; cbn [foldM] in H.
    - inversion H; subst. assumption.
    - inv_as H as [[[Pa Sa] na] pa] Ha. eapply IH; [exact H|intros; apply Hi; right; assumption|].
      eapply coarse_step_inv; [exact Ha|apply Hi; left; reflexivity|assumption].
  Qed.

  Lemma coarse_start_inv : forall m0, coarse_start m m0 -> sm_radius m = vm_radius vm ->
    well_sampled vm m0 /\ ids_ok m0 /\
    (forall y, In y (sm_P m0) \/ In y (sm_S m0) -> sl_topDepth y <= sl_botDepth y).
  Proof.
    intros m0 [first [Ps [Ss [next [v [Hi [Hfold ->]]]]]]] Hrad.
    apply coarse_fold_inv in Hfold; [|auto|].
    - destruct Hfold as [I [IP IS]]. split; [|split].
      + split; [reflexivity|]. split; [assumption|]. split; cbn [sm_set_layers sm_P sm_S sm_allowInnerCoreS].
        * intros y Hy. apply IP. assumption.
        * intros y Hy. apply IS. assumption.
      + exact I.
      + cbn [sm_set_layers sm_P sm_S]. intros y [Hy|Hy]; [apply IP|apply IS]; assumption.
    - split; [|split; intros y []]. split; [constructor|]. split; [constructor|].
      split; [intros y [[]|[]]|intros y z []].
  Qed.
End Start.

Lemma findCritical_inner : forall {T} {N : Num T} (m m' : smodel T), findCriticalPoints m = Ok m' ->
  sm_allowInnerCoreS m' = sm_allowInnerCoreS m.
Proof.
  intros T N m m' H. unfold findCriticalPoints in H. inv_as H as first Hf. inv_as H as cS HcS. inv_as H as cP HcP.
  cbv zeta in H. inv_as H as s Hs. inv_as H as ok Hok. destruct ok; inversion H; subst. reflexivity.
Qed.

Lemma model_numbers_R : forall vm : vmodel R, model_numbers vm.
Proof.
  intros vm. assert (K : forall x : R, n_ok x) by (intros x; apply Reqb_eq; reflexivity).
  repeat split; apply K.
Qed.

(** every layer of a constructed model lies on the velocity model *)
Lemma createSample_on_model : forall {L : Libm R} fuel (m m' : smodel R), createSample fuel m = Ok m' ->
  thick (vm_layers (sm_vMod m)) -> vm_radius (sm_vMod m) = 6371 ->
  well_sampled (sm_vMod m) m' /\ sm_allowInnerCoreS m' = sm_allowInnerCoreS m.
Proof.
  intros L fuel m m' H Ht Hr. apply createSample_steps in H.
  destruct H as [m1 [m0 [m5 [crit [Hv [Hf [Hc [Hs [Hm [E Hval]]]]]]]]]].
  assert (Hne : vm_layers (sm_vMod m) <> []).
  { intros En. destruct Hc as [first [_ [_ [_ [_ [Hi _]]]]]].
    pose proof (findCritical_spec _ _ Hf) as [F1 _]. cbn [sm_set_radius sm_vMod] in F1. rewrite F1, En in Hi. discriminate. }
  apply (validate_iff _ (model_numbers_R _) Hne) in Hv. destruct Hv as [_ [Hco Hl]].
  pose proof (findCritical_exact _ _ Hf) as [_ [_ [_ Fl]]].
  pose proof (findCritical_spec _ _ Hf) as [F1 [F2 [F3 _]]]. cbn [sm_set_radius sm_vMod sm_radius] in *.
  rewrite <- F1 in *.
  destruct (coarse_start_inv m1 ltac:(assumption) Ht Hr ltac:(assumption) m0 Hc ltac:(congruence)) as [I0 [Id0 U0]].
  pose proof (s_inv_samples (sm_vMod m1) Hco Ht Hl _ _ Hs I0 Id0 U0) as [J1 [J2 [J3 J4]]].
  destruct (samples_keep _ _ Hs Id0) as [_ [SS _]]. apply coarse_start_spec in Hc. destruct Hc as [_ [SS0 _]].
  pose proof (same_setup_trans _ _ _ SS0 SS) as [_ [_ [_ [_ [_ [_ [In5 _]]]]]]].
  subst m'. split; [split; [assumption|]; split; [assumption|]; split; assumption|].
  cbn [sm_set_crit sm_allowInnerCoreS]. rewrite In5. rewrite (findCritical_inner _ _ Hf). reflexivity.
Qed.

(** the first layer of a constructed model is made with radius 6371 *)
Lemma createSample_first : forall {L : Libm R} fuel (m m' : smodel R), createSample fuel m = Ok m' ->
  exists v ls y l, vm_layers (sm_vMod m) = v :: ls /\ sm_P m' = y :: l /\
    sl_topDepth y = vl_topDepth v /\ sl_topP y * vl_topP v = 6371 - vl_topDepth v.
Proof.
  intros L fuel m m' H. apply createSample_steps in H.
  destruct H as [m1 [m0 [m5 [crit [Hv [Hf [Hc [Hs [Hm [E Hval]]]]]]]]]].
  pose proof (findCritical_spec _ _ Hf) as [F1 _]. cbn [sm_set_radius sm_vMod sm_radius] in F1.
  assert (Id0 : ids_ok m0) by (apply coarse_start_spec in Hc; tauto).
  destruct Hc as [first [Ps [Ss [next [u [Hi [Hfold E0]]]]]]]. rewrite F1 in *.
  destruct (vm_layers (sm_vMod m)) as [|v ls] eqn:El; [discriminate|].
  change (py_index (v :: ls) 0) with (Ok v) in Hi. inversion Hi; subst first. clear Hi.
  cbn [foldM] in Hfold. inv_as Hfold as [[[Pa Sa] na] pa] Ha.
  assert (Hpre : exists y l, Ps = y :: l /\ exists l0, Pa = y :: l0).
  { assert (K : forall ls Pa Sa na pa Ps Ss next u,
      foldM (coarse_step m1) ls (Pa, Sa, na, pa) = Ok (Ps, Ss, next, u) -> exists l, Ps = Pa ++ l).
    { clear. induction ls as [|x ls IH]; intros Pa Sa na pa Ps Ss next u H; cbn [foldM] in H.
      - inversion H. exists []. rewrite app_nil_r. reflexivity.
      - inv_as H as [[[Pb Sb] nb] pb] Hb. apply IH in H. destruct H as [l ->]. unfold coarse_step in Hb.
        inv_as Hb as [[Pc Sc] nc] Hc. inv_as Hb as cP HcP. inv_as Hb as cS HcS. inversion Hb; subst.
        assert (exists l', Pc = Pa ++ l') as [l' ->].
        { if_in Hc; [inv_as Hc as dP HdP; inv_as Hc as dS HdS|]; inversion Hc; subst; [eauto|].
          exists []. rewrite app_nil_r. reflexivity. }
        exists (l' ++ [cP] ++ l). rewrite !app_assoc. reflexivity. }
    apply K in Hfold. destruct Hfold as [l ->].
    assert (exists y l0, Pa = y :: l0) as [y [l0 ->]].
    { clear - Ha. unfold coarse_step in Ha. inv_as Ha as [[Pc Sc] nc] Hc. inv_as Ha as cP HcP. inv_as Ha as cS HcS.
      inversion Ha; subst. destruct Pc; cbn [app]; eauto. }
    exists y, (l0 ++ l). split; [reflexivity|]. eauto. }
  destruct Hpre as [y [l [EP [l0 EPa]]]].
  destruct (samples_keep _ _ Hs Id0) as [_ [_ K]]. destruct (K true) as [_ [_ K3]].
  destruct (K3 y l) as [z [l' [Ez [Tz [Pz _]]]]]; [subst m0; exact EP|].
  exists v, ls, z, l'. split; [reflexivity|]. split; [subst m'; exact Ez|]. rewrite Tz, Pz.
  unfold coarse_step in Ha. cbn [vl_surface vl_botP vl_botS] in Ha.
  assert (Er : forall x : R, n_eqb x x = true) by (intros x; apply Reqb_eq; reflexivity).
  rewrite !Er in Ha. cbn [negb orb andb bind] in Ha.
  rewrite EPa in Ha. inv_as Ha as cP HcP. inv_as Ha as cS HcS. cbn [app] in Ha. inversion Ha. subst y pa.
  apply create_from_vlayer_iff in HcP. destruct HcP as [A1 [A2 [A3 [A4 _]]]].
  split; [assumption|]. apply py_div_R_inv in A4. destruct A4 as [N1 E1].
  change (@n_lit R _ 6371 0) with (Rlit 6371 0) in E1. rewrite Rlit_0 in E1.
  rewrite E1. cbn [n_sub Num_R]. field. assumption.
Qed.

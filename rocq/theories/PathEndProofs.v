(** Proofs for PathProps.v: where a path goes and where it ends. *)
From Coq Require Import ZArith Bool List String Reals Lra Lia.
From Verif Require Import Base Num PyStr VelocityModel SlownessLayer SlownessModel SlowSpec SlowProofs TauModel SeismicPhase Pierce
  TauSpec TauProofs CurveSpec CurveProofs PierceSpec PierceProofs SlowRealProofs PathSpec PathProofs PathWholeProofs PathLegProofs.
Import ListNotations.
Local Open Scope list_scope.
Local Open Scope R_scope.

(** ** depths of one leg *)
Lemma downwards_cons : forall x l, Forall (fun y => td_depth x <= td_depth y) l -> downwards l -> downwards (x :: l).
Proof.
  intros x l Hx Hl [|m] [|n] u v Hmn Hu Hv; try lia; cbn in Hu, Hv.
  - injection Hu as <-. rewrite Forall_forall in Hx. apply Hx. eapply nth_error_In. exact Hv.
  - apply (Hl m n u v); [lia|exact Hu|exact Hv].
Qed.
Lemma upwards_cons : forall x l, Forall (fun y => td_depth y <= td_depth x) l -> upwards l -> upwards (x :: l).
Proof.
  intros x l Hx Hl [|m] [|n] u v Hmn Hu Hv; try lia; cbn in Hu, Hv.
  - injection Hu as <-. rewrite Forall_forall in Hx. apply Hx. eapply nth_error_In. exact Hv.
  - apply (Hl m n u v); [lia|exact Hu|exact Hv].
Qed.
Lemma downwards_nil : downwards [].
Proof. intros [|m] n u v _ H; discriminate. Qed.
Lemma upwards_nil : upwards [].
Proof. intros [|m] n u v _ H; discriminate. Qed.

Section Depths.
  Variables (m : smodel R) (w : bool) (p : R).
  Hypothesis Hm : s_meet (sm_layers m w).
  Hypothesis Hu : s_upright (sm_layers m w).
  Lemma up_R : forall k y, nth_error (sm_layers m w) k = Some y -> sl_topDepth y <= sl_botDepth y.
  Proof. intros k y Hy. apply Rleb_le. apply Hu. eapply nth_error_In. exact Hy. Qed.
  Lemma below_R : forall k k' y z, (k < k')%nat -> nth_error (sm_layers m w) k = Some y -> nth_error (sm_layers m w) k' = Some z -> sl_botDepth y <= sl_topDepth z.
  Proof.
    intros k k' y z Hk Hy Hz. apply Rleb_le. apply (tops_below _ Hm Hu (k' - S k) k y z Hy). replace (S k + (k' - S k))%nat with k' by lia. exact Hz.
  Qed.
  Lemma turns_range : forall k y z tm d, nth_error (sm_layers m w) k = Some y -> turns m p y z tm d -> sl_topDepth y <= z <= sl_botDepth y.
  Proof. intros k y z tm d Hy [Hz _]. apply (depthFor_range _ _ _ _ Hz). eapply up_R. exact Hy. Qed.
  Lemma descent_depths : forall j y', nth_error (sm_layers m w) j = Some y' -> forall k l, descent m w p (S j) k l ->
    downwards l /\ forall y, nth_error (sm_layers m w) k = Some y -> Forall (fun x => sl_topDepth y <= td_depth x <= sl_botDepth y') l.
  Proof.
    intros j y' Hj k l H. induction H as [k He|k y l Hk Hy Hp Hf Hd [I1 I2]|k y l tm d Hk Hy Hp Hf Hps Hd [I1 I2]|k y z tm d Hk Hy Hp Hf Ht|k y Hk Hy Hp Hf].
    - split; [apply downwards_nil|]. intros; constructor.
    - split; [exact I1|]. intros u Hu'. assert (u = y) by congruence. subst u.
      destruct (nth_error (sm_layers m w) (S k)) as [v|] eqn:Ev.
      + eapply Forall_impl; [|exact (I2 v eq_refl)]. intros x Hx. cbn beta in *. assert (A := below_R k (S k) y v ltac:(lia) Hy Ev). assert (B := up_R k y Hy). lra.
      + inversion Hd; try congruence; constructor.
    - assert (Hby : sl_botDepth y <= sl_botDepth y').
      { destruct (Nat.eq_dec k j) as [->|Ne]; [assert (y = y') by congruence; subst; lra|].
        assert (A := below_R k j y y' ltac:(lia) Hy Hj). assert (B := up_R j y' Hj). lra. }
      assert (Low : Forall (fun x => sl_botDepth y <= td_depth x <= sl_botDepth y') l).
      { destruct (nth_error (sm_layers m w) (S k)) as [v|] eqn:Ev.
        + eapply Forall_impl; [|exact (I2 v eq_refl)]. intros x Hx. cbn beta in *. assert (A := below_R k (S k) y v ltac:(lia) Hy Ev). lra.
        + inversion Hd; try congruence; constructor. }
      split.
      + apply downwards_cons; [|exact I1]. eapply Forall_impl; [|exact Low]. cbn. intros x Hx. lra.
      + intros u Hu'. assert (u = y) by congruence. subst u. assert (B := up_R k y Hy). constructor; [cbn; lra|].
        eapply Forall_impl; [|exact Low]. cbn. intros x Hx. lra.
    - split; [apply downwards_cons; [constructor|apply downwards_nil]|]. intros u Hu'. assert (u = y) by congruence. subst u.
      assert (A := turns_range k y z tm d Hy Ht). constructor; [cbn|constructor].
      destruct (Nat.eq_dec k j) as [->|Ne]; [assert (y = y') by congruence; subst; lra|].
      assert (C := below_R k j y y' ltac:(lia) Hy Hj). assert (B := up_R j y' Hj). lra.
    - split; [apply downwards_nil|]. intros; constructor.
  Qed.
  Lemma climb_depths : forall i y0, nth_error (sm_layers m w) i = Some y0 -> ~ flat y0 -> forall k l, climb m w p i k l ->
    upwards l /\ (forall y, nth_error (sm_layers m w) k = Some y -> Forall (fun x => sl_topDepth y0 <= td_depth x <= sl_topDepth y) l) /\
    (forall k' y, k = S k' -> nth_error (sm_layers m w) k' = Some y -> Forall (fun x => sl_topDepth y0 <= td_depth x <= sl_botDepth y) l) /\
    ((i < k)%nat -> exists l0 x, l = l0 ++ [x] /\ td_depth x = sl_topDepth y0).
  Proof.
    intros i y0 H0 Nf k l H.
    induction H as [|k y l Hi Hy Hf Hl [I1 [I2 [I3 I4]]]|k y l tm d Hi Hy Hf Hp Hl [I1 [I2 [I3 I4]]]].
    - split; [apply upwards_nil|]. split; [intros; constructor|]. split; [intros; constructor|]. lia.
    - split; [exact I1|]. assert (B := up_R k y Hy). split; [|split].
      + intros v Hv. assert (A := below_R k (S k) y v ltac:(lia) Hy Hv). eapply Forall_impl; [|exact (I2 y Hy)]. cbn. intros x Hx. lra.
      + intros k' v E Hv. injection E as <-. assert (v = y) by congruence. subst v. eapply Forall_impl; [|exact (I2 y Hy)]. cbn. intros x Hx. lra.
      + intros _. destruct (Nat.eq_dec i k) as [->|Ne]; [assert (y = y0) by congruence; subst; contradiction|]. apply I4. lia.
    - assert (Top : sl_topDepth y0 <= sl_topDepth y).
      { destruct (Nat.eq_dec i k) as [->|Ne]; [assert (y = y0) by congruence; subst; lra|].
        assert (A := below_R i k y0 y ltac:(lia) H0 Hy). assert (B := up_R i y0 H0). lra. }
      assert (B := up_R k y Hy). assert (F := I2 y Hy). split; [|split; [|split]].
      + apply upwards_cons; [|exact I1]. eapply Forall_impl; [|exact F]. cbn. intros x Hx. lra.
      + intros v Hv. assert (A := below_R k (S k) y v ltac:(lia) Hy Hv). constructor; [cbn; lra|]. eapply Forall_impl; [|exact F]. cbn. intros x Hx. lra.
      + intros k' v E Hv. injection E as <-. assert (v = y) by congruence. subst v. constructor; [cbn; lra|]. eapply Forall_impl; [|exact F]. cbn. intros x Hx. lra.
      + intros _. destruct (Nat.eq_dec i k) as [<-|Ne].
        * apply climb_nil in Hl. subst l. assert (y = y0) by congruence. subst y. exists [], (mkTD p tm d (sl_topDepth y0)). auto.
        * destruct (I4 ltac:(lia)) as [l0 [x [-> Ex]]]. eexists (_ :: l0), x. split; [reflexivity|exact Ex].
  Qed.
End Depths.

Theorem leg_depths : forall (m : smodel R) b p down l, let w := tb_isP b in
  s_meet (sm_layers m w) -> s_upright (sm_layers m w) -> tb_top b < tb_bot b -> leg_points m w p b down l ->
  Forall (fun x => tb_top b <= td_depth x <= tb_bot b) l /\
  (if down then downwards l else upwards l /\ (p <= tb_maxRP b -> exists x, final l x /\ td_depth x = tb_top b)).
Proof.
  intros m b p down l w Hm Hu Hlt Hl. fold w in Hm, Hu.
  destruct Hl as [[X ->]|[X [_ [i [j [y [y' [Hd [Hsh [Hy [Et [Hy' [Eb Hl]]]]]]]]]]]]].
  - apply Rltb_lt in X. split; [constructor|]. destruct down; [apply downwards_nil|]. split; [apply upwards_nil|]. lra.
  - apply Reqb_true in Et. apply Reqb_true in Eb.
    destruct (leg_layers m w b i j y y' Hm Hu Hlt Hd Hsh Hy Hy' Et Eb) as [Hij [Hj Nf]]. rewrite <- Et, <- Eb.
    destruct down.
    + destruct (descent_depths m w p Hm Hu j y' Hy' i l Hl) as [A B]. split; [exact (B y Hy)|exact A].
    + destruct Hl as [e [u [He [Hue [_ [_ H]]]]]].
      assert (Bot : sl_botDepth u <= sl_botDepth y').
      { destruct (Nat.eq_dec e j) as [->|Ne]; [assert (u = y') by congruence; subst; lra|].
        assert (A := below_R m w Hm Hu e j u y' ltac:(lia) Hue Hy'). assert (B := up_R m w Hu j y' Hy'). lra. }
      destruct H as [[_ H]|[_ [z [tm [d [l' [Ht [H ->]]]]]]]].
      * destruct (climb_depths m w p Hm Hu i y Hy Nf (S e) l H) as [A [_ [B C]]]. split.
        { eapply Forall_impl; [|exact (B e u eq_refl Hue)]. cbn. intros x Hx. lra. }
        split; [exact A|]. intros _. destruct (C ltac:(lia)) as [l0 [x [E Ex]]]. exists x. split; [exists l0; exact E|exact Ex].
      * destruct (climb_depths m w p Hm Hu i y Hy Nf e l' H) as [A [B [_ C]]]. assert (F := B u Hue).
        assert (Up := up_R m w Hu e u Hue).
        assert (Top : sl_topDepth y <= sl_topDepth u).
        { destruct (Nat.eq_dec i e) as [->|Ne]; [assert (u = y) by congruence; subst; lra|].
          assert (A1 := below_R m w Hm Hu i e y u ltac:(lia) Hy Hue). assert (B1 := up_R m w Hu i y Hy). lra. }
        split; [constructor; [cbn; lra|]; eapply Forall_impl; [|exact F]; cbn; intros x Hx; lra|].
        split; [apply upwards_cons; [|exact A]; eapply Forall_impl; [|exact F]; cbn; intros x Hx; lra|].
        intros _. destruct (Nat.eq_dec i e) as [<-|Ne].
        { apply climb_nil in H. subst l'. assert (u = y) by congruence. subst u. eexists. split; [exists []; reflexivity|reflexivity]. }
        destruct (C ltac:(lia)) as [l0 [x [-> Ex]]]. exists x. split; [eexists (_ :: l0); reflexivity|exact Ex].
Qed.

(** ** the whole path *)
Lemma total_firstn : forall (f : timedist R -> R) l, Forall (fun x => 0 <= f x) l -> forall m n, (m <= n)%nat -> total f (firstn m l) <= total f (firstn n l).
Proof.
  intros f l H. induction H as [|x l Hx Hl IH]; intros m n Hmn.
  - rewrite !firstn_nil. lra.
  - destruct m as [|m].
    + cbn [firstn]. rewrite total_nil. destruct n as [|n]; [cbn [firstn]; rewrite total_nil; lra|]. cbn [firstn]. rewrite total_cons.
      specialize (IH 0%nat n ltac:(lia)). cbn [firstn] in IH. rewrite total_nil in IH. lra.
    + destruct n as [|n]; [lia|]. cbn [firstn]. rewrite !total_cons. specialize (IH m n ltac:(lia)). lra.
Qed.
Lemma running_forth : forall p l path, running p l path -> Forall piece_pos l -> never_back path.
Proof.
  intros p l path [_ H] Hl m n x y Hmn Hx Hy. destruct (H m x Hx) as [u [_ ->]]. destruct (H n y Hy) as [v [_ ->]]. cbn [td_time td_dist]. split.
  - apply total_firstn; [|lia]. eapply Forall_impl; [|exact Hl]. intros a [A _]. exact A.
  - apply total_firstn; [|lia]. eapply Forall_impl; [|exact Hl]. intros a [_ A]. exact A.
Qed.
Lemma running_final : forall p l x path, running p (l ++ [x]) path ->
  final path (mkTD p (total td_time (l ++ [x])) (total td_dist (l ++ [x])) (td_depth x)).
Proof.
  intros p l x path [Hl H]. rewrite app_length in Hl. cbn [List.length] in Hl.
  destruct (exists_last (l := path)) as [l0 [y E]]; [intros ->; cbn in Hl; lia|]. exists l0. rewrite E in *. rewrite app_length in Hl. cbn [List.length] in Hl.
  assert (Hn : List.length l0 = List.length l) by lia.
  destruct (H (List.length l0) y) as [u [Hu ->]]; [rewrite nth_error_app2, Nat.sub_diag by lia; reflexivity|].
  rewrite Hn in Hu |- *. rewrite nth_error_app2, Nat.sub_diag in Hu by lia. injection Hu as <-.
  rewrite (firstn_all2 (l ++ [x])) by (rewrite app_length; cbn [List.length]; lia). reflexivity.
Qed.
Lemma way_pos : forall ph a seq pieces, way ph a seq pieces -> 0 <= ar_rayParam a ->
  (diffracted (ph_name ph) \/ head_wave (ph_name ph) -> forall d0, at_index (ph_dist ph) 0 d0 -> d0 <= ar_dist a) -> Forall piece_pos pieces.
Proof.
  intros ph a seq pieces H Hp Hd. induction H as [|s l b own extra rest Hb Hl He Hw IH]; [constructor|].
  apply Forall_app. split; [eapply leg_pos; exact Hl|]. apply Forall_app. split; [|exact IH].
  destruct He as [[[_ Df] [d0 [H0 ->]]]|[[_ [[_ Hh] [d0 [n [H0 [En ->]]]]]]|[_ [_ ->]]]]; [| |constructor].
  - assert (X := Hd (or_introl Df) d0 H0). constructor; [|constructor]. split; cbn; [apply Rmult_le_pos; lra|lra].
  - assert (X := Hd (or_intror Hh) d0 H0). assert (Pn := head_count _ Hh). rewrite <- En in Pn. apply IZR_lt in Pn.
    assert (Y : 0 <= (ar_dist a - d0) / IZR n) by (apply Rmult_le_pos; [lra|apply Rlt_le, Rinv_0_lt_compat; exact Pn]).
    constructor; [|constructor]. split; cbn; [apply Rmult_le_pos; lra|lra].
Qed.

(** ** where it ends *)
Definition cmb_pairs (ph : phase R) : list seg -> nat := fun l => pairs (tm_cmbBranch (ph_tMod ph) - 1) (map sg_branch l).
Definition moho_pairs (ph : phase R) : list seg -> nat := fun l => pairs (tm_mohoBranch (ph_tMod ph) - 1) (map sg_branch l).
Lemma pairs_step : forall k s l, (both_in k s (hd_error l) /\ pairs k (map sg_branch (s :: l)) = S (pairs k (map sg_branch l))) \/
  (~ both_in k s (hd_error l) /\ pairs k (map sg_branch (s :: l)) = pairs k (map sg_branch l)).
Proof.
  intros k s l. rewrite <- both_iff. destruct l as [|s' l]; cbn [map pairs hd_error].
  - right. split; [rewrite andb_false_r; discriminate|reflexivity].
  - destruct ((sg_branch s =? k)%Z && (sg_branch s' =? k)%Z); [left|right]; split; try reflexivity; discriminate.
Qed.
Lemma leg_ready : forall t s b, rays_ready t -> leg_branch t s b -> In b (tm_P t) \/ In b (tm_S t).
Proof. intros t s b _ H. apply at_index_pos in H. apply nth_error_In in H. destruct (sg_isP s); auto. Qed.
Lemma same_length_nth : forall {A B} (l : list A) (l' : list B) k x, List.length l' = List.length l -> nth_error l k = Some x -> exists y, nth_error l' k = Some y.
Proof.
  intros A B l l' k x E H. destruct (nth_error l' k) as [y|] eqn:Ey; [eauto|]. apply nth_error_None in Ey.
  assert (k < List.length l)%nat by (apply nth_error_Some; congruence). lia.
Qed.
Section Ends.
  Variables (ph : phase R) (a : arrival R) (k : nat).
  Hypothesis Ready : rays_ready (ph_tMod ph).
  Hypothesis Hk : nth_error (tm_rayParams (ph_tMod ph)) k = Some (ar_rayParam a).
  Lemma one_leg : forall s b own, leg_branch (ph_tMod ph) s b ->
    leg_points (tm_sMod (ph_tMod ph)) (tb_isP b) (ar_rayParam a) b (sg_down s) own ->
    exists d tm, at_index (tb_dist b) (Z.of_nat k) d /\ at_index (tb_time b) (Z.of_nat k) tm /\ total td_dist own = d /\ total td_time own = tm.
  Proof.
    intros s b own Hb Hl. assert (Hin := leg_ready _ s b Ready Hb). destruct Ready as [Hr Hs]. assert (Up := leg_upright _ s b Hr Hb).
    destruct (Hs b Hin) as [St [L1 [L2 [L3 Rv]]]]. destruct Hr as [Hg _]. destruct (Hg (tb_isP b)) as [Hm Hu].
    destruct (same_length_nth _ _ _ _ L1 Hk) as [d Hd]. destruct (same_length_nth _ _ _ _ L2 Hk) as [tm Ht]. destruct (same_length_nth _ _ _ _ L3 Hk) as [u Hu'].
    destruct (leg_total _ b _ _ _ d tm u Hm Hu Up St Hl (Rv k _ d tm u Hk Hd Ht Hu')) as [E1 E2].
    exists d, tm. split; [left; split; [lia|rewrite Nat2Z.id; exact Hd]|]. split; [left; split; [lia|rewrite Nat2Z.id; exact Ht]|]. auto.
  Qed.
  (** legs and pieces along the boundary *)
  Lemma way_total : forall seq pieces, way ph a seq pieces -> forall d0, at_index (ph_dist ph) 0 d0 \/ (~ diffracted (ph_name ph) /\ ~ head_wave (ph_name ph)) ->
    let n := Z.max (Z.of_nat (str_count "Pn" (ph_name ph))) (Z.of_nat (str_count "Sn" (ph_name ph))) in
    forall g, (diffracted (ph_name ph) /\ ~ head_wave (ph_name ph) /\ g = INR (cmb_pairs ph seq) * (ar_dist a - d0)) \/
              (~ diffracted (ph_name ph) /\ head_wave (ph_name ph) /\ g = INR (moho_pairs ph seq) * ((ar_dist a - d0) / IZR n)) \/
              (~ diffracted (ph_name ph) /\ ~ head_wave (ph_name ph) /\ g = 0) ->
    exists d tm, legs_total (ph_tMod ph) tb_dist (Z.of_nat k) seq d /\ legs_total (ph_tMod ph) tb_time (Z.of_nat k) seq tm /\
      total td_dist pieces = d + g /\ total td_time pieces = tm + g * ar_rayParam a.
  Proof.
    intros seq pieces H d0 H0 n. induction H as [|s l b own extra rest Hb Hl He Hw IH]; intros g Hg.
    - exists 0, 0. split; [constructor|]. split; [constructor|]. assert (g = 0) as ->; [|rewrite !total_nil; split; ring].
      destruct Hg as [[_ [_ ->]]|[[_ [_ ->]]|[_ [_ ->]]]]; [unfold cmb_pairs|unfold moho_pairs|reflexivity]; cbn [map pairs INR]; ring.
    - destruct (one_leg s b own Hb Hl) as [d1 [t1 [A1 [A2 [A3 A4]]]]].
      assert (Ex : exists g', total td_dist extra = g' /\ total td_time extra = g' * ar_rayParam a /\
        ((diffracted (ph_name ph) /\ ~ head_wave (ph_name ph) /\ g - g' = INR (cmb_pairs ph l) * (ar_dist a - d0)) \/
              (~ diffracted (ph_name ph) /\ head_wave (ph_name ph) /\ g - g' = INR (moho_pairs ph l) * ((ar_dist a - d0) / IZR n)) \/
              (~ diffracted (ph_name ph) /\ ~ head_wave (ph_name ph) /\ g - g' = 0))).
      { assert (Idx : forall d', at_index (ph_dist ph) 0 d' -> diffracted (ph_name ph) \/ head_wave (ph_name ph) -> d' = d0).
        { intros d' Hd' Hw'. destruct H0 as [H0|[X Y]]; [|tauto]. eapply at_index_fun; eassumption. }
        destruct (pairs_step (tm_cmbBranch (ph_tMod ph) - 1) s l) as [[C1 C2]|[C1 C2]];
        destruct (pairs_step (tm_mohoBranch (ph_tMod ph) - 1) s l) as [[M1 M2]|[M1 M2]];
        fold (cmb_pairs ph (s :: l)) (cmb_pairs ph l) in C2; fold (moho_pairs ph (s :: l)) (moho_pairs ph l) in M2; rewrite C2, M2 in Hg; rewrite ?S_INR in Hg;
        destruct He as [[[Cb Df] [d' [Hd' ->]]]|[[Nd [[Mb Hh] [d' [n' [Hd' [-> ->]]]]]]|[Nd [Nh ->]]]]; try tauto;
        rewrite ?total_cons, ?total_nil; cbn [td_dist td_time];
        try (rewrite (Idx d' Hd' ltac:(tauto))); fold n;
        destruct Hg as [[G1 [G2 G3]]|[[G1 [G2 G3]]|[G1 [G2 G3]]]]; try tauto;
        (eexists; split; [rewrite ?Rplus_0_r; reflexivity|]; split; [ring|]);
        first [left; split; [assumption|split; [assumption|rewrite G3; ring]]
              |right; left; split; [assumption|split; [assumption|rewrite G3; ring]]
              |right; right; split; [assumption|split; [assumption|rewrite G3; ring]]]. }
      destruct Ex as [g' [E1 [E2 E3]]]. destruct (IH (g - g') E3) as [d [tm [B1 [B2 [B3 B4]]]]].
      exists (d1 + d), (t1 + tm). split; [eapply lt_cons; eassumption|]. split; [eapply lt_cons; eassumption|].
      rewrite !total_app, A3, A4, B3, B4, E1, E2. split; ring.
  Qed.
End Ends.

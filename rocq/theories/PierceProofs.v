(** Proofs for PierceProps.v. *)
From Coq Require Import ZArith Bool List String Ascii Reals Lia Lra.
From Verif Require Import Base Num PyStr VelocityModel SlownessLayer SlownessModel TauModel Legs SeismicPhase Pierce
  TauSpec CurveSpec CurveProofs CurveMainProofs SlowRealProofs TimeSpec CalcTimeProofs FindSpec FindProofs PierceSpec.
Import ListNotations.
Local Open Scope R_scope.

Lemma fluid_iff : forall (m : smodel R) x,
  depthInFluid m x = true <-> exists z, In z (sm_fluid m) /\ dr_top z <= x < dr_bot z.
Proof. intros m x. exact (in_fluid_iff (sm_fluid m) x). Qed.
Lemma lit_tiny : (n_lit 1 (-10) : R) = / 10 ^ 10.
Proof. change (Rlit 1 (-10) = / 10 ^ 10). unfold Rlit. change (1 * / 10 ^ 10 = / 10 ^ 10). ring. Qed.
Lemma py_min_R : forall a b : R, py_min a b = Rmin a b.
Proof.
  intros a b. unfold py_min. cbn [n_ltb Num_R]. destruct (Rltb_spec b a) as [H|H].
  - rewrite Rmin_right; lra.
  - rewrite Rmin_left; lra.
Qed.

Section Legs.
  Variable t : tmodel R.
  Lemma total_fun : forall f i l x y, legs_total t f i l x -> legs_total t f i l y -> x = y.
  Proof.
    intros f i l x y H. revert y. induction H; intros z Hz; inversion Hz; subst; [reflexivity|].
    assert (b0 = b) by (eapply at_index_fun; eassumption). subst.
    assert (x0 = x) by (eapply at_index_fun; eassumption). subst. f_equal. auto.
  Qed.
  Lemma total_snoc : forall f i l s b x y, legs_total t f i l y -> leg_branch t s b -> at_index (f b) i x ->
    legs_total t f i (l ++ [s]) (y + x).
  Proof.
    intros f i l s b x y H Hb Hx. induction H; cbn.
    - replace (0 + x) with (x + 0) by ring. econstructor; eauto. constructor.
    - rewrite Rplus_assoc. econstructor; eauto.
  Qed.
  Lemma total_nonneg : forall f i l x, legs_total t f i l x ->
    (forall s b y, In s l -> leg_branch t s b -> In y (f b) -> 0 <= y) -> 0 <= x.
  Proof.
    intros f i l x H. induction H; intros P; [lra|].
    assert (0 <= x). { apply (P s b); [left; reflexivity|assumption|]. apply at_index_pos in H0. apply nth_error_In in H0. assumption. }
    assert (0 <= y) by (apply IHlegs_total; intros; eapply P; eauto; right; assumption). lra.
  Qed.

  Variables (i j : Z) (q : R).
  Lemma reached_nil : reached t i j q [] 0 0.
  Proof. exists 0, 0, 0, 0. repeat split; try constructor; unfold mix; ring. Qed.
  Lemma reached_fun : forall l d tm d' tm', reached t i j q l d tm -> reached t i j q l d' tm' -> d = d' /\ tm = tm'.
  Proof.
    intros l d tm d' tm' [a [b [u [v [A [B [U [V [-> ->]]]]]]]]] [a' [b' [u' [v' [A' [B' [U' [V' [-> ->]]]]]]]]].
    rewrite (total_fun _ _ _ _ _ A A'), (total_fun _ _ _ _ _ B B'), (total_fun _ _ _ _ _ U U'), (total_fun _ _ _ _ _ V V').
    split; reflexivity.
  Qed.

  Lemma turn_spec : forall b isP p x, turnDepth_of t b isP p = Ok x -> gets_to t b isP p x.
  Proof.
    intros b isP p x H. unfold turnDepth_of in H. cbn [n_ltb n_leb Num_R] in H.
    destruct (Rltb_spec (tb_maxRP b) p) as [A|A]; [left; injection H as <-; auto|].
    destruct (Rleb_spec p (tb_minRP b)) as [B|B]; [right; left; injection H as <-; split; [lra|auto]|].
    right; right. split; [lra|]. split; [lra|].
    inv_as H as fluid Hf. exists (if fluid then true else isP). split; [exact H|].
    destruct isP.
    - injection Hf as <-. split; auto.
    - inv_as Hf as mid Hm. apply py_div_R_inv in Hm. destruct Hm as [_ Em]. rewrite n_2_R in Em. cbn [n_add Num_R] in Em. subst mid.
      injection Hf as <-. destruct (depthInFluid (tm_sMod t) ((tb_top b + tb_bot b) / 2)) eqn:E.
      + apply fluid_iff in E. split; auto.
      + split; [discriminate|]. intros [X|X]; [discriminate|]. apply fluid_iff in X. congruence.
  Qed.

  Variables (hd : bool) (p : R).
  Hypothesis Hj : j = if hd then i else (i + 1)%Z.
  Lemma step_spec : forall st s st' done, pierce_step t hd i q p st s = Ok st' ->
    reached t i j q done (pc_dist st) (pc_time st) ->
    reached t i j q (done ++ [s]) (pc_dist st') (pc_time st') /\
    exists z, leg_end t p s z /\
      ((/ 10 ^ 10 < Rabs (pc_time st' - pc_time st) /\ pc_out st' = pc_out st ++ [mkTD p (pc_time st') (pc_dist st') z]) \/
       (Rabs (pc_time st' - pc_time st) <= / 10 ^ 10 /\ pc_out st' = pc_out st)).
  Proof.
    intros st s st' done H Hr. unfold pierce_step in H.
    inv_as H as b Hb. inv_as H as x Hx. inv_as H as dA HdA. inv_as H as tA HtA. inv_as H as [dB tB] HB.
    apply py_index_iff in Hb. apply py_index_iff in HdA. apply py_index_iff in HtA. apply turn_spec in Hx.
    assert (Hb' : leg_branch t s b) by exact Hb.
    assert (HB' : at_index (tb_dist b) j dB /\ at_index (tb_time b) j tB).
    { rewrite Hj. destruct hd; [injection HB as <- <-; auto|].
      inv_as HB as e He. inv_as HB as u Hu. injection HB as <- <-. split; apply py_index_iff; assumption. }
    destruct HB' as [HdB HtB]. clear HB Hb. injection H as <-. cbn [pc_dist pc_time pc_out n_add n_mul n_sub Num_R n_abs n_ltb].
    split.
    - destruct Hr as [d0 [d1 [t0 [t1 [A [B [C [D [-> ->]]]]]]]]].
      exists (d0 + dA), (d1 + dB), (t0 + tA), (t1 + tB).
      do 4 (split; [eapply total_snoc; eassumption|]). unfold mix. split; ring.
    - exists (if sg_down s then Rmin (tb_bot b) x else Rmin (tb_top b) x). split.
      + exists b, x. auto.
      + change (Rlit 1 (-10)) with (n_lit 1 (-10) : R). rewrite lit_tiny, !py_min_R.
        rewrite (Rabs_minus_sym _ (pc_time st)).
        destruct (Rltb_spec (/ 10 ^ 10) (Rabs (pc_time st - (pc_time st + (q * (tB - tA) + tA))))) as [L|L].
        * left. split; [exact L|]. destruct (sg_down s); reflexivity.
        * right. split; [lra|reflexivity].
  Qed.
  Lemma fold_spec : forall l st st' done, foldM (pierce_step t hd i q p) l st = Ok st' ->
    reached t i j q done (pc_dist st) (pc_time st) ->
    reached t i j q (done ++ l) (pc_dist st') (pc_time st') /\
    exists pts, pc_out st' = pc_out st ++ pts /\ pierced t i j q p done l pts.
  Proof.
    induction l as [|s l IH]; intros st st' done H Hr; cbn [foldM] in H.
    - injection H as <-. rewrite app_nil_r. split; [assumption|]. exists []. rewrite app_nil_r. split; [reflexivity|constructor].
    - inv_as H as st1 H1. destruct (step_spec _ _ _ _ H1 Hr) as [Hr1 [z [Hz Hc]]].
      destruct (IH _ _ _ H Hr1) as [Hr2 [pts [E P]]]. rewrite <- app_assoc in Hr2. split; [exact Hr2|].
      destruct Hc as [[L Eo]|[L Eo]].
      + exists (mkTD p (pc_time st1) (pc_dist st1) z :: pts). split; [rewrite E, Eo, <- app_assoc; reflexivity|].
        econstructor; eassumption.
      + exists pts. split; [rewrite E, Eo; reflexivity|]. eapply pi_skip; eassumption.
  Qed.

  (** the last point *)
  Lemma pierced_last : forall l done s pts d tm d' tm', pierced t i j q p done (l ++ [s]) pts ->
    reached t i j q (done ++ l) d tm -> reached t i j q (done ++ l ++ [s]) d' tm' -> / 10 ^ 10 < Rabs (tm' - tm) ->
    exists pts' z, pts = pts' ++ [mkTD p tm' d' z] /\ leg_end t p s z.
  Proof.
    clear Hj. induction l as [|s0 l IH]; intros done s pts d tm d' tm' H Hr Hr' L; cbn [app] in *.
    - rewrite app_nil_r in Hr. inversion H; subst.
      + destruct (reached_fun _ _ _ _ _ Hr H2) as [<- <-]. destruct (reached_fun _ _ _ _ _ Hr' H3) as [-> ->].
        inversion H8; subst. exists [], z. auto.
      + destruct (reached_fun _ _ _ _ _ Hr H2) as [<- <-]. destruct (reached_fun _ _ _ _ _ Hr' H3) as [-> ->]. lra.
    - inversion H; subst.
      + destruct (IH (done ++ [s0]) s pts0 d tm d' tm' H8) as [pts' [z' [-> Hz]]]; try rewrite <- app_assoc; auto.
        exists (mkTD p tm'0 d'0 z :: pts'), z'. auto.
      + destruct (IH (done ++ [s0]) s pts d tm d' tm' H8) as [pts' [z' [-> Hz]]]; try rewrite <- app_assoc; auto.
        exists pts', z'. auto.
  Qed.
End Legs.

(** times and distances grow *)
Section Mono.
  Variable t : tmodel R.
  Hypothesis Pos : forall b x, In b (tm_P t) \/ In b (tm_S t) -> In x (tb_dist b) \/ In x (tb_time b) -> 0 <= x.
  Variables (i j : Z) (q : R).
  Hypothesis Hq : 0 <= q <= 1.
  Lemma branch_pos : forall s b x, leg_branch t s b -> In x (tb_dist b) \/ In x (tb_time b) -> 0 <= x.
  Proof.
    intros s b x H. apply Pos. unfold leg_branch in H. apply at_index_pos in H. apply nth_error_In in H.
    destruct (sg_isP s); [left|right]; exact H.
  Qed.
  Lemma total_split : forall f k l s x, legs_total t f k (l ++ [s]) x ->
    exists b y z, leg_branch t s b /\ at_index (f b) k z /\ legs_total t f k l y /\ x = y + z.
  Proof.
    intros f k l s. induction l as [|a l IH]; intros x H; cbn in H; inversion H; subst.
    - inversion H5; subst. exists b, 0, x0. split; [assumption|]. split; [assumption|]. split; [constructor|ring].
    - destruct (IH _ H5) as [b' [y' [z [A [B [C ->]]]]]]. exists b', (x0 + y'), z. split; [assumption|]. split; [assumption|]. split; [econstructor; eassumption|ring].
  Qed.
  Lemma reached_grows : forall l s d tm d' tm', reached t i j q l d tm -> reached t i j q (l ++ [s]) d' tm' -> d <= d' /\ tm <= tm'.
  Proof.
    intros l s d tm d' tm' [a [b [u [v [A [B [U [V [-> ->]]]]]]]]] [a' [b' [u' [v' [A' [B' [U' [V' [-> ->]]]]]]]]].
    assert (G : forall f k x y, (f = tb_dist \/ f = tb_time) -> legs_total t f k l x -> legs_total t f k (l ++ [s]) y -> x <= y).
    { intros f k x y Hf Hx Hy. apply total_split in Hy. destruct Hy as [e [y' [z [X [Y [Z ->]]]]]].
      rewrite (total_fun _ _ _ _ _ _ Hx Z). assert (0 <= z); [|lra]. apply at_index_pos in Y. apply nth_error_In in Y.
      eapply branch_pos; [eassumption|]. destruct Hf as [->| ->]; [left|right]; assumption. }
    assert (a <= a') by (eapply G; [left; reflexivity| |]; eassumption).
    assert (b <= b') by (eapply G; [left; reflexivity| |]; eassumption).
    assert (u <= u') by (eapply G; [right; reflexivity| |]; eassumption).
    assert (v <= v') by (eapply G; [right; reflexivity| |]; eassumption).
    unfold mix. split; apply Rplus_le_compat; apply Rmult_le_compat_l; lra.
  Qed.
  Lemma pierced_grows : forall p done l pts d tm, pierced t i j q p done l pts -> reached t i j q done d tm ->
    never_back pts /\ forall x, In x pts -> tm <= td_time x /\ d <= td_dist x.
  Proof.
    intros p done l pts d tm H. revert d tm. induction H; intros e u Hr.
    - split; [intros m n x y _ Hx; destruct m; discriminate|intros x []].
    - destruct (IHpierced _ _ H0) as [N F]. destruct (reached_fun _ _ _ _ _ _ _ _ _ Hr H) as [-> ->].
      destruct (reached_grows _ _ _ _ _ _ H H0) as [G1 G2]. split.
      + intros [|m] [|n] x y L Hx Hy; try lia; cbn in Hx, Hy.
        * injection Hx as <-. apply nth_error_In in Hy. exact (F _ Hy).
        * exact (N m n x y ltac:(lia) Hx Hy).
      + intros x [<-|Hx]; [cbn; auto|]. destruct (F _ Hx). split; lra.
    - destruct (IHpierced _ _ H0) as [N F]. destruct (reached_fun _ _ _ _ _ _ _ _ _ Hr H) as [-> ->].
      destruct (reached_grows _ _ _ _ _ _ H H0) as [G1 G2]. split; [exact N|].
      intros x Hx. destruct (F _ Hx). split; lra.
  Qed.
End Mono.

(** ** the ray number *)
Lemma first_run_spec : forall p l k f, decreasing l -> 
  let i := first_run_ge p k l f in
  (i = f /\ forall x, In x l -> x < p) \/
  ((k <= i)%Z /\ (exists x, nth_error l (Z.to_nat (i - k)) = Some x /\ p <= x) /\
   forall n x, (Z.to_nat (i - k) < n)%nat -> nth_error l n = Some x -> x < p).
Proof.
  intros p l. induction l as [|x l IH]; intros k f Dec; cbn [first_run_ge].
  - left. split; [reflexivity|intros y []].
  - cbn [n_leb Num_R]. assert (Dl : decreasing l) by (apply Sorted.StronglySorted_inv in Dec; exact (proj1 Dec)).
    destruct (Rleb_spec p x) as [L|L].
    + right. destruct (IH (k + 1)%Z k Dl) as [[E F]|[A [[y [B C]] F]]].
      * rewrite E. rewrite Z.sub_diag. split; [lia|]. split; [exists x; auto|].
        intros [|n] y Ln Hn; [lia|]. apply F. exact (nth_error_In l n Hn).
      * set (i := first_run_ge p (k + 1) l k) in *. split; [lia|].
        replace (Z.to_nat (i - k)) with (S (Z.to_nat (i - (k + 1)))) by lia.
        split; [exists y; auto|]. intros [|n] z Ln Hn; [lia|]. apply (F n z); [lia|exact Hn].
    + left. split; [reflexivity|]. intros y Hy. apply In_nth_error in Hy. destruct Hy as [n Hn].
      destruct n as [|n]; cbn in Hn; [injection Hn as <-; lra|].
      assert (X := nth_decreasing (x :: l) 0 (S n) x y Dec ltac:(lia) eq_refl Hn). lra.
Qed.
Lemma decreasing_removelast : forall l : list R, decreasing l -> decreasing (removelast l).
Proof.
  intros l H. induction l as [|x [|y l] IH]; [exact H|constructor|].
  change (removelast (x :: y :: l)) with (x :: removelast (y :: l)). apply Sorted.StronglySorted_inv in H. destruct H as [A B].
  apply Sorted.SSorted_cons; [exact (IH A)|]. apply Forall_forall. intros z Hz. rewrite Forall_forall in B. apply B.
  rewrite (app_removelast_last z (l := y :: l)) by discriminate. apply in_or_app. left. exact Hz.
Qed.
Lemma ray_number_spec : forall p l, decreasing l -> ray_number l p (first_run_ge p 0 (removelast l) 0).
Proof.
  intros p l Dec. destruct (first_run_spec p (removelast l) 0 0 (decreasing_removelast l Dec)) as [[E F]|[A [B C]]].
  - right. rewrite E. auto.
  - left. rewrite Z.sub_0_r in *. split; [exact A|]. split; assumption.
Qed.
Lemma nth_removelast : forall {A} (l : list A) n, nth_error (removelast l) n = if (S n <? List.length l)%nat then nth_error l n else None.
Proof.
  intros A l. induction l as [|x [|y l] IH]; intros n; [destruct n; reflexivity|destruct n; reflexivity|].
  change (removelast (x :: y :: l)) with (x :: removelast (y :: l)). destruct n as [|n]; [reflexivity|].
  cbn [nth_error]. rewrite IH. reflexivity.
Qed.
(** between two samples, or exactly on the first *)
Lemma ray_number_between : forall l p k p0 p1 i, decreasing l ->
  nth_error l k = Some p0 -> nth_error l (S k) = Some p1 -> p1 < p <= p0 -> ray_number l p i -> i = Z.of_nat k.
Proof.
  intros l p k p0 p1 i Dec H0 H1 Hp [Hl|[-> Hn]].
  - destruct Hl as [A [[x [B C]] D]].
    assert (L : (S k < List.length l)%nat) by (apply nth_error_Some; congruence).
    assert (Hk : nth_error (removelast l) k = Some p0).
    { rewrite nth_removelast. destruct (Nat.ltb_spec (S k) (List.length l)); [assumption|lia]. }
    rewrite nth_removelast in B. destruct (Nat.ltb_spec (S (Z.to_nat i)) (List.length l)) as [Li|Li]; [|discriminate].
    destruct (lt_eq_lt_dec (Z.to_nat i) k) as [[Q|Q]|Q]; [|lia|].
    + specialize (D k p0 Q Hk). lra.
    + exfalso. destruct (Nat.eq_dec (Z.to_nat i) (S k)) as [E|E].
      * rewrite E in B. assert (x = p1) by congruence. lra.
      * assert (X := nth_decreasing l (S k) (Z.to_nat i) p1 x Dec ltac:(lia) H1 B). lra.
  - exfalso. assert (L : (S k < List.length l)%nat) by (apply nth_error_Some; congruence).
    assert (Hk : nth_error (removelast l) k = Some p0).
    { rewrite nth_removelast. destruct (Nat.ltb_spec (S k) (List.length l)); [assumption|lia]. }
    apply nth_error_In in Hk. apply Hn in Hk. lra.
Qed.
(** on the last sample *)
Lemma ray_number_last : forall l p k p0 i, decreasing l ->
  nth_error l k = Some p0 -> List.length l = S (S k) -> nth_error l (S k) = Some p -> ray_number l p i -> i = Z.of_nat k.
Proof.
  intros l p k p0 i Dec H0 Len H1 Hr.
  assert (X := nth_decreasing l k (S k) p0 p Dec ltac:(lia) H0 H1).
  assert (Hk : nth_error (removelast l) k = Some p0).
  { rewrite nth_removelast. destruct (Nat.ltb_spec (S k) (List.length l)); [assumption|lia]. }
  destruct Hr as [Hl|[-> Hn]].
  - destruct Hl as [A [[x [B C]] D]]. rewrite nth_removelast in B.
    destruct (Nat.ltb_spec (S (Z.to_nat i)) (List.length l)) as [Li|Li]; [|discriminate].
    destruct (lt_eq_lt_dec (Z.to_nat i) k) as [[Q|Q]|Q]; [|lia|lia].
    specialize (D k p0 Q Hk). lra.
  - exfalso. apply nth_error_In in Hk. apply Hn in Hk. lra.
Qed.

(** ** the whole function *)
Lemma hd_iff : forall name, is_head_or_diff name = true <-> diffracted name \/ head_wave name.
Proof.
  intros name. unfold is_head_or_diff, diffracted, head_wave. rewrite !orb_true_iff, !str_in_iff. tauto.
Qed.
Lemma pierce_main : forall (ph : phase R) a a', calcPierceFromArrival ph a = Ok a' ->
  decreasing (tm_rayParams (ph_tMod ph)) ->
  let t := ph_tMod ph in let hd := is_head_or_diff (ph_name ph) in
  exists i q d0 d1 p0 p1 pts d tm,
    ray_number (tm_rayParams t) (ar_rayParam a) i /\
    at_index (ph_dist ph) (ar_index a) d0 /\ at_index (ph_dist ph) (ar_index a + 1) d1 /\
    at_index (ph_rayParams ph) (ar_index a) p0 /\ at_index (ph_rayParams ph) (ar_index a + 1) p1 /\
    d0 <> d1 /\ ar_dist a = mix q d0 d1 /\
    let j := if hd then i else (i + 1)%Z in
    pierced t i j q (mix q p0 p1) [] (ph_seq ph) pts /\ reached t i j q (ph_seq ph) d tm /\
    let all := mkTD (mix q p0 p1) 0 0 (tm_sourceDepth t) :: pts in
    (exists out, (if hd then handleHeadOrDiffractedWave ph a all
       else if str_in "kmps" (ph_name ph) then Ok (all ++ [mkTD (mix q p0 p1) (ar_time a) (ar_dist a) 0]) else Ok all) = Ok out /\
     a' = mkArr (ar_time a) (ar_dist a) (ar_rayParam a) (ar_index a) (ar_name a) (ar_purist a)
            (ar_sourceDepth a) (ar_takeoff a) (ar_incident a) out (ar_path a)).
Proof.
  intros ph a a' H Dec t hd. unfold calcPierceFromArrival in H. fold t in H. fold hd in H.
  inv_as H as p0 Hp0. inv_as H as p1 Hp1. inv_as H as d0 Hd0. inv_as H as d1 Hd1. inv_as H as q Hq.
  apply py_index_iff in Hp0, Hp1, Hd0, Hd1. apply py_div_R_inv in Hq. destruct Hq as [Nz Eq]. cbn [n_sub Num_R] in Nz, Eq.
  inv_as H as st Hst. inv_as H as out Ho. injection H as <-.
  assert (Ep : n_add (n_mul q (n_sub p1 p0)) p0 = mix q p0 p1) by (unfold mix; cbn [n_add n_mul n_sub Num_R]; ring).
  rewrite Ep in Hst, Ho. rewrite n_0_R in Hst, Ho.
  set (i := first_run_ge (ar_rayParam a) 0 (removelast (tm_rayParams t)) 0) in *.
  destruct (fold_spec t i (if hd then i else (i + 1)%Z) q hd (mix q p0 p1) eq_refl _ _ _ [] Hst) as [Hr [pts [E P]]].
  { cbn. apply reached_nil. }
  cbn in Hr, E.
  exists i, q, d0, d1, p0, p1, pts, (pc_dist st), (pc_time st).
  split; [apply ray_number_spec; exact Dec|]. do 4 (split; [assumption|]). split; [lra|].
  split; [unfold mix; subst q; field; exact Nz|].
  cbn zeta. split; [exact P|]. split; [exact Hr|]. exists out. split; [|reflexivity].
  rewrite E in Ho. exact Ho.
Qed.

(** ** arrivals of a sampled curve *)
Lemma mix_ratio : forall q d0 d1 s, d0 <> d1 -> s = mix q d0 d1 -> q = (s - d0) / (d1 - d0).
Proof. intros q d0 d1 s H ->. unfold mix. field. lra. Qed.
Lemma on_line_mix : forall q d0 d1 y0 y1 s y, s = mix q d0 d1 -> on_line d0 y0 d1 y1 s y -> y = mix q y0 y1.
Proof.
  intros q d0 d1 y0 y1 s y E [N H]. unfold mix in *. subst s.
  apply (Rmult_eq_reg_r (d1 - d0)); [|lra]. 
  replace (y * (d1 - d0)) with ((y - y0) * (d1 - d0) + y0 * (d1 - d0)) by ring. rewrite H. ring.
Qed.
Lemma mix_bounds : forall q d0 d1 s, d0 <> d1 -> s = mix q d0 d1 -> between d0 s d1 -> 0 <= q <= 1.
Proof.
  intros q d0 d1 s N -> [B|B]; unfold mix in B.
  - assert (0 < d1 - d0) by lra. split.
    + apply (Rmult_le_reg_r (d1 - d0)); [assumption|]. lra.
    + apply (Rmult_le_reg_r (d1 - d0)); [assumption|]. lra.
  - assert (0 < d0 - d1) by lra. split.
    + apply (Rmult_le_reg_r (d0 - d1)); [assumption|]. lra.
    + apply (Rmult_le_reg_r (d0 - d1)); [assumption|]. lra.
Qed.
Lemma nth_at : forall {A} (l : list A) k n x y, k = Z.of_nat n -> at_index l k x -> nth_error l n = Some y -> x = y.
Proof. intros A l k n x y -> H1 H2. apply at_index_nat in H1. congruence. Qed.
Lemma curve_nth : forall ph k p d tm, nth_error (curve_of ph) k = Some (p, d, tm) <->
  nth_error (ph_rayParams ph) k = Some p /\ nth_error (ph_dist ph) k = Some d /\ nth_error (ph_time ph) k = Some tm.
Proof. intros. unfold curve_of, point. rewrite nth_error_combine, nth_error_combine. tauto. Qed.

(** the arrivals of a phase lie on its curve *)
Lemma arrival_on_curve : forall fuel (ph : phase R) deg l a,
  ph_calcTime fuel ph deg = Ok l -> In a l ->
  List.length (ph_dist ph) = List.length (ph_rayParams ph) -> List.length (ph_time ph) = List.length (ph_rayParams ph) ->
  exists k q, on_curve ph a k q.
Proof.
  intros fuel ph deg l a H Hin L1 L2.
  destruct (calcTime_sound _ _ _ _ _ H Hin) as [_ [_ [k [Ek [P I]]]]].
  destruct (interp_values _ _ _ _ I) as [d0 [d1 [t0 [t1 [p0 [p1 [C0 [C1 [D0 [D1 [F0 [F1 [U V]]]]]]]]]]]]].
  destruct P as [g0 [g1 [h0 [h1 [G0 [G1 [H0 [H1 [Bt [Lst _]]]]]]]]]].
  assert (g0 = d0) by congruence. assert (g1 = d1) by congruence. subst g0 g1.
  assert (N : d0 <> d1) by apply U.
  assert (Eq : ar_dist a = mix ((ar_dist a - d0) / (d1 - d0)) d0 d1) by (unfold mix; field; lra).
  exists k, ((ar_dist a - d0) / (d1 - d0)), p0, d0, t0, p1, d1, t1.
  split; [apply curve_nth; auto|]. split; [apply curve_nth; auto|]. split; [assumption|]. split; [exact N|].
  split; [eapply mix_bounds; eassumption|].
  split.
  { intros E. rewrite E in Eq. unfold curve_of, point. rewrite !combine_length, L1, L2, !Nat.min_id, <- L1. apply Lst.
    rewrite Eq. unfold mix. ring. }
  split; [exact Eq|]. split; eapply on_line_mix; eassumption.
Qed.
Lemma on_curve_at : forall ph a k q q' d0 d1 p0 p1, on_curve ph a k q ->
  at_index (ph_dist ph) (ar_index a) d0 -> at_index (ph_dist ph) (ar_index a + 1) d1 ->
  at_index (ph_rayParams ph) (ar_index a) p0 -> at_index (ph_rayParams ph) (ar_index a + 1) p1 ->
  ar_dist a = mix q' d0 d1 -> q' = q /\ ar_rayParam a = mix q p0 p1.
Proof.
  intros ph a k q q' d0 d1 p0 p1 [r0 [e0 [t0 [r1 [e1 [t1 [N0 [N1 [Ek [Nd [Hq [Hl [Ed [Et Ep]]]]]]]]]]]]]] A0 A1 B0 B1 Eq.
  apply curve_nth in N0, N1. destruct N0 as [R0 [D0 _]], N1 as [R1 [D1 _]].
  assert (Ek1 : (ar_index a + 1)%Z = Z.of_nat (S k)) by lia.
  assert (X := nth_at _ _ _ _ _ Ek A0 D0). subst e0. assert (X := nth_at _ _ _ _ _ Ek1 A1 D1). subst e1.
  assert (X := nth_at _ _ _ _ _ Ek B0 R0). subst r0. assert (X := nth_at _ _ _ _ _ Ek1 B1 R1). subst r1.
  split; [|exact Ep]. rewrite (mix_ratio _ _ _ _ Nd Eq), (mix_ratio _ _ _ _ Nd Ed). reflexivity.
Qed.

(** the ray lies between samples [lo + k] and [lo + k + 1] of the model, unless it is the phase's last one *)
Lemma arrival_ray : forall (ph : phase R) a k q lo hi i,
  on_curve ph a k q ->
  decreasing (tm_rayParams (ph_tMod ph)) -> (0 <= lo)%Z -> sampled_curve (ph_tMod ph) (ph_seq ph) lo hi (curve_of ph) ->
  ray_number (tm_rayParams (ph_tMod ph)) (ar_rayParam a) i ->
  (i = (lo + Z.of_nat k)%Z /\ reached (ph_tMod ph) i (i + 1) q (ph_seq ph) (ar_dist a) (ar_time a) /\
    (q <> 1 \/ Z.of_nat (List.length (tm_rayParams (ph_tMod ph))) = (hi + 1)%Z)) \/
   (i = hi /\ q = 1 /\ (hi + 1 < Z.of_nat (List.length (tm_rayParams (ph_tMod ph))))%Z /\
    at_index (tm_rayParams (ph_tMod ph)) hi (ar_rayParam a) /\
    legs_total (ph_tMod ph) tb_dist hi (ph_seq ph) (ar_dist a) /\ legs_total (ph_tMod ph) tb_time hi (ph_seq ph) (ar_time a)).
Proof.
  intros ph a k q lo hi i [p0 [d0 [t0 [p1 [d1 [t1 [N0 [N1 [Ek [Nd [Hq [Hl [Ed [Et Ep]]]]]]]]]]]]]] Dec Hlo [Lc C] Hi.
  destruct (C _ _ _ _ N0) as [S0 [D0 T0]]. destruct (C _ _ _ _ N1) as [S1 [D1 T1]].
  apply at_index_nonneg in S0, S1; try lia.
  replace (lo + Z.of_nat (S k))%Z with (lo + Z.of_nat k + 1)%Z in * by lia.
  replace (Z.to_nat (lo + Z.of_nat k + 1)) with (S (Z.to_nat (lo + Z.of_nat k))) in S1 by lia.
  assert (Lt : p1 < p0) by (eapply (nth_decreasing _ (Z.to_nat (lo + Z.of_nat k))); [exact Dec| |exact S0|exact S1]; lia).
  assert (Lr : (S (Z.to_nat (lo + Z.of_nat k)) < List.length (tm_rayParams (ph_tMod ph)))%nat) by (apply nth_error_Some; congruence).
  assert (Rc : reached (ph_tMod ph) (lo + Z.of_nat k) (lo + Z.of_nat k + 1) q (ph_seq ph) (ar_dist a) (ar_time a)).
  { exists d0, d1, t0, t1. auto 10. }
  destruct (Req_dec q 1) as [E1|N]; [subst q|].
  - assert (Ep1 : ar_rayParam a = p1) by (rewrite Ep; unfold mix; ring).
    assert (Eh : (lo + Z.of_nat k + 1 = hi)%Z) by (specialize (Hl eq_refl); lia).
    destruct (Z.eq_dec (Z.of_nat (List.length (tm_rayParams (ph_tMod ph)))) (hi + 1)) as [El|El].
    + left. assert (Ei : i = (lo + Z.of_nat k)%Z).
      { rewrite (ray_number_last _ (ar_rayParam a) (Z.to_nat (lo + Z.of_nat k)) p0 i Dec S0 ltac:(lia) ltac:(rewrite Ep1; exact S1) Hi). lia. }
      rewrite Ei. split; [reflexivity|]. split; [exact Rc|]. right. exact El.
    + right. destruct (nth_error (tm_rayParams (ph_tMod ph)) (S (S (Z.to_nat (lo + Z.of_nat k))))) as [p2|] eqn:E2.
      2:{ apply nth_error_None in E2. lia. }
      assert (Lt2 : p2 < p1) by (eapply (nth_decreasing _ (S (Z.to_nat (lo + Z.of_nat k)))); [exact Dec| |exact S1|exact E2]; lia).
      assert (Ei : i = hi).
      { rewrite (ray_number_between _ (ar_rayParam a) (S (Z.to_nat (lo + Z.of_nat k))) p1 p2 i Dec S1 E2 ltac:(lra) Hi). lia. }
      split; [exact Ei|]. split; [reflexivity|]. split; [lia|].
      rewrite <- Eh. split; [apply at_index_nonneg; [lia|]; rewrite Ep1; replace (Z.to_nat (lo + Z.of_nat k + 1)) with (S (Z.to_nat (lo + Z.of_nat k))) by lia; exact S1|].
      assert (Ed1 : ar_dist a = d1) by (rewrite Ed; unfold mix; ring). assert (Et1 : ar_time a = t1) by (rewrite Et; unfold mix; ring).
      rewrite Ed1, Et1. auto.
  - left. assert (Ei : i = (lo + Z.of_nat k)%Z).
    { assert (Bp : p1 < ar_rayParam a <= p0). { rewrite Ep. unfold mix. assert (0 < 1 - q) by lra. assert (0 < (1 - q) * (p0 - p1)) by (apply Rmult_lt_0_compat; lra). assert (0 <= q * (p0 - p1)) by (apply Rmult_le_pos; lra). lra. }
      rewrite (ray_number_between _ (ar_rayParam a) (Z.to_nat (lo + Z.of_nat k)) p0 p1 i Dec S0 S1 Bp Hi). lia. }
    rewrite Ei. split; [reflexivity|]. split; [exact Rc|]. left. exact N.
Qed.

(** ** head and diffracted waves *)
Lemma head_fold : forall z tm d n l k out r, IZR n <> 0 ->
  foldM (head_step z tm d n) l (k, out) = Ok r -> exists l', snd r = out ++ l' /\ along z d tm n k l l'.
Proof.
  intros z tm d n l. induction l as [|x l IH]; intros k out r Hn H; cbn [foldM] in H.
  - injection H as <-. exists []. rewrite app_nil_r. split; [reflexivity|constructor].
  - inv_as H as st H1. unfold head_step in H1. rewrite !n_int_R in H1. cbn [n_mul n_add n_eqb Num_R] in H1.
    repeat (rewrite ?py_div_R in H1 by exact Hn; cbn [bind] in H1).
    destruct (Reqb_spec (td_depth x) z) as [E|E].
    + injection H1 as <-. apply IH in H; [|exact Hn]. destruct H as [l' [-> A]].
      eexists. rewrite <- app_assoc. split; [reflexivity|]. apply al_at; assumption.
    + injection H1 as <-. apply IH in H; [|exact Hn]. destruct H as [l' [-> A]].
      eexists. rewrite <- app_assoc. split; [reflexivity|]. apply al_other; assumption.
Qed.
Lemma head_word : forall name ps, head_segment name = Ok ps -> boundary_wave name ps.
Proof.
  intros name ps H. unfold head_segment in H. cbn [find] in H. unfold boundary_wave, head_wave.
  destruct (str_in "Pn" name) eqn:E1; [injection H as <-; apply str_in_iff in E1; auto|].
  assert (N1 : ~ contains "Pn" name) by (intros X; apply str_in_iff in X; congruence).
  destruct (str_in "Sn" name) eqn:E2; [injection H as <-; apply str_in_iff in E2; auto|].
  assert (N2 : ~ contains "Sn" name) by (intros X; apply str_in_iff in X; congruence).
  destruct (str_in "Pdiff" name) eqn:E3; [injection H as <-; apply str_in_iff in E3; tauto|].
  assert (N3 : ~ contains "Pdiff" name) by (intros X; apply str_in_iff in X; congruence).
  destruct (str_in "Sdiff" name) eqn:E4; [injection H as <-; apply str_in_iff in E4; tauto|]. discriminate.
Qed.
Lemma prefix_app : forall p b, prefix p (p ++ b) = true.
Proof.
  induction p as [|c p IH]; intros b; [destruct b; reflexivity|]. cbn. destruct (ascii_dec c c); [apply IH|contradiction].
Qed.
Lemma count_fuel_pos : forall f p s a b, p <> ""%string -> s = (a ++ p ++ b)%string -> (String.length s < f)%nat ->
  (0 < str_count_fuel f p s)%nat.
Proof.
  induction f as [|f IH]; intros p s a b Hp E L; [lia|]. cbn [str_count_fuel].
  destruct s as [|c s].
  - destruct a; [|discriminate]. destruct p; [contradiction|discriminate].
  - destruct (prefix p (String c s)) eqn:Ep; [lia|]. destruct a as [|c' a].
    + cbn [append] in E. rewrite E, prefix_app in Ep. discriminate.
    + cbn [append] in E. injection E as -> E. apply (IH p s a b Hp E). cbn [String.length] in L. lia.
Qed.
Lemma count_pos : forall ps name, contains ps name -> ps <> ""%string -> (0 < str_count ps name)%nat.
Proof.
  intros ps name [a [b E]] Hp. unfold str_count. eapply count_fuel_pos; [exact Hp|exact E|lia].
Qed.
Lemma handle_spec : forall ph a l out, handleHeadOrDiffractedWave ph a l = Ok out ->
  exists word z d0, boundary_wave (ph_name ph) word /\ boundary_depth (ph_tMod ph) word z /\
    at_index (ph_dist ph) 0 d0 /\
    along z (ar_dist a - d0) ((ar_dist a - d0) * ar_rayParam a) (Z.of_nat (str_count word (ph_name ph))) 0 l out.
Proof.
  intros ph a l out H. unfold handleHeadOrDiffractedWave in H. inv_as H as ps Hps. apply head_word in Hps.
  inv_as H as d0 Hd. apply py_index_iff in Hd. inv_as H as r0 Hr. injection H as <-.
  apply head_fold in Hr.
  2:{ apply not_0_IZR. assert (X := count_pos ps (ph_name ph) (proj1 Hps)).
      assert (ps <> ""%string) by (destruct Hps as [_ [->|[[-> _]|[[-> _]|[-> _]]]]]; discriminate). specialize (X H). lia. }
  destruct Hr as [l' [E A]]. cbn [app] in E. rewrite E.
  eexists ps, _, d0. split; [exact Hps|]. split; [|split; [exact Hd|exact A]].
  unfold boundary_depth. destruct Hps as [_ [->|[[-> _]|[[-> _]|[-> _]]]]]; cbn; auto.
Qed.
Lemma along_last : forall z d tm n l k x out, along z d tm n k (l ++ [x]) out -> td_depth x <> z ->
  let m := IZR (k + points_at z (l ++ [x])) in
  exists l', out = l' ++ [mkTD (td_p x) (td_time x + m * tm / IZR n) (td_dist x + m * d / IZR n) (td_depth x)].
Proof.
  intros z d tm n l. induction l as [|y l IH]; intros k x out H Hx; cbn [app points_at] in *.
  - inversion H; subst; [|contradiction]. inversion H5; subst. destruct (Req_EM_T (td_depth x) z); [contradiction|].
    exists []. cbn. rewrite !Z.add_0_r. reflexivity.
  - destruct (Req_EM_T (td_depth y) z) as [Ez|Nz]; inversion H as [|k0 y0 l0 l1 Hz Ha|k0 y0 l0 l1 Hz Ha]; try contradiction.
    + destruct (IH _ _ _ Ha Hx) as [l'' E]. rewrite E. eexists (_ :: _ :: l''). rewrite <- Z.add_assoc. reflexivity.
    + destruct (IH _ _ _ Ha Hx) as [l'' E]. rewrite E. eexists (_ :: l''). reflexivity.
Qed.
Lemma ray_number_sample : forall l p lo i, decreasing l -> last_sample l p lo -> (exists r, In r l /\ r < p) ->
  ray_number l p i -> i = lo.
Proof.
  intros l p lo i Dec [A [[x [B C]] D]] [y [Hy Ly]] Hi.
  apply In_nth_error in Hy. destruct Hy as [n Hn].
  assert (Ln : (Z.to_nat lo < n)%nat).
  { destruct (lt_eq_lt_dec (Z.to_nat lo) n) as [[Q|Q]|Q]; [exact Q| |].
    - subst n. assert (x = y) by congruence. lra.
    - assert (X := nth_decreasing l n (Z.to_nat lo) y x Dec Q Hn B). lra. }
  destruct (nth_error l (S (Z.to_nat lo))) as [x1|] eqn:E1.
  2:{ apply nth_error_None in E1. assert (n < List.length l)%nat by (apply nth_error_Some; congruence). lia. }
  assert (L1 := D (S (Z.to_nat lo)) x1 ltac:(lia) E1).
  rewrite (ray_number_between l p (Z.to_nat lo) x x1 i Dec B E1 ltac:(lra) Hi). lia.
Qed.

(** ** no exception *)
Lemma turn_defined : forall t b isP p, p <= tb_minRP b -> exists x, turnDepth_of t b isP p = Ok x.
Proof.
  intros t b isP p H. unfold turnDepth_of. cbn [n_ltb n_leb Num_R].
  destruct (Rltb (tb_maxRP b) p); [eauto|]. destruct (Rleb_spec p (tb_minRP b)); [eauto|lra].
Qed.
Lemma fold_defined : forall t hd i q p l st,
  (forall s, In s l -> exists b dA tA dB tB, leg_branch t s b /\ p <= tb_minRP b /\
     at_index (tb_dist b) i dA /\ at_index (tb_time b) i tA /\
     at_index (tb_dist b) (i + 1) dB /\ at_index (tb_time b) (i + 1) tB) ->
  exists st', foldM (pierce_step t hd i q p) l st = Ok st'.
Proof.
  intros t hd i q p l. induction l as [|s l IH]; intros st H; cbn [foldM]; [eauto|].
  destruct (H s (or_introl eq_refl)) as [b [dA [tA [dB [tB [Hb [Hp [A [B [C D]]]]]]]]]].
  unfold pierce_step at 1. unfold getTauBranch. apply py_index_iff in Hb. rewrite Hb. cbn [bind].
  destruct (turn_defined t b (sg_isP s) p Hp) as [x Hx]. rewrite Hx. cbn [bind].
  apply py_index_iff in A, B, C, D. rewrite A, B, C, D. cbn [bind].
  destruct hd; cbn [bind]; apply IH; intros s' Hs'; apply H; right; exact Hs'.
Qed.
Lemma head_defined : forall (z tm d : R) n l st, IZR n <> 0 -> exists r, foldM (head_step z tm d n) l st = Ok r.
Proof.
  intros z tm d n l. induction l as [|x l IH]; intros [k out] Hn; cbn [foldM]; [eauto|].
  assert (E : exists st, head_step z tm d n (k, out) x = Ok st).
  { unfold head_step. cbv beta iota zeta. rewrite !n_int_R. cbn [n_mul n_add n_eqb Num_R].
    repeat (rewrite ?py_div_R by exact Hn; cbn [bind]). destruct (Reqb (td_depth x) z); eauto. }
  destruct E as [st ->]. cbn [bind]. apply IH. exact Hn.
Qed.
Lemma head_word_defined : forall name, is_head_or_diff name = true -> exists ps, head_segment name = Ok ps.
Proof.
  intros name H. unfold is_head_or_diff in H. unfold head_segment. cbn [find].
  destruct (str_in "Pn" name); [eauto|]. destruct (str_in "Sn" name); [eauto|].
  destruct (str_in "Pdiff" name); [eauto|]. destruct (str_in "Sdiff" name); [eauto|]. discriminate.
Qed.
Lemma pierce_defined : forall (ph : phase R) a k q i,
  on_curve ph a k q -> decreasing (tm_rayParams (ph_tMod ph)) -> ray_number (tm_rayParams (ph_tMod ph)) (ar_rayParam a) i ->
  (forall s, In s (ph_seq ph) -> exists b dA tA dB tB, leg_branch (ph_tMod ph) s b /\ ar_rayParam a <= tb_minRP b /\
     at_index (tb_dist b) i dA /\ at_index (tb_time b) i tA /\
     at_index (tb_dist b) (i + 1) dB /\ at_index (tb_time b) (i + 1) tB) ->
  exists a', calcPierceFromArrival ph a = Ok a'.
Proof.
  intros ph a k q i [p0 [d0 [t0 [p1 [d1 [t1 [N0 [N1 [Ek [Nd [Hq [Hl [Ed [Et Ep]]]]]]]]]]]]]] Dec Hi H.
  apply curve_nth in N0, N1. destruct N0 as [R0 [D0 _]], N1 as [R1 [D1 _]].
  assert (X : forall (l : list R) x, nth_error l k = Some x -> py_index l (ar_index a) = Ok x).
  { intros l x Hx. apply py_index_iff. rewrite Ek. apply at_index_nat. exact Hx. }
  assert (Y : forall (l : list R) x, nth_error l (S k) = Some x -> py_index l (ar_index a + 1) = Ok x).
  { intros l x Hx. apply py_index_iff. replace (ar_index a + 1)%Z with (Z.of_nat (S k)) by lia. apply at_index_nat. exact Hx. }
  unfold calcPierceFromArrival. rewrite (X _ _ R0), (Y _ _ R1), (X _ _ D0), (Y _ _ D1). cbn [bind n_sub Num_R].
  rewrite py_div_R by lra. cbn [bind].
  assert (Eq : (ar_dist a - d0) / (d1 - d0) = q) by (rewrite (mix_ratio q d0 d1 (ar_dist a) Nd Ed); reflexivity).
  rewrite Eq.
  assert (Em : n_add (n_mul q (p1 - p0)) p0 = ar_rayParam a) by (rewrite Ep; unfold mix; cbn [n_add n_mul n_sub Num_R]; ring).
  rewrite Em.
  assert (Ei : first_run_ge (ar_rayParam a) 0 (removelast (tm_rayParams (ph_tMod ph))) 0 = i).
  { assert (Z := ray_number_spec (ar_rayParam a) _ Dec). set (j := first_run_ge _ _ _ _) in *. clearbody j.
    clear - Z Hi. destruct Z as [[A [[x [B C]] D]]|[-> E]], Hi as [[A' [[x' [B' C']] D']]|[-> E']]; auto.
    - destruct (lt_eq_lt_dec (Z.to_nat j) (Z.to_nat i)) as [[Q|Q]|Q]; [|lia|].
      + specialize (D _ _ Q B'). lra.
      + specialize (D' _ _ Q B). lra.
    - apply nth_error_In in B. apply E' in B. lra.
    - apply nth_error_In in B'. apply E in B'. lra. }
  rewrite Ei.
  match goal with |- exists a', bind (foldM ?f ?l ?st) _ = _ => destruct (fold_defined (ph_tMod ph) (is_head_or_diff (ph_name ph)) i q (ar_rayParam a) l st H) as [st' Es] end.
  rewrite Es. cbn [bind]. destruct (is_head_or_diff (ph_name ph)) eqn:Eh.
  - destruct (head_word_defined _ Eh) as [ps Hps]. unfold handleHeadOrDiffractedWave. rewrite Hps. cbn [bind].
    destruct (py_index (ph_dist ph) 0) as [g|?|] eqn:Eg.
    2,3: exfalso; destruct (ph_dist ph) as [|g ?] eqn:E; [destruct k; discriminate D0|discriminate Eg].
    cbn [bind]. apply head_word in Hps.
    match goal with |- exists a', bind (bind (foldM (head_step ?z ?t ?d ?n) ?l ?s) _) _ = _ => destruct (head_defined z t d n l s) as [r Hr] end.
    { apply not_0_IZR. assert (Z := count_pos ps (ph_name ph) (proj1 Hps)).
      assert (ps <> ""%string) by (destruct Hps as [_ [->|[[-> _]|[[-> _]|[-> _]]]]]; discriminate). specialize (Z H0). lia. }
    rewrite Hr. cbn [bind]. eauto.
  - destruct (str_in "kmps" (ph_name ph)); cbn [bind]; eauto.
Qed.

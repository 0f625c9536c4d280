(** Proofs about waves of constant velocity (C73). *)
From Coq Require Import ZArith Bool List String Reals Lia Lra Psatz.
From Verif Require Import Base Num PyStr VelocityModel VelSpec SlownessLayer SlownessModel SlowSpec SlowProofs SlowRealProofs TauModel SeismicPhase
  TauSpec TauProofs CurveSpec CurveProofs PathSpec PathProofs PathWholeProofs PathLegProofs MonoSpec MonoProofs LimitSpec LimitProofs
  BullenSpec BullenProofs ShellProps ErrSpec ErrProofs ErrLegProofs ChordSpec.
Import ListNotations.
Local Open Scope list_scope.
Local Open Scope R_scope.

(** ** straight lines *)
Lemma acos_asin' : forall x, -1 <= x <= 1 -> acos x = PI / 2 - asin x.
Proof.
  intros x Hx. pose proof (asin_bound x). pose proof (acos_bound x).
  assert (E : cos (acos x) = cos (PI / 2 - asin x)) by (rewrite cos_acos, cos_shift, sin_asin by lra; reflexivity).
  apply cos_inj; lra || assumption.
Qed.
Lemma quot_range : forall a r, 0 <= a -> 0 < r -> a <= r -> 0 <= a / r <= 1.
Proof.
  intros a r Ha Hr Hl. split; [apply Rmult_le_pos; [lra|apply Rlt_le, Rinv_0_lt_compat; lra]|].
  apply Rmult_le_reg_r with r; [lra|]. unfold Rdiv. rewrite Rmult_assoc, Rinv_l by lra. lra.
Qed.
Lemma angle_out : forall a r, r <= a -> line_angle a r = 0 /\ line_length a r = 0.
Proof. intros a r H. unfold line_angle, line_length. destruct (Rle_dec r a); [auto|contradiction]. Qed.
Lemma angle_in : forall a r, 0 <= a -> 0 < r -> a <= r -> line_angle a r = acos (a / r) /\ line_length a r = sqrt (r * r - a * a).
Proof.
  intros a r Ha Hr Hl. unfold line_angle, line_length. destruct (Rle_dec r a) as [X|X]; [|auto].
  assert (E : a = r) by lra. subst a. split.
  - replace (r / r) with 1 by (field; lra). rewrite acos_1. reflexivity.
  - replace (r * r - r * r) with 0 by ring. rewrite sqrt_0. reflexivity.
Qed.
Lemma angle_snell : forall a r i, 0 <= a -> 0 < r -> a <= r -> 0 <= i <= PI / 2 -> r * sin i = a -> line_angle a r = PI / 2 - i.
Proof.
  intros a r i Ha Hr Hl Hi E. destruct (angle_in a r Ha Hr Hl) as [-> _]. rewrite acos_asin'.
  - f_equal. replace (a / r) with (sin i) by (rewrite <- E; field; lra). apply asin_sin. pose proof PI_RGT_0. lra.
  - pose proof (quot_range a r Ha Hr Hl). lra.
Qed.
(** the whole line, between two points of the sphere *)
Lemma angle_straight : forall a r, 0 <= a <= r -> 0 < r ->
  0 <= line_angle a r <= PI / 2 /\ r * cos (line_angle a r) = a /\ line_length a r = r * sin (line_angle a r) /\
  straight r (2 * line_angle a r) = 2 * line_length a r.
Proof.
  intros a r Ha Hr. destruct (angle_in a r (proj1 Ha) Hr (proj2 Ha)) as [E1 E2].
  pose proof (quot_range a r (proj1 Ha) Hr (proj2 Ha)) as Q. pose proof PI_RGT_0.
  assert (B : 0 <= line_angle a r <= PI / 2).
  { rewrite E1, acos_asin' by lra. pose proof (asin_bound (a / r)). assert (0 <= asin (a / r)) by (rewrite <- asin_0; apply asin_le; lra). lra. }
  assert (C : r * cos (line_angle a r) = a) by (rewrite E1, cos_acos by lra; field; lra).
  assert (S : line_length a r = r * sin (line_angle a r)).
  { rewrite E2. assert (S0 : 0 <= sin (line_angle a r)) by (apply sin_ge_0; lra).
    replace (r * r - a * a) with ((r * sin (line_angle a r)) * (r * sin (line_angle a r))).
    - apply sqrt_square. nra.
    - pose proof (sin2_cos2 (line_angle a r)) as P. unfold Rsqr in P. rewrite <- C at 3 4. nra. }
  split; [exact B|]. split; [exact C|]. split; [exact S|]. unfold straight.
  apply dist_euc_polar.
  - rewrite S. assert (0 <= sin (line_angle a r)) by (apply sin_ge_0; lra). nra.
  - rewrite S, cos_2a_sin. ring.
Qed.

(** ** one layer *)
Lemma uniform_layer : forall m w v k y p td, uniform m w v -> usable m w -> nth_error (sm_layers m w) k = Some y ->
  sl_topDepth y <= sl_botDepth y -> layerTimeDist m p (Z.of_nat k) w = Ok td ->
  0 <= p * v /\ p * v <= sm_radius m - sl_botDepth y /\
  td_dist td = line_angle (p * v) (sm_radius m - sl_topDepth y) - line_angle (p * v) (sm_radius m - sl_botDepth y) /\
  v * td_time td = line_length (p * v) (sm_radius m - sl_topDepth y) - line_length (p * v) (sm_radius m - sl_botDepth y).
Proof.
  intros m w v k y p td [Hv Hun] [Htol Hus] Hy Hup Hl. pose proof (nth_error_In _ _ Hy) as Iy.
  destruct (Hun y Iy) as [Et Eb]. destruct (Hus y Iy) as [R0 Hth]. cbv zeta in R0, Hth.
  pose proof (proj2 (get_iff m w k y) Hy) as Hg. destruct (layer_range _ _ _ _ _ _ Hg Hl) as [P0 [P1 P2]].
  set (rt := sm_radius m - sl_topDepth y) in *. set (rb := sm_radius m - sl_botDepth y) in *.
  assert (A0 : 0 <= p * v) by (apply Rmult_le_pos; lra).
  assert (Ab : p * v <= rb) by (replace rb with (sl_botP y * v) by (rewrite Eb; field; lra); apply Rmult_le_compat_r; lra).
  assert (Lr : rb <= rt) by (unfold rb, rt; lra).
  split; [exact A0|]. split; [exact Ab|].
  destruct (Req_dec rt rb) as [Fl|Nf].
  { destruct (ErrProofs.layer_flat m p _ w y td Hg ltac:(unfold rt, rb in Fl; lra) Hl) as [-> ->]. rewrite Fl. split; ring. }
  destruct (Req_dec rb 0) as [Ce|Nc].
  { assert (Bp : sl_botP y = 0) by (rewrite Eb, Ce; field; lra). assert (p = 0) by lra. subst p.
    assert (T0 : 0 < sl_topP y) by (rewrite Et; apply Rdiv_lt_0_compat; lra).
    destruct (C19_centre m (Z.of_nat k) w y 0 Hg ltac:(unfold rt, rb in *; lra) ltac:(unfold rb in Ce; lra) Bp T0) as [C1 C2].
    destruct (Z.eq_dec (Z.of_nat k) (sm_numLayers m w - 1)) as [En|En]; [|rewrite (C2 (or_intror En)) in Hl; discriminate].
    rewrite (C1 eq_refl En) in Hl. injection Hl as <-. cbn [td_dist td_time]. rewrite Ce, Rmult_0_l.
    destruct (angle_out 0 0 (Rle_refl 0)) as [-> ->]. destruct (angle_in 0 rt (Rle_refl 0) ltac:(lra) ltac:(lra)) as [-> ->].
    replace (0 / rt) with 0 by (field; lra). rewrite acos_0. replace (rt * rt - 0 * 0) with (rt * rt) by ring. rewrite sqrt_square by lra.
    rewrite Et. split; [ring|field; lra]. }
  destruct Hth as [X|[X|Th]]; [contradiction|contradiction|].
  assert (Hr : 0 < rb < rt) by lra.
  assert (Vb : rb / sl_botP y = v) by (rewrite Eb; field; lra). assert (Vt : rt / sl_topP y = v) by (rewrite Et; field; lra).
  destruct (C19_straight_ray m (Z.of_nat k) w y p Hg) as [C _]; fold rt rb; rewrite ?Vb, ?Vt; try assumption.
  { split; [rewrite Et|rewrite Eb]; apply Rdiv_lt_0_compat; lra. }
  { replace (v - v) with 0 by ring. rewrite Rabs_R0. exact Htol. }
  fold rt rb in C. rewrite Vb in C. destruct (C (conj (conj P0 P1) P2)) as [td' [E [_ [_ [_ [_ Ch]]]]]].
  assert (td' = td) by congruence. subst td'.
  destruct (chord_values (p * v) rt rb 1 _ _ Rlt_0_1 Hr Ch) as [Le _].
  destruct Ch as [[it [ib [I0 [I1 [I2 [St [Sb Ex]]]]]]] _]. pose proof PI_RGT_0.
  rewrite (angle_snell _ rt it), (angle_snell _ rb ib) by (try assumption; lra). split; [lra|].
  destruct (angle_in (p * v) rt A0 ltac:(lra) ltac:(lra)) as [_ ->]. destruct (angle_in (p * v) rb A0 ltac:(lra) ltac:(lra)) as [_ ->].
  unfold Rdiv in Le. rewrite !Rinv_1, !Rmult_1_r in Le. exact Le.
Qed.

(** ** one branch *)
Section Down.
  Variables (m : smodel R) (w : bool) (v p : R) (j : nat) (z : slayer R).
  Let ls := sm_layers m w.
  Let rad := sm_radius m.
  Hypothesis Hun : uniform m w v.
  Hypothesis Hus : usable m w.
  Hypothesis Gm : s_meet ls.
  Hypothesis Gu : s_upright ls.
  Hypothesis Hz : nth_error ls j = Some z.

  Lemma uniform_down : forall incs k y, descends m w p k j incs -> (k <= j)%nat -> nth_error ls k = Some y ->
    p * v <= rad - sl_topDepth y ->
    total td_dist incs = line_angle (p * v) (rad - sl_topDepth y) - line_angle (p * v) (rad - sl_botDepth z) /\
    v * total td_time incs = line_length (p * v) (rad - sl_topDepth y) - line_length (p * v) (rad - sl_botDepth z).
  Proof.
    destruct Hun as [Hv Hu].
    induction incs as [|x incs IH]; intros k y Hd Hk Hy Ha; destruct (Hu y (nth_error_In _ _ Hy)) as [Et Eb]; fold rad in Et, Eb.
    - destruct Hd as [_ [_ [_ Hs]]]. cbn [List.length] in Hs. rewrite Nat.add_0_r in Hs.
      destruct Hs as [Hs|[y' [Hy' [Nc Ns]]]]; [lia|]. assert (y' = y) by (unfold ls in Hy; congruence). subst y'.
      assert (Pt : p <= sl_topP y).
      { rewrite Et. apply Rmult_le_reg_r with v; [exact Hv|]. unfold Rdiv. rewrite Rmult_assoc, Rinv_l by lra. lra. }
      assert (Pb : sl_botP y < p).
      { destruct (Rlt_or_le (sl_botP y) p) as [X|X]; [exact X|]. exfalso. apply Nc. split; apply Rleb_le; assumption. }
      assert (E : p = sl_topP y) by (destruct (Rle_lt_or_eq_dec _ _ Pt) as [X|X]; [exfalso; apply (not_spans y p Ns); lra|exact X]).
      assert (Ea : p * v = rad - sl_topDepth y) by (rewrite E, Et; field; lra).
      assert (Lz : sl_topDepth y <= sl_botDepth z).
      { pose proof (upr ls Gu z (nth_error_In _ _ Hz)). destruct (Nat.eq_dec k j) as [X|X].
        - subst k. assert (z = y) by congruence. subst z. lra.
        - pose proof (srt ls Gm Gu k j y z ltac:(lia) Hy Hz). pose proof (upr ls Gu y (nth_error_In _ _ Hy)). lra. }
      destruct (angle_out (p * v) (rad - sl_topDepth y) ltac:(lra)) as [-> ->].
      destruct (angle_out (p * v) (rad - sl_botDepth z) ltac:(lra)) as [-> ->]. rewrite !total_nil'. split; ring.
    - assert (Cr : crosses p y) by (destruct Hd as [_ [C _]]; apply (C 0%nat y); [cbn; lia|rewrite Nat.add_0_r; exact Hy]).
      destruct Cr as [C1 C2]. apply Rleb_le in C1. apply Rleb_le in C2.
      destruct (descends_cross m w j p k (x :: incs) y Hd Hk Hy C1 C2) as [x' [rest [E [Hl Hd']]]]. injection E as <- <-.
      destruct (uniform_layer m w v k y p x Hun Hus Hy (upr ls Gu y (nth_error_In _ _ Hy)) Hl) as [_ [Ab [Dx Tx]]]. fold rad in Ab, Dx, Tx.
      rewrite !total_cons', Rmult_plus_distr_l, Dx, Tx.
      destruct (Nat.eq_dec k j) as [X|X].
      + subst k. assert (z = y) by congruence. subst z. rewrite (descends_end m w j p (S j) incs Hd' ltac:(lia)), !total_nil'. split; ring.
      + assert (Hn : exists y', nth_error ls (S k) = Some y').
        { destruct (nth_error ls (S k)) eqn:En; [eauto|]. apply nth_error_None in En. assert (j < List.length ls)%nat by (apply nth_error_Some; congruence). lia. }
        destruct Hn as [y' Hy']. pose proof (Gm k y y' Hy Hy') as M. apply Reqb_eq in M.
        destruct (IH (S k) y' Hd' ltac:(lia) Hy' ltac:(rewrite <- M; exact Ab)) as [I1 I2]. rewrite I1, I2, M. split; ring.
  Qed.
End Down.

Lemma uniform_leg : forall t w v b k p x tm, rays_ready t -> uniform (tm_sMod t) w v -> usable (tm_sMod t) w -> proper t w v ->
  In b (TauSpec.branches t w) -> nth_error (tm_rayParams t) k = Some p -> nth_error (tb_dist b) k = Some x -> nth_error (tb_time b) k = Some tm ->
  let r := sm_radius (tm_sMod t) in
  x = line_angle (p * v) (r - tb_top b) - line_angle (p * v) (r - tb_bot b) /\
  v * tm = line_length (p * v) (r - tb_top b) - line_length (p * v) (r - tb_bot b).
Proof.
  intros t w v b k p x tm Hrdy Hun Hus Hpr Hb Hk Hx Ht r. pose proof (proj1 Hun) as Hv.
  destruct (Hpr b Hb) as [Hw [Hmax [[yt [It Et]] [yb [Ib Eb]]]]]. fold r in Hmax.
  pose proof Hrdy as [[Pg [U1 U2]] Hr].
  assert (Hb' : In b (tm_P t) \/ In b (tm_S t)) by (destruct w; [left|right]; exact Hb).
  assert (Up : tb_top b < tb_bot b) by (destruct Hb' as [X|X]; [apply U1 in X|apply U2 in X]; apply Rltb_lt in X; exact X).
  destruct (Hr b Hb') as [_ [L1 [L2 [L3 Hv']]]]. rewrite Hw in Hv'.
  assert (Hu : exists u, nth_error (tb_tau b) k = Some u).
  { destruct (nth_error (tb_tau b) k) eqn:E; [eauto|]. apply nth_error_None in E. assert (k < List.length (tm_rayParams t))%nat by (apply nth_error_Some; congruence). lia. }
  destruct Hu as [u Hu]. destruct (Pg w) as [Gm Gu].
  destruct (Hv' k p x tm u Hk Hx Ht Hu) as [_ [[V [E1 E2]]|[V [i [j [incs [A [B [C [D E]]]]]]]]]].
  - apply leb_R_false in V. rewrite n_0_R in E1, E2. subst x tm.
    assert (Lp : r - tb_top b < p * v) by (replace (r - tb_top b) with (tb_maxRP b * v) by (rewrite Hmax; field; lra); apply Rmult_lt_compat_r; lra).
    destruct (angle_out (p * v) (r - tb_top b) ltac:(lra)) as [-> ->]. destruct (angle_out (p * v) (r - tb_bot b) ltac:(lra)) as [-> ->]. split; ring.
  - apply Rleb_le in V. destruct (sum_total incs) as [S1 S2]. rewrite S1 in D. rewrite S2 in E.
    assert (Lp : p * v <= r - tb_top b) by (replace (r - tb_top b) with (tb_maxRP b * v) by (rewrite Hmax; field; lra); apply Rmult_le_compat_r; lra).
    set (ls := sm_layers (tm_sMod t) w) in *.
    destruct A as [[y [Hy [Hy1 Hy2]]] Am]. destruct B as [[z [Hz [Hz1 Hz2]]] Bm].
    apply Rleb_le in Hy1, Hy2, Hz1, Hz2.
    (* the first layer starts and the last one ends with the branch *)
    assert (Ty : sl_topDepth y = tb_top b).
    { apply In_nth_error in It. destruct It as [n Hn]. pose proof (upr ls Gu yt (nth_error_In _ _ Hn)).
      assert (Ln : (n <= i)%nat) by (apply (Am n yt Hn); split; apply Rleb_le; lra).
      destruct (Nat.eq_dec n i) as [X|X]; [subst n; congruence|]. pose proof (srt ls Gm Gu n i yt y ltac:(lia) Hn Hy). lra. }
    assert (Bz : sl_botDepth z = tb_bot b).
    { apply In_nth_error in Ib. destruct Ib as [n Hn]. pose proof (upr ls Gu yb (nth_error_In _ _ Hn)).
      assert (Ln : (j <= n)%nat) by (apply (Bm n yb Hn); split; apply Rleb_le; lra).
      destruct (Nat.eq_dec n j) as [X|X]; [subst n; congruence|]. pose proof (srt ls Gm Gu j n z yb ltac:(lia) Hz Hn). lra. }
    assert (Lij : (i <= j)%nat).
    { destruct (Nat.le_gt_cases i j) as [X|X]; [exact X|]. pose proof (srt ls Gm Gu j i z y X Hz Hy). lra. }
    destruct C as [C|[C _]]; [|lia].
    destruct (uniform_down (tm_sMod t) w v p j z Hun Hus Gm Gu Hz incs i y C Lij Hy ltac:(rewrite Ty; exact Lp)) as [I1 I2].
    rewrite Ty, Bz in I1, I2. subst x tm. split; assumption.
Qed.

(** ** whole phases *)
Section Legs.
  Variables (t : tmodel R) (w : bool) (v p : R) (i : nat).
  Let r := sm_radius (tm_sMod t).
  Let bs := TauSpec.branches t w.
  Hypothesis Hrdy : rays_ready t.
  Hypothesis Hun : uniform (tm_sMod t) w v.
  Hypothesis Hus : usable (tm_sMod t) w.
  Hypothesis Hpr : proper t w v.
  Hypothesis Hp : nth_error (tm_rayParams t) i = Some p.

  (** what a function of the radius changes by across branch [k] *)
  Definition change (F : R -> R) (k : Z) : R :=
    match nth_error bs (Z.to_nat k) with Some b => F (r - tb_top b) - F (r - tb_bot b) | None => 0 end.
  Lemma legs_change : forall l x tm, (forall s, In s l -> sg_isP s = w) -> (forall s, In s l -> (0 <= sg_branch s)%Z) ->
    legs_total t tb_dist (Z.of_nat i) l x -> legs_total t tb_time (Z.of_nat i) l tm ->
    x = PathSpec.total (change (line_angle (p * v))) (map sg_branch l) /\
    v * tm = PathSpec.total (change (line_length (p * v))) (map sg_branch l).
  Proof.
    induction l as [|s l IH]; intros x tm Hw H0 X T.
    - inversion X; inversion T; subst. cbn [map]. rewrite !total_nil. split; [reflexivity|ring].
    - inversion X as [|s0 l0 b x1 x2 Hb Hx X2]; subst. inversion T as [|s1 l1 b' t1 t2 Hb' Ht T2]; subst.
      unfold leg_branch in Hb, Hb'. assert (b' = b) by exact (at_index_fun _ _ _ _ Hb' Hb). subst b'.
      rewrite (Hw s (or_introl eq_refl)) in Hb. change (if w then tm_P t else tm_S t) with bs in Hb.
      pose proof (H0 s (or_introl eq_refl)) as S0. replace (sg_branch s) with (Z.of_nat (Z.to_nat (sg_branch s))) in Hb by lia.
      apply at_index_nat in Hb, Hx, Ht.
      destruct (uniform_leg t w v b i p x1 t1 Hrdy Hun Hus Hpr (nth_error_In _ _ Hb) Hp Hx Ht) as [E1 E2].
      destruct (IH x2 t2 (fun s' I => Hw s' (or_intror I)) (fun s' I => H0 s' (or_intror I)) X2 T2) as [I1 I2].
      cbn [map]. rewrite !total_cons, Rmult_plus_distr_l. unfold change at 1 3. rewrite Hb. fold r in E1, E2. rewrite E1, E2, I1, I2. split; reflexivity.
  Qed.
  Hypothesis Hme : b_meet bs.
  Lemma change_sum : forall F n b0 b, nth_error bs 0 = Some b0 -> nth_error bs n = Some b ->
    PathSpec.total (change F) (map Z.of_nat (seq 0 (S n))) = F (r - tb_top b0) - F (r - tb_bot b).
  Proof.
    intros F n b0. induction n as [|n IH]; intros b H0 Hb.
    - assert (b0 = b) by congruence. subst b0. cbn [seq map]. rewrite total_cons, total_nil. unfold change. cbn [Z.of_nat Z.to_nat]. rewrite Hb. ring.
    - assert (Ha : exists a, nth_error bs n = Some a).
      { destruct (nth_error bs n) eqn:E; [eauto|]. apply nth_error_None in E. assert (S n < List.length bs)%nat by (apply nth_error_Some; congruence). lia. }
      destruct Ha as [a Ha]. rewrite seq_S, map_app, total_app, (IH a H0 Ha). cbn [map Nat.add]. rewrite total_cons, total_nil.
      unfold change. rewrite Nat2Z.id, Hb, (Hme n a b Ha Hb). ring.
  Qed.
  Lemma down_up_values : forall n l x tm b0 b, down_up w (S n) l -> nth_error bs 0 = Some b0 -> tb_top b0 = 0 -> nth_error bs n = Some b ->
    legs_total t tb_dist (Z.of_nat i) l x -> legs_total t tb_time (Z.of_nat i) l tm ->
    x = 2 * (line_angle (p * v) r - line_angle (p * v) (r - tb_bot b)) /\
    v * tm = 2 * (line_length (p * v) r - line_length (p * v) (r - tb_bot b)).
  Proof.
    intros n l x tm b0 b [El Ew] H0 T0 Hb X T.
    assert (Pos : forall s, In s l -> (0 <= sg_branch s)%Z).
    { intros s Hs. assert (I : In (sg_branch s) (map sg_branch l)) by (apply in_map; exact Hs). rewrite El in I. apply in_map_iff in I. destruct I as [k [<- _]]. lia. }
    destruct (legs_change l x tm Ew Pos X T) as [-> ->]. rewrite El, map_app, !total_app, map_rev, !total_rev, !(change_sum _ n b0 b H0 Hb), T0, Rminus_0_r.
    split; ring.
  Qed.
End Legs.

(** ** the straight distance as a function of the angle *)
Lemma straight_sin : forall r x, 0 <= r -> 0 <= x <= PI -> straight r x = 2 * r * sin (x / 2).
Proof.
  intros r x Hr Hx. unfold straight. apply dist_euc_polar.
  - assert (0 <= sin (x / 2)) by (apply sin_ge_0; lra). nra.
  - replace x with (2 * (x / 2)) at 3 by field. rewrite cos_2a_sin. ring.
Qed.
Lemma straight_tangent : forall r x y, 0 <= r -> 0 <= x <= PI -> 0 <= y <= PI ->
  straight r x <= straight r y + r * cos (y / 2) * (x - y).
Proof.
  intros r x y Hr Hx Hy. rewrite !straight_sin by assumption. pose proof PI_RGT_0.
  pose proof (sin_concave (x / 2) (y / 2) ltac:(lra) ltac:(lra)) as S. nra.
Qed.
Lemma line_tangent : forall r a x, 0 < r -> 0 <= a -> 0 <= x <= PI -> a <= r \/ 0 <= x - 2 * line_angle a r ->
  0 <= 2 * line_angle a r <= PI /\ straight r (2 * line_angle a r) = 2 * line_length a r /\
  straight r x <= 2 * line_length a r + a * (x - 2 * line_angle a r).
Proof.
  intros r a x Hr Ha Hx Hc. destruct (Rle_or_lt a r) as [La|La].
  - destruct (angle_straight a r (conj Ha La) Hr) as [A [B [_ D]]]. split; [lra|]. split; [exact D|].
    pose proof (straight_tangent r x (2 * line_angle a r) ltac:(lra) Hx ltac:(lra)) as T. rewrite D in T.
    replace (2 * line_angle a r / 2) with (line_angle a r) in T by field. rewrite B in T. exact T.
  - destruct (angle_out a r ltac:(lra)) as [E1 E2]. rewrite E1, E2. rewrite E1 in Hc. pose proof PI_RGT_0.
    assert (Z : straight r 0 = 0) by (rewrite straight_sin by lra; replace (0 / 2) with 0 by field; rewrite sin_0; ring).
    rewrite Rmult_0_r. split; [lra|]. split; [rewrite Z; ring|].
    pose proof (straight_tangent r x 0 ltac:(lra) Hx ltac:(lra)) as T. rewrite Z in T. replace (0 / 2) with 0 in T by field. rewrite cos_0 in T. nra.
Qed.
(** a time interpolated between two samples of the curve *)
Lemma between_samples : forall r v p0 p1 d0 d1 t0 t1 x tm, 0 < r -> 0 < v -> 0 <= p1 < p0 ->
  d0 = 2 * line_angle (p0 * v) r -> v * t0 = 2 * line_length (p0 * v) r ->
  d1 = 2 * line_angle (p1 * v) r -> v * t1 = 2 * line_length (p1 * v) r ->
  d0 <> d1 -> (d0 <= x <= d1 \/ d1 <= x <= d0) -> (tm - t0) * (d1 - d0) = (t1 - t0) * (x - d0) ->
  d0 < d1 /\ 0 <= straight r x / v - tm <= (p0 - p1) * (d1 - d0) / 4.
Proof.
  intros r v p0 p1 d0 d1 t0 t1 x tm Hr Hv Hp D0 T0 D1 T1 Hd Hx On. pose proof PI_RGT_0.
  assert (A0 : 0 <= p0 * v) by (apply Rmult_le_pos; lra). assert (A1 : 0 <= p1 * v) by (apply Rmult_le_pos; lra).
  assert (Lp : p1 * v < p0 * v) by (apply Rmult_lt_compat_r; lra).
  destruct (line_tangent r (p0 * v) (2 * line_angle (p0 * v) r) Hr A0) as [B0 [S0 _]].
  { destruct (Rle_or_lt (p0 * v) r) as [X|X]; [destruct (angle_straight (p0 * v) r ltac:(lra) Hr); lra|destruct (angle_out (p0 * v) r ltac:(lra)) as [-> _]; lra]. }
  { right. lra. }
  destruct (line_tangent r (p1 * v) (2 * line_angle (p1 * v) r) Hr A1) as [B1 [S1 _]].
  { destruct (Rle_or_lt (p1 * v) r) as [X|X]; [destruct (angle_straight (p1 * v) r ltac:(lra) Hr); lra|destruct (angle_out (p1 * v) r ltac:(lra)) as [-> _]; lra]. }
  { right. lra. }
  rewrite <- D0, <- T0 in *. rewrite <- D1, <- T1 in *.
  assert (L1 : p1 * v <= r).
  { destruct (Rle_or_lt (p1 * v) r) as [X|X]; [exact X|]. exfalso. destruct (angle_out (p1 * v) r ltac:(lra)) as [E1 _]. destruct (angle_out (p0 * v) r ltac:(lra)) as [E0 _]. lra. }
  assert (Lt : d0 < d1).
  { destruct (Rlt_or_le d0 d1) as [X|X]; [exact X|]. exfalso.
    destruct (line_tangent r (p1 * v) d0 Hr A1 B0 (or_introl L1)) as [_ [_ Q1]]. rewrite <- D1, <- T1, S0 in Q1.
    assert (L0 : p0 * v <= r).
    { destruct (Rle_or_lt (p0 * v) r) as [Y|Y]; [exact Y|]. destruct (angle_out (p0 * v) r ltac:(lra)) as [E0 _]. lra. }
    destruct (line_tangent r (p0 * v) d1 Hr A0 B1 (or_introl L0)) as [_ [_ Q0]]. rewrite <- D0, <- T0, S1 in Q0. nra. }
  split; [exact Lt|]. assert (Hx' : d0 <= x <= d1) by lra.
  destruct (line_tangent r (p0 * v) x Hr A0 ltac:(lra)) as [_ [_ Q0]]; [right; lra|]. rewrite <- D0, <- T0 in Q0.
  destruct (line_tangent r (p1 * v) x Hr A1 ltac:(lra)) as [_ [_ Q1]]; [left; exact L1|]. rewrite <- D1, <- T1 in Q1.
  pose proof (straight_tangent r d0 x ltac:(lra) B0 ltac:(lra)) as U0. rewrite S0 in U0.
  pose proof (straight_tangent r d1 x ltac:(lra) B1 ltac:(lra)) as U1. rewrite S1 in U1.
  set (S := straight r x) in *. set (c := r * cos (x / 2)) in *.
  assert (V : v * tm * (d1 - d0) = v * t0 * (d1 - x) + v * t1 * (x - d0)).
  { replace (v * tm * (d1 - d0)) with (v * ((tm - t0) * (d1 - d0)) + v * t0 * (d1 - d0)) by ring. rewrite On. ring. }
  assert (Low : 0 <= (S - v * tm) * (d1 - d0)).
  { assert (M0 : v * t0 * (d1 - x) <= (S + c * (d0 - x)) * (d1 - x)) by (apply Rmult_le_compat_r; lra).
    assert (M1 : v * t1 * (x - d0) <= (S + c * (d1 - x)) * (x - d0)) by (apply Rmult_le_compat_r; lra). lra. }
  assert (High : (S - v * tm) * (d1 - d0) <= (p0 - p1) * v * ((x - d0) * (d1 - x))).
  { assert (M0 : S * (d1 - x) <= (v * t0 + p0 * v * (x - d0)) * (d1 - x)) by (apply Rmult_le_compat_r; lra).
    assert (M1 : S * (x - d0) <= (v * t1 + p1 * v * (x - d1)) * (x - d0)) by (apply Rmult_le_compat_r; lra). lra. }
  assert (Sq : (x - d0) * (d1 - x) <= (d1 - d0) * (d1 - d0) / 4) by (pose proof (Rle_0_sqr ((x - d0) - (d1 - x))) as Z; unfold Rsqr in Z; lra).
  assert (P : 0 <= S - v * tm) by (apply Rmult_le_reg_r with (d1 - d0); [lra|]; lra).
  assert (Q : S - v * tm <= (p0 - p1) * v * ((d1 - d0) / 4)).
  { apply Rmult_le_reg_r with (d1 - d0); [lra|]. apply Rle_trans with (1 := High).
    replace ((p0 - p1) * v * ((d1 - d0) / 4) * (d1 - d0)) with ((p0 - p1) * v * ((d1 - d0) * (d1 - d0) / 4)) by field.
    apply Rmult_le_compat_l; [apply Rmult_le_pos; lra|exact Sq]. }
  replace (S / v - tm) with ((S - v * tm) / v) by (field; lra). split.
  - apply Rmult_le_pos; [exact P|apply Rlt_le, Rinv_0_lt_compat; lra].
  - apply Rmult_le_reg_r with v; [lra|]. unfold Rdiv at 1. rewrite Rmult_assoc, Rinv_l by lra. lra.
Qed.

(** High slowness zones: the invariant of the search. *)
From Coq Require Import ZArith Bool List String Reals Lia Lra Psatz.
From Verif Require Import Base Num PyStr VelocityModel VelSpec VelProofs SlownessLayer SlownessModel
  SlowSpec SlowProofs SlowBuildProofs CritSpec CritProofs SlowRealProofs FindSpec FindProofs StackProofs MonoSpec MonoProofs.
Import ListNotations.
Local Open Scope list_scope.
Local Open Scope R_scope.

(** ** slowness inside a layer *)
Lemma mean_between : forall s va vb tp bp y, 0 < s < 1 -> 0 < va -> 0 < vb ->
  y * (va + (vb - va) * s) = (1 - s) * (tp * va) + s * (bp * vb) ->
  (bp < tp -> bp < y < tp) /\ (tp < bp -> tp < y < bp) /\ (bp <= tp -> bp <= y <= tp) /\ (tp <= bp -> tp <= y <= bp).
Proof.
  intros s va vb tp bp y Hs Ha Hb E.
  assert (P1 : 0 < (1 - s) * va) by (apply Rmult_lt_0_compat; lra).
  assert (P2 : 0 < s * vb) by (apply Rmult_lt_0_compat; lra).
  assert (E1 : (y - tp) * (va + (vb - va) * s) = s * vb * (bp - tp)) by lra.
  assert (E2 : (y - bp) * (va + (vb - va) * s) = (1 - s) * va * (tp - bp)) by lra.
  set (V := va + (vb - va) * s) in *. assert (PV : 0 < V) by (unfold V; nra).
  clearbody V. clear - E1 E2 PV P1 P2. set (A := (1 - s) * va) in *. set (B := s * vb) in *. clearbody A B.
  repeat split; intros; nra.
Qed.
Lemma line_mid : forall a b va vb x, a < b -> line a va b vb x = va + (vb - va) * ((x - a) / (b - a)).
Proof. reflexivity. Qed.

(** three depths [a < x < b] on a straight velocity line *)
Lemma slow_between : forall (V : R -> R) c0 c1 a b x tp bp y, (forall z, V z = c0 + c1 * z) -> a < x < b -> 0 < V a -> 0 < V b ->
  tp * V a = 6371 - a -> bp * V b = 6371 - b -> y * V x = 6371 - x ->
  (bp < tp -> bp < y < tp) /\ (tp < bp -> tp < y < bp) /\ (bp <= tp -> bp <= y <= tp) /\ (tp <= bp -> tp <= y <= bp).
Proof.
  intros V c0 c1 a b x tp bp y HV Hx Pa Pb Ea Eb Ex.
  assert (Hs : 0 < (x - a) / (b - a) < 1).
  { split; [apply Rdiv_lt_0_compat; lra|]. apply Rmult_lt_reg_r with (b - a); [lra|]. unfold Rdiv. rewrite Rmult_assoc, Rinv_l; lra. }
  apply (mean_between ((x - a) / (b - a)) (V a) (V b)); try assumption.
  rewrite Ea, Eb. replace (V a + (V b - V a) * ((x - a) / (b - a))) with (V x).
  - rewrite Ex. field. lra.
  - rewrite !HV. field. lra.
Qed.

(** ** one wave type in one step of the search *)
Definition wl (w : bool) (s : fcstate (T := R)) : slayer R := if w then fc_P s else fc_S s.
Definition whi (w : bool) (s : fcstate (T := R)) : option (R * R) := if w then fc_hiP s else fc_hiS s.
Definition wmin (w : bool) (s : fcstate (T := R)) : R := if w then fc_minP s else fc_minS s.
Definition wz (w : bool) (s : fcstate (T := R)) : list (drange R) := if w then fc_zonesP s else fc_zonesS s.
(** what lines 236-319 do *)
Definition wave1 (discon ext : bool) (pb tp bp dep : R) (hi : option (R * R)) (zs : list (drange R)) (mn : R)
  : option (R * R) * list (drange R) * R :=
  if discon then
    let out := opt_is hi && n_ltb tp mn in
    let zs := if out then close_zone hi dep zs else zs in
    let hi := if out then None else hi in
    let mn := lower_to mn tp in
    (if negb (opt_is hi) && (n_ltb pb tp || n_ltb tp bp) then Some (dep, mn) else hi, zs, mn)
  else if ext then (if negb (opt_is hi) && n_ltb tp bp then Some (dep, mn) else hi, zs, mn)
  else (hi, zs, mn).
Definition wave_step (m : smodel R) (w : bool) (n : Z) (v : vlayer R) (s s' : fcstate (T := R)) : Prop :=
  exists discon ext hi1 z1 mn1 zF, exists pv : bool,
    let tp := sl_topP (wl w s') in let bp := sl_botP (wl w s') in
    let pt := sl_topP (wl w s) in let pb := sl_botP (wl w s) in
    pv = w || ((n_eqb (vl_topS v) n_0) || (fc_below s' && negb (sm_allowInnerCoreS m))) /\
    ends pv v tp bp /\
    (pb <> tp -> discon = true) /\ ((pt - pb) * (pb - bp) < 0 -> discon = true \/ ext = true) /\
    wave1 discon ext pb tp bp (vl_topDepth v) (whi w s) (wz w s) (wmin w s) = (hi1, z1, mn1) /\
    (if opt_is hi1 && n_ltb bp mn1
     then exists d, findDepth m zF mn1 n n pv = Ok d /\ whi w s' = None /\ wz w s' = close_zone hi1 d z1
     else whi w s' = hi1 /\ wz w s' = z1) /\
    wmin w s' = lower_to (lower_to mn1 bp) tp.
Lemma fc_wave : forall m s n v s', fc_step m s (n, v) = Ok s' -> forall w, wave_step m w n v s s'.
Proof.
  intros m s n v s' H w. pose proof (fc_step_out _ _ _ _ _ H) as Q. cbv zeta in Q.
  destruct Q as [_ [QB [_ [_ [EP [ES _]]]]]].
  unfold fc_step in H. cbv zeta in H.
  inv_as H as cP HcP. inv_as H as cS HcS.
  match type of HcS with (if ?b then _ else _) = _ => set (asP := b) in * end.
  pose proof (create_from_vlayer_iff _ _ _ _ HcP) as [I1 [P1 [_ P2]]].
  assert (IS : (sl_id cS =? sl_id cP)%Z = asP).
  { destruct asP; [inversion HcS; apply Z.eqb_refl|].
    pose proof (create_from_vlayer_iff _ _ _ _ HcS) as [I2 _]. rewrite I1, I2. apply Z.eqb_neq. lia. }
  assert (DS : sl_topDepth cS = vl_topDepth v).
  { destruct asP; [inversion HcS; subst; exact P1|]. pose proof (create_from_vlayer_iff _ _ _ _ HcS) as [_ [I2 _]]. exact I2. }
  set (discon := negb (n_eqb (sl_botP (fc_S s)) (sl_topP cS)) || negb (n_eqb (sl_botP (fc_P s)) (sl_topP cP))) in *.
  set (ext := n_ltb (n_mul (n_sub (sl_topP (fc_S s)) (sl_botP (fc_S s))) (n_sub (sl_botP (fc_S s)) (sl_botP cS))) n_0
     || n_ltb (n_mul (n_sub (sl_topP (fc_P s)) (sl_botP (fc_P s))) (n_sub (sl_botP (fc_P s)) (sl_botP cP))) n_0) in *.
  rewrite IS, DS, P1 in H.
  match type of H with (match ?e with (_, _) => _ end) = _ =>
    destruct e as [[[[[[crit hiP] hiS] zP] zS] mP] mS] eqn:Ee end.
  assert (WP : wave1 discon ext (sl_botP (fc_P s)) (sl_topP cP) (sl_botP cP) (vl_topDepth v) (fc_hiP s) (fc_zonesP s) (fc_minP s)
     = (hiP, zP, mP)) by (unfold wave1; destruct discon; [|destruct ext]; inversion Ee; reflexivity).
  assert (WS : wave1 discon ext (sl_botP (fc_S s)) (sl_topP cS) (sl_botP cS) (vl_topDepth v) (fc_hiS s) (fc_zonesS s) (fc_minS s)
     = (hiS, zS, mS)) by (unfold wave1; destruct discon; [|destruct ext]; inversion Ee; reflexivity).
  inv_as H as [hP zP'] H1. inv_as H as [hS zS'] H2.
  assert (EB : asP = n_eqb (vl_topS v) n_0 || fc_below s' && negb (sm_allowInnerCoreS m)).
  { rewrite QB. unfold asP.
    destruct (fc_fluid s), (n_eqb (vl_topS v) n_0), (n_ltb _ _), (fc_below s), (sm_allowInnerCoreS m); reflexivity. }
  unfold wave_step. exists discon, ext. destruct w.
  - exists hiP, zP, mP. eexists. exists true. inversion H; subst s'. clear H. cbn [wl whi wz wmin fc_P fc_hiP fc_zonesP fc_minP orb] in *.
    split; [reflexivity|]. split; [exact EP|].
    split; [intros X; unfold discon; rewrite (proj2 (negb_true_iff _) (proj2 (Reqb_ne _ _) X)); apply orb_true_r|].
    split; [intros X; right; unfold ext; apply orb_true_iff; right; apply Rltb_lt; rewrite n_0_R; exact X|].
    split; [exact WP|]. split; [|reflexivity].
    destruct (opt_is hiP && n_ltb (sl_botP cP) mP).
    + inv_as H1 as d Hd. inversion H1; subst. exists d. split; [exact Hd|]. auto.
    + inversion H1; subst. auto.
  - exists hiS, zS, mS. eexists. exists asP. inversion H; subst s'. clear H. cbn [wl whi wz wmin fc_S fc_hiS fc_zonesS fc_minS orb] in *.
    rewrite <- EB in ES. split; [exact EB|]. split; [exact ES|].
    split; [intros X; unfold discon; rewrite (proj2 (negb_true_iff _) (proj2 (Reqb_ne _ _) X)); reflexivity|].
    split; [intros X; right; unfold ext; apply orb_true_iff; left; apply Rltb_lt; rewrite n_0_R; exact X|].
    split; [exact WS|]. split; [|reflexivity].
    destruct (opt_is hiS && n_ltb (sl_botP cS) mS).
    + inv_as H2 as d Hd. inversion H2; subst. exists d. split; [exact Hd|]. auto.
    + inversion H2; subst. auto.
Qed.

(** ** the effect on the zones *)
Definition inz (x : R) (z : drange R) : Prop := dr_top z < x < dr_bot z.
Definition same_at (x : R) (Z Z' : list (drange R)) : Prop := forall q,
  (exists z, In z Z /\ inz x z /\ dr_rayParam z = q) <-> (exists z, In z Z' /\ inz x z /\ dr_rayParam z = q).
Lemma same_refl : forall x Z, same_at x Z Z.
Proof. intros x Z q. reflexivity. Qed.
Lemma same_trans : forall x A B C, same_at x A B -> same_at x B C -> same_at x A C.
Proof. intros x A B C H K q. rewrite (H q). apply K. Qed.
Lemma same_add : forall x Z z, ~ inz x z -> same_at x Z (Z ++ [z]).
Proof.
  intros x Z z Hn q. split; intros [y [A [B C]]].
  - exists y. rewrite in_app_iff. auto.
  - apply in_app_iff in A. destruct A as [A|[<-|[]]]; [|contradiction]. eauto.
Qed.
Lemma same_last : forall x Z t d d' q, x < d -> x < d' -> same_at x (Z ++ [mkDR t d q]) (Z ++ [mkDR t d' q]).
Proof.
  intros x Z t d d' q H H' q'. split; intros [y [A [B C]]]; apply in_app_iff in A; destruct A as [A|[<-|[]]].
  1,3: exists y; rewrite in_app_iff; auto.
  - exists (mkDR t d' q). rewrite in_app_iff. split; [right; left; reflexivity|]. unfold inz in *. cbn in *. split; [lra|assumption].
  - exists (mkDR t d q). rewrite in_app_iff. split; [right; left; reflexivity|]. unfold inz in *. cbn in *. split; [lra|assumption].
Qed.
Definition good_at (tol F x y : R) (Z : list (drange R)) : Prop :=
  (F + tol <= y -> exists z, In z Z /\ inz x z /\ dr_rayParam z = F) /\
  (forall z, In z Z -> inz x z -> dr_rayParam z = F /\ F - tol < y).
Lemma good_same : forall tol F x y Z Z', same_at x Z Z' -> good_at tol F x y Z -> good_at tol F x y Z'.
Proof.
  intros tol F x y Z Z' H [A B]. split.
  - intros L. apply H. auto.
  - intros z Hz Hx. destruct (proj2 (H (dr_rayParam z))) as [z' [H1 [H2 H3]]]; [eauto|].
    destruct (B z' H1 H2) as [B1 B2]. split; [congruence|assumption].
Qed.

Lemma lower_min : forall a b : R, lower_to a b = Rmin a b.
Proof.
  intros a b. unfold lower_to. destruct (n_ltb b a) eqn:E; [apply Rltb_lt in E|apply Rltb_ge in E];
    unfold Rmin; destruct (Rle_dec a b); lra.
Qed.

Section Core.
  Variables (a tp bp pb M : R) (hi : option (R * R)) (zs : list (drange R)) (discon ext : bool).
  Let F := Rmin M tp.
  Hypothesis Hnf : tp <> bp.
  Hypothesis Hnone : hi = None -> pb = M.
  Hypothesis Hfall : hi = None -> discon = false -> ext = false -> bp < tp.
  Hypothesis Hsome : forall t q, hi = Some (t, q) -> q = M /\ t <= a.
  Hypothesis HM : M <= pb.
  Hypothesis Hbots : forall z, In z (close_zone hi a zs) -> dr_bot z <= a.
  Hypothesis Hjump : pb <> tp -> discon = true.

  Lemma wave1_out : forall hi1 z1 mn1, wave1 discon ext pb tp bp a hi zs M = (hi1, z1, mn1) ->
    (forall x, same_at x (close_zone hi a zs) (close_zone hi1 a z1)) /\
    (forall z, In z (close_zone hi1 a z1) -> dr_bot z <= a) /\ Rmin mn1 tp = F /\
    ((exists t, hi1 = Some (t, F) /\ t <= a /\ mn1 = F) \/ (hi1 = None /\ F = tp /\ bp < tp)).
  Proof.
    intros hi1 z1 mn1 H. unfold wave1 in H. rewrite lower_min in H. fold F in H.
    assert (FM : F <= M) by apply Rmin_l. assert (Ft : F <= tp) by apply Rmin_r.
    assert (Fmin : Rmin F tp = F) by (apply Rmin_left; exact Ft).
    assert (FMe : M <= tp -> F = M) by (intros; apply Rmin_left; assumption).
    assert (FTe : tp <= M -> F = tp) by (intros; apply Rmin_right; assumption).
    assert (NI : forall x q, ~ inz x (mkDR a a q)) by (intros x q [X Y]; cbn in *; lra).
    destruct hi as [[t q]|] eqn:Eh.
    - destruct (Hsome t q eq_refl) as [-> Ta]. cbn [opt_is andb negb close_zone] in *.
      destruct discon.
      + destruct (n_ltb tp M) eqn:E; [apply Rltb_lt in E|apply Rltb_ge in E]; cbn [opt_is andb negb close_zone] in H.
        * assert (E3 : n_ltb pb tp = false) by (apply Rltb_ge; lra). rewrite E3 in H. cbn [orb] in H.
          rewrite (FTe ltac:(lra)) in *.
          destruct (n_ltb tp bp) eqn:E4; [apply Rltb_lt in E4|apply Rltb_ge in E4]; inversion H; subst; cbn [close_zone].
          -- split; [intros x; apply same_add, NI|]. split.
             ++ intros z Hz. apply in_app_iff in Hz. destruct Hz as [Hz|[<-|[]]]; [auto|cbn; lra].
             ++ split; [exact Fmin|]. left. exists a. split; [reflexivity|]. split; [lra|reflexivity].
          -- split; [intros; apply same_refl|]. split; [assumption|]. split; [exact Fmin|]. right. split; [reflexivity|]. split; [reflexivity|lra].
        * inversion H; subst. split; [intros; apply same_refl|]. split; [assumption|]. split; [exact Fmin|].
          left. exists t. rewrite (FMe (Rnot_lt_le _ _ E)). auto.
      + assert (pb = tp) by (destruct (Req_dec pb tp) as [X|X]; [exact X|apply Hjump in X; discriminate]). subst pb.
        assert (H' : (hi1, z1, mn1) = (Some (t, M), zs, M)) by (destruct ext; congruence). inversion H'; subst. cbn [close_zone].
        split; [intros; apply same_refl|]. split; [assumption|]. split; [reflexivity|]. left. exists t. rewrite (FMe HM). auto.
    - specialize (Hnone eq_refl). subst pb. cbn [opt_is andb negb close_zone] in *.
      assert (Open : forall q, (forall x, same_at x zs (zs ++ [mkDR a a q])) /\
         (forall z, In z (zs ++ [mkDR a a q]) -> dr_bot z <= a)).
      { intros q. split; [intros x; apply same_add, NI|]. intros z Hz. apply in_app_iff in Hz. destruct Hz as [Hz|[<-|[]]]; [auto|cbn; lra]. }
      destruct discon.
      + destruct (n_ltb M tp) eqn:E3; [apply Rltb_lt in E3|apply Rltb_ge in E3]; cbn [orb] in H.
        * inversion H; subst. cbn [close_zone]. destruct (Open F) as [O1 O2]. split; [exact O1|]. split; [exact O2|].
          split; [exact Fmin|]. left. exists a. split; [reflexivity|]. split; [lra|reflexivity].
        * destruct (n_ltb tp bp) eqn:E4; [apply Rltb_lt in E4|apply Rltb_ge in E4]; inversion H; subst; cbn [close_zone].
          -- destruct (Open F) as [O1 O2]. split; [exact O1|]. split; [exact O2|].
             split; [exact Fmin|]. left. exists a. split; [reflexivity|]. split; [lra|reflexivity].
          -- split; [intros; apply same_refl|]. split; [assumption|]. split; [exact Fmin|]. right. split; [reflexivity|]. split; [apply FTe; lra|lra].
      + assert (M = tp) by (destruct (Req_dec M tp) as [X|X]; [exact X|apply Hjump in X; discriminate]).
        assert (EF : F = M) by (apply FMe; lra). destruct ext.
        * destruct (n_ltb tp bp) eqn:E4; [apply Rltb_lt in E4|apply Rltb_ge in E4].
          -- assert (H' : (hi1, z1, mn1) = (Some (a, M), zs, M)) by congruence. inversion H'; subst hi1 z1 mn1. cbn [close_zone].
             destruct (Open M) as [O1 O2]. split; [exact O1|]. split; [exact O2|].
             split; [reflexivity|]. left. exists a. split; [congruence|]. split; [lra|congruence].
          -- assert (H' : (hi1, z1, mn1) = (None, zs, M)) by congruence. inversion H'; subst hi1 z1 mn1. cbn [close_zone].
             split; [intros; apply same_refl|]. split; [assumption|]. split; [reflexivity|]. right. split; [reflexivity|]. split; [congruence|lra].
        * assert (H' : (hi1, z1, mn1) = (None, zs, M)) by congruence. inversion H'; subst hi1 z1 mn1. cbn [close_zone].
          split; [intros; apply same_refl|]. split; [assumption|]. split; [reflexivity|]. right. split; [reflexivity|]. split; [congruence|auto].
  Qed.
End Core.

Section Search.
  Variable m : smodel R.
  Let vm := sm_vMod m.
  Let innerS := sm_allowInnerCoreS m.
  Let tol := sm_tolerance m.
  Hypothesis Hc : contiguous (vm_layers vm).
  Hypothesis Ht : thick (vm_layers vm).
  Hypothesis Hl : forall v, In v (vm_layers vm) -> layer_ok v.
  Hypothesis Hr : sm_radius m = 6371.
  Hypothesis Htol : 0 < tol.

  (** velocity at depth [x], a straight line *)
  Lemma wvel_line : forall pv v, In v (vm_layers vm) -> exists c0 c1, forall x, wvel pv v x = c0 + c1 * x.
  Proof.
    intros pv v Hv. assert (X := v_thick_R _ _ Ht Hv).
    destruct pv; unfold wvel, line.
    - exists (vl_topP v - (vl_botP v - vl_topP v) * vl_topDepth v / (vl_botDepth v - vl_topDepth v)),
        ((vl_botP v - vl_topP v) / (vl_botDepth v - vl_topDepth v)). intros x. field. lra.
    - exists (vl_topS v - (vl_botS v - vl_topS v) * vl_topDepth v / (vl_botDepth v - vl_topDepth v)),
        ((vl_botS v - vl_topS v) / (vl_botDepth v - vl_topDepth v)). intros x. field. lra.
  Qed.
  Lemma ends_at : forall pv v tp bp, In v (vm_layers vm) -> ends pv v tp bp ->
    0 < wvel pv v (vl_topDepth v) /\ 0 < wvel pv v (vl_botDepth v) /\
    tp * wvel pv v (vl_topDepth v) = 6371 - vl_topDepth v /\ bp * wvel pv v (vl_botDepth v) = 6371 - vl_botDepth v.
  Proof.
    intros pv v tp bp Hv E. apply ends_R in E. destruct E as [-> [-> [N1 N2]]]. unfold top_of, bot_of.
    rewrite (wvel_top m Ht pv v Hv), (wvel_bot m Ht pv v Hv).
    destruct (vel_signs m Hl pv v Hv) as [S1 S2].
    split; [lra|]. split; [lra|]. split; field; assumption.
  Qed.
  Lemma inner_pos : forall pv v x, In v (vm_layers vm) -> 0 < wvel pv v (vl_topDepth v) -> 0 < wvel pv v (vl_botDepth v) ->
    vl_topDepth v <= x <= vl_botDepth v -> 0 < wvel pv v x.
  Proof.
    intros pv v x Hv P1 P2 Hx. destruct (wvel_line pv v Hv) as [c0 [c1 E]]. rewrite E in *.
    assert (X := v_thick_R _ _ Ht Hv). destruct (Rle_dec 0 c1); nra.
  Qed.
  (** the slowness at [x] compared with the ends and with another depth *)
  Lemma inside_slow : forall pv v tp bp x y, In v (vm_layers vm) -> ends pv v tp bp ->
    vl_topDepth v < x < vl_botDepth v -> y * wvel pv v x = 6371 - x ->
    (bp < tp -> bp < y < tp) /\ (tp < bp -> tp < y < bp).
  Proof.
    intros pv v tp bp x y Hv E Hx Ey. destruct (wvel_line pv v Hv) as [c0 [c1 El]].
    destruct (ends_at _ _ _ _ Hv E) as [P1 [P2 [E1 E2]]].
    destruct (slow_between (wvel pv v) c0 c1 _ _ x tp bp y El Hx P1 P2 E1 E2 Ey) as [A [B _]]. auto.
  Qed.
  Lemma inside_cmp : forall pv v tp bp x y d q, In v (vm_layers vm) -> ends pv v tp bp -> bp < q <= tp ->
    vl_topDepth v <= d <= vl_botDepth v -> q * wvel pv v d = 6371 - d ->
    vl_topDepth v < x < vl_botDepth v -> y * wvel pv v x = 6371 - x -> (x < d <-> q < y).
  Proof.
    intros pv v tp bp x y d q Hv E Hq Hd Eq Hx Ey. destruct (wvel_line pv v Hv) as [c0 [c1 El]].
    destruct (ends_at _ _ _ _ Hv E) as [P1 [P2 [E1 E2]]].
    assert (Pd := inner_pos pv v d Hv P1 P2 Hd). assert (Px := inner_pos pv v x Hv P1 P2 ltac:(lra)).
    destruct (inside_slow _ _ _ _ _ _ Hv E Hx Ey) as [In1 _]. specialize (In1 ltac:(lra)).
    assert (Db : d <> vl_botDepth v).
    { intros ->. assert (q = bp); [|lra]. apply (Rmult_eq_reg_r (wvel pv v (vl_botDepth v))); lra. }
    assert (D0 : d = vl_topDepth v -> q = tp).
    { intros ->. apply (Rmult_eq_reg_r (wvel pv v (vl_topDepth v))); lra. }
    split.
    - intros Lt. assert (Lq : q < tp).
      { destruct (Req_dec q tp) as [->|]; [|lra]. exfalso.
        destruct (slow_between (wvel pv v) c0 c1 (vl_topDepth v) (vl_botDepth v) d tp bp tp El ltac:(lra) P1 P2 E1 E2 Eq) as [A _]. specialize (A ltac:(lra)). lra. }
      destruct (slow_between (wvel pv v) c0 c1 (vl_topDepth v) d x tp q y El ltac:(lra) P1 Pd E1 Eq Ey) as [A _]. apply A in Lq. lra.
    - intros Lt. destruct (Rlt_le_dec x d) as [|Ge]; [assumption|exfalso].
      destruct (Req_dec x d) as [->|Ne].
      + assert (q = y); [|lra]. apply (Rmult_eq_reg_r (wvel pv v d)); lra.
      + destruct (slow_between (wvel pv v) c0 c1 d (vl_botDepth v) x q bp y El ltac:(lra) Pd P2 Eq E2 Ey) as [A _]. specialize (A ltac:(lra)). lra.
  Qed.

  (** the end of a zone inside a layer *)
  Lemma zone_end : forall zF i v pv tp bp q d, nth_error (vm_layers vm) i = Some v -> ends pv v tp bp -> bp < q <= tp ->
    findDepth m zF q (Z.of_nat i) (Z.of_nat i) pv = Ok d ->
    vl_topDepth v <= d <= vl_botDepth v /\
    forall x y, vl_topDepth v < x < vl_botDepth v -> y * wvel pv v x = 6371 - x ->
      (q + tol <= y -> x < d) /\ (x < d -> q - tol < y).
  Proof.
    intros zF i v pv tp bp q d Hi E Hq H. assert (Hv := nth_error_In _ _ Hi). assert (Tv := v_thick_R _ _ Ht Hv).
    unfold findDepth in H. assert (Z0 : (Z.of_nat i >? Z.of_nat i)%Z = false) by (rewrite Z.gtb_ltb; apply Z.ltb_irrefl).
    rewrite Z0 in H. assert (Zr : zrange (Z.of_nat i) (Z.of_nat i + 1) = [Z.of_nat i]).
    { unfold zrange. replace (Z.to_nat (Z.of_nat i + 1 - Z.of_nat i)) with 1%nat by lia. cbn [seq map]. f_equal. lia. } rewrite Zr in H.
    set (m' := sm_set_zones m [] [] [] zF 0) in *.
    assert (NL : nth_layer (vm_layers (sm_vMod m')) (Z.of_nat i) v).
    { split; [lia|]. rewrite Nat2Z.id. exact Hi. }
    destruct (ends_at _ _ _ _ Hv E) as [P1 [P2 [E1 E2]]].
    assert (S1 : slow_at 6371 pv v (vl_topDepth v) tp) by (split; [lra|exact E1]).
    assert (S2 : slow_at 6371 pv v (vl_botDepth v) bp) by (split; [lra|exact E2]).
    assert (Ins : inside m' pv q v).
    { exists tp, bp. unfold m'. cbn [sm_set_zones sm_radius]. rewrite Hr. split; [exact S1|]. split; [exact S2|]. right. lra. }
    destruct (find_go_step m' pv q Hc Ht Hl (Z.of_nat i) [] None (Z.of_nat i) d v NL H) as [[_ TA]|[NT _]].
    2:{ exfalso. apply NT. right. right. left. exact Ins. }
    assert (NTi : near_top m' pv q v <-> Rabs (tp - q) < tol).
    { unfold near_top, m'. cbn [sm_set_zones sm_radius sm_tolerance]. rewrite Hr. split.
      - intros [z [A B]]. assert (z = tp) by (apply (slow_fun (sm_set_radius m 6371) pv v (vl_topDepth v)); assumption). subst z. exact B.
      - intros B. exists tp. auto. }
    assert (NBi : near_bot m' pv q v <-> Rabs (bp - q) < tol).
    { unfold near_bot, m'. cbn [sm_set_zones sm_radius sm_tolerance]. rewrite Hr. split.
      - intros [z [A B]]. assert (z = bp) by (apply (slow_fun (sm_set_radius m 6371) pv v (vl_botDepth v)); assumption). subst z. exact B.
      - intros B. exists bp. auto. }
    destruct TA as [T1 [T2 [T3 _]]].
    destruct (Rlt_dec (Rabs (tp - q)) tol) as [N|N].
    - rewrite (T1 (proj2 NTi N)) in *. split; [lra|]. intros x y Hx Ey.
      destruct (inside_slow _ _ _ _ _ _ Hv E Hx Ey) as [A _]. specialize (A ltac:(lra)).
      rewrite Rabs_pos_eq in N by lra. lra.
    - assert (N' : ~ near_top m' pv q v) by (rewrite NTi; exact N).
      destruct (Rlt_dec (Rabs (bp - q)) tol) as [B|B].
      + rewrite (T2 N' (proj2 NBi B)) in *. split; [lra|]. intros x y Hx Ey.
        destruct (inside_slow _ _ _ _ _ _ Hv E Hx Ey) as [A _]. specialize (A ltac:(lra)).
        rewrite Rabs_left in B by lra. lra.
      + assert (B' : ~ near_bot m' pv q v) by (rewrite NBi; exact B).
        destruct (T3 N' B' Ins) as [Hd [_ Sd]]. unfold m' in Sd. cbn [sm_set_zones sm_radius] in Sd. rewrite Hr in Sd.
        split; [exact Hd|]. intros x y Hx Ey. pose proof (inside_cmp _ _ _ _ _ _ _ _ Hv E Hq Hd Sd Hx Ey) as [C D]. split.
        * intros L. apply D. lra.
        * intros L. apply C in L. lra.
  Qed.

  Variable w : bool.
  Let lay (i : nat) (v : vlayer R) : Prop := nth_error (vm_layers vm) i = Some v.
  Definition seen_by (i : nat) (v : vlayer R) (pv : bool) : Prop := pv = true <-> (w = true \/ s_as_p vm innerS i v).
  Definition above (i : nat) (x : R) : Prop :=
    exists j u a b, lay j u /\ ends_of vm innerS w j u a b /\ (((j <= i)%nat /\ x = a) \/ ((j < i)%nat /\ x = b)).
  Definition upto (i : nat) (x : R) : Prop :=
    exists j u a b, lay j u /\ ends_of vm innerS w j u a b /\ (j <= i)%nat /\ (x = a \/ x = b).
  Hypothesis Hnf : forall i v a b, lay i v -> ends_of vm innerS w i v a b -> a <> b.
  Hypothesis H0 : forall v a b, lay 0 v -> ends_of vm innerS w 0 v a b -> b < a.

  Lemma floor_fun : forall P a b, floor_of P a -> floor_of P b -> a = b.
  Proof. intros P a b [A1 A2] [B1 B2]. pose proof (A2 _ B1). pose proof (B2 _ A1). lra. Qed.
  Lemma floor_min : forall (P Q : R -> Prop) M t, floor_of P M -> (forall x, Q x <-> P x \/ x = t) -> floor_of Q (Rmin M t).
  Proof.
    intros P Q M t [A B] H. split.
    - apply H. unfold Rmin. destruct (Rle_dec M t); auto.
    - intros x Hx. apply H in Hx. destruct Hx as [Hx| ->]; [|apply Rmin_r]. apply B in Hx. pose proof (Rmin_l M t). lra.
  Qed.
  Lemma above_S : forall i v a b, lay (S i) v -> ends_of vm innerS w (S i) v a b -> forall x, above (S i) x <-> upto i x \/ x = a.
  Proof.
    intros i v a b Hv E x. split.
    - intros [j [u [a' [b' [Hu [E' [[Lj ->]|[Lj ->]]]]]]]].
      + destruct (Nat.eq_dec j (S i)) as [->|Ne].
        * assert (u = v) by (unfold lay in *; congruence). subst u. destruct (ends_of_fun _ _ _ _ _ _ _ _ _ E E') as [-> ->]. auto.
        * left. exists j, u, a', b'. split; [assumption|]. split; [assumption|]. split; [lia|auto].
      + left. exists j, u, a', b'. split; [assumption|]. split; [assumption|]. split; [lia|auto].
    - intros [[j [u [a' [b' [Hu [E' [Lj Hx]]]]]]]| ->].
      + exists j, u, a', b'. split; [assumption|]. split; [assumption|]. destruct Hx as [->| ->]; [left|right]; split; auto; lia.
      + exists (S i), v, a, b. split; [assumption|]. split; [assumption|]. left. auto.
  Qed.
  Lemma upto_above : forall i v a b, lay i v -> ends_of vm innerS w i v a b -> forall x, upto i x <-> above i x \/ x = b.
  Proof.
    intros i v a b Hv E x. split.
    - intros [j [u [a' [b' [Hu [E' [Lj Hx]]]]]]]. destruct (Nat.eq_dec j i) as [->|Ne].
      + assert (u = v) by (unfold lay in *; congruence). subst u. destruct (ends_of_fun _ _ _ _ _ _ _ _ _ E E') as [-> ->].
        destruct Hx as [->| ->]; [left|right; reflexivity]. exists i, v, a, b. auto.
      + left. exists j, u, a', b'. split; [assumption|]. split; [assumption|]. destruct Hx as [->| ->]; [left|right]; split; auto; lia.
    - intros [[j [u [a' [b' [Hu [E' [[Lj ->]|[Lj ->]]]]]]]]| ->].
      + exists j, u, a', b'. auto.
      + exists j, u, a', b'. split; [assumption|]. split; [assumption|]. split; [lia|auto].
      + exists i, v, a, b. auto.
  Qed.
  Lemma above_0 : forall v a b, lay 0 v -> ends_of vm innerS w 0 v a b -> forall x, above 0 x <-> x = a.
  Proof.
    intros v a b Hv E x. split.
    - intros [j [u [a' [b' [Hu [E' [[Lj ->]|[Lj ->]]]]]]]]; [|lia]. assert (j = 0%nat) by lia. subst j.
      assert (u = v) by (unfold lay in *; congruence). subst u. destruct (ends_of_fun _ _ _ _ _ _ _ _ _ E E') as [-> ->]. reflexivity.
    - intros ->. exists 0%nat, v, a, b. split; [assumption|]. split; [assumption|]. left. auto.
  Qed.

  Definition goodz (i : nat) (Z : list (drange R)) : Prop := forall v pv F x y,
    lay i v -> seen_by i v pv -> floor_of (above i) F -> vl_topDepth v < x < vl_botDepth v -> y * wvel pv v x = 6371 - x ->
    good_at tol F x y Z.
  Definition okz (i : nat) (v : vlayer R) (s : fcstate (T := R)) : Prop :=
    let tp := sl_topP (wl w s) in let bp := sl_botP (wl w s) in
    let Z := close_zone (whi w s) (vl_botDepth v) (wz w s) in
    ends_of vm innerS w i v tp bp /\ floor_of (upto i) (wmin w s) /\
    (whi w s = None -> bp = wmin w s /\ bp < tp) /\
    (forall t q, whi w s = Some (t, q) -> q = wmin w s /\ t <= vl_topDepth v) /\
    (forall z, In z Z -> dr_bot z <= vl_botDepth v) /\
    (forall j, (j <= i)%nat -> goodz j Z).

  Lemma layer_step : forall i v s s', lay i v -> wave_step m w (Z.of_nat i) v s s' ->
    (fc_below s' = true <-> below_fluid vm i) ->
    let M := wmin w s in let a := vl_topDepth v in
    let pt := sl_topP (wl w s) in let pb := sl_botP (wl w s) in
    let tp := sl_topP (wl w s') in let bp := sl_botP (wl w s') in
    floor_of (above i) (Rmin M tp) ->
    (whi w s = None -> pb = M /\ (pb < pt \/ bp < tp)) ->
    (forall t q, whi w s = Some (t, q) -> q = M /\ t <= a) -> M <= pb ->
    (forall z, In z (close_zone (whi w s) a (wz w s)) -> dr_bot z <= a) ->
    (forall j, (j < i)%nat -> goodz j (close_zone (whi w s) a (wz w s))) ->
    okz i v s'.
  Proof.
    intros i v s s' Hv W Hb M a pt pb tp bp Hfl Hno Hso HM Hbt Hgd.
    destruct W as [discon [ext [hi1 [z1 [mn1 [zF [pv [Epv [E [J1 [J2 [W1 [W2 Wm]]]]]]]]]]]]].
    fold tp bp pt pb M a in E, J1, J2, W1, W2, Wm. assert (Iv := nth_error_In _ _ Hv). assert (Tv := v_thick_R _ _ Ht Iv). fold a in Tv.
    assert (SB : seen_by i v pv).
    { unfold seen_by, s_as_p, fluid_layer. rewrite Epv. destruct w; cbn [orb]; [tauto|].
      rewrite orb_true_iff, andb_true_iff, Hb, negb_true_iff. fold innerS. intuition congruence. }
    assert (Eo : ends_of vm innerS w i v tp bp).
    { unfold seen_by in SB. clear - SB E. destruct w; [left; split; [reflexivity|]; destruct pv; [assumption|]; exfalso|right].
      - assert (false = true) by (apply SB; auto). discriminate.
      - destruct pv; [left|right]; (split; [reflexivity|]; split; [|assumption]).
        + destruct SB as [SB _]. destruct (SB eq_refl) as [X|X]; [discriminate|exact X].
        + intros X. assert (false = true) by (apply SB; auto). discriminate. }
    assert (Nf := Hnf _ _ _ _ Hv Eo).
    assert (Hfall : whi w s = None -> discon = false -> ext = false -> bp < tp).
    { intros N D X. destruct (Hno N) as [_ [L|L]]; [|exact L].
      assert (Epb : pb = tp) by (destruct (Req_dec pb tp) as [Y|Y]; [exact Y|apply J1 in Y; congruence]).
      destruct (Rlt_le_dec ((pt - pb) * (pb - bp)) 0) as [Y|Y]; [destruct (J2 Y); congruence|].
      rewrite <- Epb in *. destruct (Rlt_le_dec bp pb) as [|Z]; [assumption|exfalso].
      assert (pb < bp) by lra. clear - Y L H. nra. }
    destruct (wave1_out a tp bp pb M (whi w s) (wz w s) discon ext Nf
       (fun N => proj1 (Hno N)) Hfall Hso HM Hbt J1 hi1 z1 mn1 W1) as [Sm [B1 [Fm Cs]]].
    set (F := Rmin M tp) in *. assert (Ft : F <= tp) by apply Rmin_r.
    rewrite !lower_min in Wm.
    assert (Wm' : wmin w s' = Rmin F bp).
    { rewrite Wm, <- Fm. unfold Rmin. repeat destruct (Rle_dec _ _); lra. }
    assert (Hfl' : floor_of (upto i) (wmin w s')).
    { rewrite Wm'. eapply floor_min; [exact Hfl|]. exact (upto_above i v tp bp Hv Eo). }
    assert (Lift : forall Z', (forall x, x < a -> same_at x (close_zone hi1 a z1) Z') ->
      (forall x y, a < x < vl_botDepth v -> y * wvel pv v x = 6371 - x -> good_at tol F x y Z') ->
      forall j, (j <= i)%nat -> goodz j Z').
    { intros Z' S2 Gd j Lj. intros u pu F' x y Hu Su Hf Hx Ey. destruct (Nat.eq_dec j i) as [->|Ne].
      - assert (u = v) by (unfold lay in *; congruence). subst u.
        assert (pu = pv). { clear - Su SB. unfold seen_by in *. destruct pu, pv; try reflexivity; exfalso.
          + assert (false = true) by (apply SB; apply Su; reflexivity). discriminate.
          + assert (false = true) by (apply Su; apply SB; reflexivity). discriminate. }
        subst pu. rewrite (floor_fun _ _ _ Hf Hfl). apply Gd; assumption.
      - assert (Lt : vl_botDepth u <= a) by (eapply v_sorted; [exact Hc|exact Ht|exact Hu|exact Hv|lia]).
        eapply good_same; [|exact (Hgd j ltac:(lia) u pu F' x y Hu Su Hf Hx Ey)].
        eapply same_trans; [apply Sm|]. apply S2. lra. }
    assert (Old : forall x z, a < x -> In z z1 -> ~ inz x z).
    { intros x z Lx Hz [_ X]. assert (dr_bot z <= a); [|lra]. apply B1. destruct hi1 as [[]|]; cbn [close_zone]; [apply in_app_iff; auto|assumption]. }
    assert (One : forall t d x y, t <= a -> a < x -> (F + tol <= y -> x < d) -> (x < d -> F - tol < y) ->
      good_at tol F x y (z1 ++ [mkDR t d F])).
    { intros t d x y Lt Lx D1 D2. split.
      - intros L. exists (mkDR t d F). rewrite in_app_iff. split; [right; left; reflexivity|]. unfold inz. cbn. split; [split; [lra|auto]|reflexivity].
      - intros z Hz Hi. apply in_app_iff in Hz. destruct Hz as [Hz|[<-|[]]]; [exfalso; exact (Old x z Lx Hz Hi)|].
        unfold inz in Hi. cbn in Hi |- *. split; [reflexivity|]. apply D2. lra. }
    unfold okz. fold tp bp. cbv zeta. split; [exact Eo|]. split; [exact Hfl'|].
    destruct Cs as [[t [-> [Lt ->]]]|[-> [EF Fall]]]; cbn [opt_is andb close_zone] in *.
    - destruct (n_ltb bp F) eqn:EB; [apply Rltb_lt in EB|apply Rltb_ge in EB].
      + destruct W2 as [d [Hd [-> ->]]]. destruct (zone_end zF i v pv tp bp F d Hv E ltac:(lra) Hd) as [Dd Dx]. fold a in Dd.
        split; [intros _; split; [rewrite Wm'; symmetry; apply Rmin_right; lra|lra]|]. split; [intros; discriminate|].
        cbn [close_zone]. split.
        * intros z Hz. apply in_app_iff in Hz. destruct Hz as [Hz|[<-|[]]]; [|cbn; lra].
          assert (dr_bot z <= a); [|lra]. apply B1. apply in_app_iff. auto.
        * apply Lift.
          -- intros x Lx. apply same_last; lra.
          -- intros x y Hx Ey. destruct (Dx x y Hx Ey) as [D1 D2]. apply One; [exact Lt|lra|exact D1|exact D2].
      + destruct W2 as [-> ->]. split; [intros; discriminate|].
        split. { intros t' q X. assert (t' = t /\ q = F) as [-> ->] by (split; congruence). rewrite Wm'. split; [symmetry; apply Rmin_left; lra|exact Lt]. }
        cbn [close_zone]. split.
        * intros z Hz. apply in_app_iff in Hz. destruct Hz as [Hz|[<-|[]]]; [|cbn; lra].
          assert (dr_bot z <= a); [|lra]. apply B1. apply in_app_iff. auto.
        * apply Lift.
          -- intros x Lx. apply same_last; lra.
          -- intros x y Hx Ey. apply One; [exact Lt|lra|lra|]. intros _.
             destruct (inside_slow pv v tp bp x y Iv E Hx Ey) as [A1 A2].
             destruct (Rlt_le_dec bp tp) as [X|X]; [apply A1 in X; lra|]. assert (Y : tp < bp) by lra. apply A2 in Y. lra.
    - destruct W2 as [-> ->]. split; [intros _; split; [rewrite Wm', EF; symmetry; apply Rmin_right; lra|exact Fall]|].
      split; [intros; discriminate|]. cbn [close_zone]. split.
      + intros z Hz. assert (dr_bot z <= a); [|lra]. apply B1. exact Hz.
      + apply Lift.
        * intros x _. apply same_refl.
        * intros x y Hx Ey. destruct (inside_slow pv v tp bp x y Iv E Hx Ey) as [A1 _]. apply A1 in Fall. split; [lra|].
          intros z Hz Hi. exfalso. exact (Old x z ltac:(lra) Hz Hi).
  Qed.

  Lemma step_ok : forall i u v s s', lay i u -> lay (S i) v -> at_layer m i u s -> okz i u s ->
    fc_step m s (Z.of_nat (S i), v) = Ok s' -> okz (S i) v s'.
  Proof.
    intros i u v s s' Hu Hv At Ok' H. destruct (at_layer_step _ _ _ _ _ _ _ At Hu Hv H) as [[_ [_ [Lw _]]] _].
    pose proof (fc_wave _ _ _ _ _ H w) as W. destruct Ok' as [Eo [Fl [No [So [Bt Gd]]]]].
    assert (Em : vl_botDepth u = vl_topDepth v) by (eapply v_meet; eassumption).
    rewrite Em in Bt, Gd.
    assert (Eo' : exists a b, ends_of vm innerS w (S i) v a b /\ a = sl_topP (wl w s') /\ b = sl_botP (wl w s')).
    { destruct (at_layer_step _ _ _ _ _ _ _ At Hu Hv H) as [[_ [_ [_ [EP ES]]]] _]. do 2 eexists. split; [|split; reflexivity].
      destruct w; assumption. }
    destruct Eo' as [a [b [Eo' [Ea Eb]]]].
    assert (Lu : vl_topDepth u < vl_topDepth v) by (rewrite <- Em; exact (v_thick_R _ _ Ht (nth_error_In _ _ Hu))).
    apply (layer_step (S i) v s s' Hv W Lw).
    - eapply floor_min; [exact Fl|]. intros x. rewrite <- Ea. exact (above_S i v a b Hv Eo' x).
    - intros N. destruct (No N) as [A B]. auto.
    - intros t q X. destruct (So t q X) as [A B]. split; [exact A|lra].
    - destruct Fl as [_ Fl]. apply Fl. exists i, u, (sl_topP (wl w s)), (sl_botP (wl w s)). auto.
    - exact Bt.
    - intros j Lj. apply Gd. lia.
  Qed.
  Lemma fold_ok : forall ls i u s s', at_layer m i u s -> lay i u -> okz i u s ->
    (forall k v, nth_error ls k = Some v -> lay (S i + k) v) ->
    foldM (fc_step m) (enum_from (S i) ls) s = Ok s' ->
    exists u', lay (i + List.length ls) u' /\ okz (i + List.length ls) u' s' /\ fc_prevBot s' = vl_botDepth u'.
  Proof.
    induction ls as [|v ls IH]; intros i u s s' At Hu Ok' Hls H; cbn [enum_from foldM] in H.
    - inversion H; subst. exists u. cbn [List.length]. rewrite Nat.add_0_r. split; [assumption|]. split; [assumption|]. apply At.
    - inv_as H as s1 H1. pose proof (Hls 0%nat v eq_refl) as Hv. rewrite Nat.add_0_r in Hv.
      destruct (at_layer_step _ _ _ _ _ _ _ At Hu Hv H1) as [At' _].
      pose proof (step_ok _ _ _ _ _ Hu Hv At Ok' H1) as Ok1.
      destruct (IH (S i) v s1 s' At' Hv Ok1) as [u' Hu'].
      { intros k x Hx. replace (S (S i) + k)%nat with (S i + S k)%nat by lia. apply Hls. assumption. }
      { assumption. }
      cbn [List.length]. replace (i + S (List.length ls))%nat with (S i + List.length ls)%nat by lia. eauto.
  Qed.

  Hypothesis Hbig : forall v a b, lay 0 v -> ends_of vm innerS w 0 v a b -> a <= n_lit 11 299.
  Lemma search_ok : forall m', findCriticalPoints m = Ok m' ->
    forall j v, lay j v -> goodz j (if w then sm_hiP m' else sm_hiS m').
  Proof.
    intros m' H j v0 Hj. unfold findCriticalPoints in H. inv_as H as first Hf. inv_as H as cS HcS. inv_as H as cP HcP.
    cbv zeta in H. inv_as H as s Hs. inv_as H as ok Hok. destruct ok; inversion H; subst m'. clear H Hok.
    cbn [sm_set_zones sm_hiP sm_hiS].
    apply create_from_vlayer_iff in HcS. destruct HcS as [_ [_ [_ HcS]]].
    apply create_from_vlayer_iff in HcP. destruct HcP as [_ [_ [_ HcP]]].
    assert (Nf : n_eqb (vl_topS first) n_0 = false).
    { destruct HcS as [X _]. unfold py_div in X. cbn [vl_surface vl_topS] in X.
      destruct (n_eqb (vl_topS first) n_0); [discriminate|reflexivity]. }
    cbn [vl_surface vl_topS vl_topDepth vl_botDepth] in Hs. rewrite Nf in Hs.
    set (s0 := mkFC _ _ _ _ _ _ _ _ _ _ _ _ _ _) in Hs.
    rewrite enumerate_from in Hs. destruct (vm_layers (sm_vMod m)) as [|f ls] eqn:El; [discriminate|].
    assert (f = first) by (cbn in Hf; congruence). subst f.
    cbn [enum_from foldM] in Hs. inv_as Hs as s1 H1.
    pose proof (fc_step_out _ _ _ _ _ H1) as Q. cbv zeta in Q. rewrite Nf in Q.
    cbn [s0 fc_fluid fc_below opt_is andb orb fc_P fc_S fc_crit fc_prevBot] in Q.
    destruct Q as [B' [L' [F' [_ [EP' [ES' _]]]]]]. rewrite L' in ES'. cbn [andb] in ES'.
    assert (N0 : lay 0 first) by (unfold lay, vm; rewrite El; reflexivity).
    assert (Nb : ~ below_fluid vm 0) by (intros [k [a [b [Hk _]]]]; lia).
    assert (EPo : ends_of vm innerS true 0 first (sl_topP (fc_P s1)) (sl_botP (fc_P s1))) by (left; auto).
    assert (ESo : ends_of vm innerS false 0 first (sl_topP (fc_S s1)) (sl_botP (fc_S s1))).
    { eapply ends_of_false; [|exact ES']. unfold s_as_p, fluid_layer. rewrite Nf. intuition discriminate. }
    assert (At : at_layer m 0 first s1).
    { split; [assumption|]. split; [rewrite F', Nf; reflexivity|].
      split; [rewrite L'; intuition discriminate|]. auto. }
    assert (TS : sl_topP cS = sl_topP (fc_S s1) /\ sl_botP cS = sl_topP (fc_S s1)).
    { destruct HcS as [X1 X2], ES' as [X3 _]. cbn [vl_surface vl_topS vl_botS vl_topDepth vl_botDepth] in X1, X2.
      split; congruence. }
    assert (TP : sl_topP cP = sl_topP (fc_P s1) /\ sl_botP cP = sl_topP (fc_P s1)).
    { destruct HcP as [X1 X2], EP' as [X3 _]. cbn [vl_surface vl_topP vl_botP vl_topDepth vl_botDepth] in X1, X2.
      split; congruence. }
    assert (Eo : ends_of vm innerS w 0 first (sl_topP (wl w s1)) (sl_botP (wl w s1))) by (destruct w; assumption).
    pose proof (Hbig _ _ _ N0 Eo) as Big. pose proof (H0 _ _ _ N0 Eo) as Fall.
    assert (W0 : wmin w s0 = sl_topP (wl w s1) /\ sl_botP (wl w s0) = sl_topP (wl w s1) /\ whi w s0 = None /\ wz w s0 = []).
    { unfold s0, wmin, wl, whi, wz in *. destruct w; cbn [fc_minP fc_minS fc_P fc_S fc_hiP fc_hiS fc_zonesP fc_zonesS];
        rewrite lower_min; [rewrite (proj1 TP)|rewrite (proj1 TS)]; (split; [apply Rmin_right; assumption|]); split; try tauto; auto. }
    destruct W0 as [W1 [W2 [W3 W4]]].
    assert (Ok1 : okz 0 first s1).
    { apply (layer_step 0 first s0 s1 N0 (fc_wave _ _ _ _ _ H1 w)).
      - rewrite L'. split; [discriminate|contradiction].
      - rewrite W1, Rmin_left by lra. split; [apply (above_0 first _ _ N0 Eo); reflexivity|].
        intros x Hx. apply (above_0 first _ _ N0 Eo) in Hx. lra.
      - intros _. rewrite W1, W2. auto.
      - rewrite W3. discriminate.
      - rewrite W1, W2. lra.
      - rewrite W3, W4. intros z [].
      - intros k Lk. lia. }
    destruct (fold_ok ls 0 first s1 s At N0 Ok1) as [u' [Hu' [Okl Eb]]].
    { intros k v Hk. unfold lay, vm. rewrite El. exact Hk. }
    { exact Hs. }
    cbn [Nat.add] in *. destruct Okl as [_ [_ [_ [_ [_ G]]]]]. rewrite <- Eb in G.
    assert (Lj : (j <= List.length ls)%nat).
    { unfold lay, vm in Hj. rewrite El in Hj. assert (j < List.length (first :: ls))%nat by (apply nth_error_Some; congruence).
      cbn [List.length] in *. lia. }
    specialize (G j Lj). unfold whi, wz in G. destruct w; exact G.
  Qed.
End Search.

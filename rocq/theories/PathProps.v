(** Property C36: ray paths. *)
From Coq Require Import ZArith Bool List String Ascii Reals Lia Lra.
From Verif Require Import Base Num PyStr VelocityModel SlownessLayer SlownessModel SlowSpec SlowProofs TauModel Legs SeismicPhase Pierce
  TauSpec TauProofs CurveSpec CurveProofs CurveProps PierceSpec PierceProofs PierceProps SlowRealProofs RealRun ShellProps
  NameSpec RouteSpec RouteProofs RouteProps PathSpec PathProofs PathWholeProofs PathLegProofs PathEndProofs.
From Verif Require BullenSpec.
Import ListNotations.
Local Open Scope string_scope.
Local Open Scope list_scope.
Local Open Scope R_scope.

(** ** one leg *)

(** TauBranch.path: nothing if the ray cannot enter the branch; else exactly the points of the way through
    its layers, down or up, with time and distance of each step. *)
Theorem C36_leg : forall {T} {N : Num T} {O : NumOrd T} {L : Libm T} fuel (b : tbranch T) p (goes_down : bool) (m : smodel T),
  s_meet (sm_layers m (tb_isP b)) -> s_upright (sm_layers m (tb_isP b)) -> n_ltb (tb_top b) (tb_bot b) = true ->
  (List.length (sm_layers m (tb_isP b)) <= fuel)%nat ->
  (tb_path fuel b p goes_down m = Ok None <-> n_ltb (tb_maxRP b) p = true) /\
  (forall l, tb_path fuel b p goes_down m = Ok (Some l) <->
     n_ltb (tb_maxRP b) p = false /\ leg_points m (tb_isP b) p b goes_down l).
Proof.
  intros T N O L fuel b p g m Hm Hu Hlt Hf. destruct (tb_path_iff fuel b p g m Hm Hu Hlt Hf) as [A B]. split; [exact A|exact B].
Qed.
Print Assumptions C36_leg.

(** A leg stays in its branch, depths never decrease on the way down and never increase on the way up, and
    an upgoing leg ends at the top of the branch. *)
Theorem C36_depths : forall (m : smodel R) b p goes_down l,
  s_meet (sm_layers m (tb_isP b)) -> s_upright (sm_layers m (tb_isP b)) -> tb_top b < tb_bot b ->
  leg_points m (tb_isP b) p b goes_down l ->
  Forall (fun x => tb_top b <= td_depth x <= tb_bot b) l /\
  (if goes_down then downwards l
   else upwards l /\ (p <= tb_maxRP b -> exists x, final l x /\ td_depth x = tb_top b)).
Proof. intros m b p g l. apply leg_depths. Qed.
Print Assumptions C36_depths.

(** If the slowness is monotone in a branch, a ray comes up the way it went down: the same stretches one
    above the other, each with the same time and distance, from the top of the branch to its bottom or to
    the depth at which the slowness is the ray parameter.  (If that is the top of a layer, the way down has
    an extra point there at no distance.) *)
Theorem C36_retraced : forall (m : smodel R) b p l l',
  s_meet (sm_layers m (tb_isP b)) -> s_upright (sm_layers m (tb_isP b)) -> tb_top b < tb_bot b -> steady m b ->
  p <= tb_maxRP b ->
  leg_points m (tb_isP b) p b true l -> leg_points m (tb_isP b) p b false l' ->
  exists c tail z, chain (tb_top b) c z /\ l = map (at_bottom p) c ++ tail /\ l' = rev (map (at_top p) c) /\
    (tail = [] \/ tail = [mkTD p 0 0 z]) /\
    (z = tb_bot b \/ exists y, In y (sm_layers m (tb_isP b)) /\ holds y z /\ sl_botP y < p /\
       (sl_topDepth y < sl_botDepth y -> p <= sl_topP y /\
         (BullenSpec.thick y (sm_radius m) -> BullenSpec.slow_pos y -> 0 <= sl_topDepth y ->
            evaluateAtBullen y z (sm_radius m) = Ok p))).
Proof. intros m b p l l'. apply leg_retrace. Qed.
Print Assumptions C36_retraced.

(** ** the whole path *)

(** SeismicPhase.calcPathFromArrival: the pieces of the legs in order, with a piece along the boundary
    between two legs just above the core for diffracted waves or just above the Moho for head waves; the
    points are the running sums, starting at the source.  Nothing else of the arrival changes. *)
Theorem C36_path : forall fuel (ph : phase R) a a', path_ready (ph_tMod ph) ->
  (forall w, List.length (sm_layers (tm_sMod (ph_tMod ph)) w) <= fuel)%nat ->
  calcPathFromArrival fuel ph a = Ok a' <->
  exists pieces last path, way ph a (ph_seq ph) pieces /\
    ((contains "kmps" (ph_name ph) /\ last = [mkTD (ar_rayParam a) (ar_dist a * ar_rayParam a) (ar_dist a) 0]) \/
     (~ contains "kmps" (ph_name ph) /\ last = [])) /\
    running (ar_rayParam a) (mkTD (ar_rayParam a) 0 0 (tm_sourceDepth (ph_tMod ph)) :: pieces ++ last) path /\
    a' = mkArr (ar_time a) (ar_dist a) (ar_rayParam a) (ar_index a) (ar_name a) (ar_purist a)
           (ar_sourceDepth a) (ar_takeoff a) (ar_incident a) (ar_pierce a) path.
Proof. exact path_iff. Qed.
Print Assumptions C36_path.

(** Times and distances never decrease along a path; for waves along a boundary this needs an arrival not
    nearer than the first point of the curve. *)
Theorem C36_never_back : forall fuel (ph : phase R) a a', path_ready (ph_tMod ph) ->
  (forall w, List.length (sm_layers (tm_sMod (ph_tMod ph)) w) <= fuel)%nat ->
  calcPathFromArrival fuel ph a = Ok a' -> 0 <= ar_rayParam a -> 0 <= ar_dist a ->
  (diffracted (ph_name ph) \/ head_wave (ph_name ph) -> forall d0, at_index (ph_dist ph) 0 d0 -> d0 <= ar_dist a) ->
  never_back (ar_path a').
Proof.
  intros fuel ph a a' Hr Hf H Hp Hd H0. apply (path_iff fuel ph a a' Hr Hf) in H. destruct H as [pieces [last [path [Hw [Hl [Hrun ->]]]]]].
  cbn [ar_path]. apply (running_forth _ _ _ Hrun). apply Forall_cons; [split; cbn; lra|]. apply Forall_app. split; [eapply way_pos; eassumption|].
  destruct Hl as [[_ ->]|[_ ->]]; [|constructor]. apply Forall_cons; [|constructor]. split; cbn; [apply Rmult_le_pos; lra|lra].
Qed.
Print Assumptions C36_never_back.

(** ** where the path ends *)
Lemma path_end : forall fuel (ph : phase R) a a', path_ready (ph_tMod ph) ->
  (forall w, List.length (sm_layers (tm_sMod (ph_tMod ph)) w) <= fuel)%nat ->
  calcPathFromArrival fuel ph a = Ok a' -> ~ contains "kmps" (ph_name ph) ->
  exists pieces z, way ph a (ph_seq ph) pieces /\ final (ar_path a') (mkTD (ar_rayParam a) (total td_time pieces) (total td_dist pieces) z).
Proof.
  intros fuel ph a a' Hr Hf H Nk. apply (path_iff fuel ph a a' Hr Hf) in H. destruct H as [pieces [last [path [Hw [Hl [Hrun ->]]]]]].
  destruct Hl as [[X _]|[_ ->]]; [contradiction|]. rewrite app_nil_r in Hrun.
  destruct (exists_last (l := mkTD (ar_rayParam a) 0 0 (tm_sourceDepth (ph_tMod ph)) :: pieces)) as [l0 [x E]]; [discriminate|].
  rewrite E in Hrun. apply running_final in Hrun. rewrite <- E in Hrun. rewrite !total_cons in Hrun. cbn [td_time td_dist] in Hrun. rewrite !Rplus_0_l in Hrun.
  exists pieces, (td_depth x). split; [exact Hw|exact Hrun].
Qed.
Lemma legs_total_fun : forall t f i l x y, legs_total t f i l x -> legs_total t f i l y -> x = y.
Proof.
  intros t f i l x y H. revert y. induction H as [|s l b u v Hb Hu Hl IH]; intros y Hy; inversion Hy as [|s' l' b' u' v' Hb' Hu' Hl']; [reflexivity|].
  subst s' l'. assert (b = b') by (eapply at_index_fun; eassumption). subst b'. assert (u = u') by (eapply at_index_fun; eassumption). subst u'.
  rewrite (IH _ Hl'). reflexivity.
Qed.

(** The path of a sampled ray parameter ends at the sum of the stored distances and times over all legs;
    a diffracted wave adds the distance from the first point of its curve to the arrival once for every two
    successive legs just above the core, a head wave its share of it for every two legs just above the
    Moho. *)
Theorem C36_end : forall fuel (ph : phase R) a a' k d tm, rays_ready (ph_tMod ph) ->
  (forall w, List.length (sm_layers (tm_sMod (ph_tMod ph)) w) <= fuel)%nat ->
  calcPathFromArrival fuel ph a = Ok a' ->
  nth_error (tm_rayParams (ph_tMod ph)) k = Some (ar_rayParam a) ->
  legs_total (ph_tMod ph) tb_dist (Z.of_nat k) (ph_seq ph) d -> legs_total (ph_tMod ph) tb_time (Z.of_nat k) (ph_seq ph) tm ->
  ~ contains "kmps" (ph_name ph) ->
  let legs := map sg_branch (ph_seq ph) in
  let n := Z.max (Z.of_nat (str_count "Pn" (ph_name ph))) (Z.of_nat (str_count "Sn" (ph_name ph))) in
  exists z g, final (ar_path a') (mkTD (ar_rayParam a) (tm + g * ar_rayParam a) (d + g) z) /\
    (~ diffracted (ph_name ph) -> ~ head_wave (ph_name ph) -> g = 0) /\
    (forall d0, at_index (ph_dist ph) 0 d0 -> diffracted (ph_name ph) -> ~ head_wave (ph_name ph) ->
       g = INR (pairs (tm_cmbBranch (ph_tMod ph) - 1) legs) * (ar_dist a - d0)) /\
    (forall d0, at_index (ph_dist ph) 0 d0 -> ~ diffracted (ph_name ph) -> head_wave (ph_name ph) ->
       g = INR (pairs (tm_mohoBranch (ph_tMod ph) - 1) legs) * ((ar_dist a - d0) / IZR n)).
Proof.
  intros fuel ph a a' k d tm Hr Hf H Hk Hd Ht Nk legs n.
  destruct (path_end fuel ph a a' (proj1 Hr) Hf H Nk) as [pieces [z [Hw Hfin]]].
  assert (W := way_total ph a k Hr Hk (ph_seq ph) pieces Hw). cbv zeta in W. fold n in W. unfold cmb_pairs, moho_pairs in W. fold legs in W.
  exists z, (total td_dist pieces - d).
  assert (Use : forall d' tm' g, legs_total (ph_tMod ph) tb_dist (Z.of_nat k) (ph_seq ph) d' /\ legs_total (ph_tMod ph) tb_time (Z.of_nat k) (ph_seq ph) tm' /\
      total td_dist pieces = d' + g /\ total td_time pieces = tm' + g * ar_rayParam a ->
      total td_dist pieces - d = g /\ total td_time pieces = tm + g * ar_rayParam a).
  { intros d' tm' g [A [B [C D]]]. rewrite (legs_total_fun _ _ _ _ _ _ Hd A), (legs_total_fun _ _ _ _ _ _ Ht B). split; [lra|exact D]. }
  assert (Some_g : exists g, total td_dist pieces - d = g /\ total td_time pieces = tm + g * ar_rayParam a).
  { assert (Dd : diffracted (ph_name ph) \/ ~ diffracted (ph_name ph)) by (rewrite <- diff_iff; destruct (_ || _)%bool; [left; reflexivity|right; discriminate]).
    assert (Hh : head_wave (ph_name ph) \/ ~ head_wave (ph_name ph)) by (rewrite <- head_iff; destruct (_ || _)%bool; [left; reflexivity|right; discriminate]).
    (* in every case the boundary pieces add the same distance times the ray parameter *)
    clear Use. assert (G : forall seq pcs, way ph a seq pcs -> exists d' tm' g, legs_total (ph_tMod ph) tb_dist (Z.of_nat k) seq d' /\
      legs_total (ph_tMod ph) tb_time (Z.of_nat k) seq tm' /\ total td_dist pcs = d' + g /\ total td_time pcs = tm' + g * ar_rayParam a).
    { intros seq pcs Hw'. induction Hw' as [|s l b own extra rest Hb Hl He Hw' [d1 [t1 [g1 [I1 [I2 [I3 I4]]]]]]].
      - exists 0, 0, 0. split; [constructor|]. split; [constructor|]. rewrite !total_nil. split; ring.
      - destruct (one_leg ph a k Hr Hk s b own Hb Hl) as [d2 [t2 [A1 [A2 [A3 A4]]]]].
        assert (Ex : exists g', total td_dist extra = g' /\ total td_time extra = g' * ar_rayParam a).
        { destruct He as [[_ [d' [_ ->]]]|[[_ [_ [d' [n' [_ [_ ->]]]]]]|[_ [_ ->]]]]; rewrite ?total_cons, ?total_nil; cbn [td_dist td_time];
            (eexists; split; [rewrite ?Rplus_0_r; reflexivity|ring]). }
        destruct Ex as [g' [E1 E2]]. exists (d2 + d1), (t2 + t1), (g' + g1). split; [eapply lt_cons; eassumption|]. split; [eapply lt_cons; eassumption|].
        rewrite !total_app, A3, A4, I3, I4, E1, E2. split; ring. }
    destruct (G _ _ Hw) as [d' [tm' [g [A [B [C D]]]]]]. exists g. rewrite (legs_total_fun _ _ _ _ _ _ Hd A), (legs_total_fun _ _ _ _ _ _ Ht B). split; [lra|exact D]. }
  destruct Some_g as [g0 [G1 G2]]. split.
  - rewrite G1, <- G2. replace (d + g0) with (total td_dist pieces) by lra. exact Hfin.
  - split; [|split].
    + intros Nd Nh. destruct (W 0 (or_intror (conj Nd Nh)) 0) as [d' [tm' X]]; [tauto|]. exact (proj1 (Use d' tm' 0 X)).
    + intros d0 H0 Df Nh. edestruct (W d0 (or_introl H0)) as [d' [tm' X]]; [left; split; [exact Df|]; split; [exact Nh|reflexivity]|]. exact (proj1 (Use d' tm' _ X)).
    + intros d0 H0 Nd Hh. edestruct (W d0 (or_introl H0)) as [d' [tm' X]]; [right; left; split; [exact Nd|]; split; [exact Hh|reflexivity]|]. exact (proj1 (Use d' tm' _ X)).
Qed.
Print Assumptions C36_end.

(** ** phases *)
Lemma decreasing_at : forall l (p : R) i, decreasing l -> In p l -> last_sample l p i -> nth_error l (Z.to_nat i) = Some p.
Proof.
  intros l p i Hd Hin [_ [[r [Hr Hp]] Hl]]. destruct (In_nth_error _ _ Hin) as [n Hn].
  destruct (lt_eq_lt_dec (Z.to_nat i) n) as [[X|X]|X].
  - specialize (Hl n p X Hn). lra.
  - rewrite X. exact Hn.
  - exfalso. assert (A := CurveMainProofs.nth_decreasing _ _ _ _ _ Hd X Hn Hr). lra.
Qed.

(** For an arrival at a sampled point of the curve of an ordinary phase the path ends at the distance and
    the time of the arrival. *)
Theorem C36_sampled_arrival : forall show w t tid name ph fuel a a' n d tm,
  newPhase show w t tid name = Ok ph -> ph_rayParams ph <> [] ->
  List.length (tm_S t) = List.length (tm_P t) -> (exists r, In r (tm_rayParams t) /\ ph_max ph <= r) ->
  ~ diffracted name -> ~ head_wave name -> ~ contains "kmps" name ->
  (forall z, In z (sm_hiP (tm_sMod t)) \/ In z (sm_hiS (tm_sMod t)) -> ~ ph_min ph < dr_rayParam z < ph_max ph) ->
  decreasing (tm_rayParams t) -> rays_ready t -> (forall w, List.length (sm_layers (tm_sMod t) w) <= fuel)%nat ->
  nth_error (ph_rayParams ph) n = Some (ar_rayParam a) -> In (ar_rayParam a) (tm_rayParams t) ->
  nth_error (ph_dist ph) n = Some d -> nth_error (ph_time ph) n = Some tm ->
  calcPathFromArrival fuel ph a = Ok a' ->
  exists z, final (ar_path a') (mkTD (ar_rayParam a) tm d z).
Proof.
  intros show w t tid name ph fuel a a' n d tm H Hne Hlen Hr Nd Nh Nk Hz Hdec Hrdy Hf Hn Hin Hd Ht Hp.
  destruct (phase_of show w t tid name ph H Hne) as [Et En].
  destruct (C33_sum_of_legs_no_zone show w t tid name ph H Hne Hlen Hr Nd Nh Hz) as [lo [hi [Hlo [Hhi Hc]]]].
  assert (K : exists k, nth_error (tm_rayParams t) k = Some (ar_rayParam a) /\ legs_total t tb_dist (Z.of_nat k) (ph_seq ph) d /\ legs_total t tb_time (Z.of_nat k) (ph_seq ph) tm).
  { assert (Hpt : nth_error (curve_of ph) n = Some (ar_rayParam a, d, tm)).
    { unfold curve_of. apply nth_error_combine. split; [apply nth_error_combine; auto|exact Ht]. }
    destruct Hc as [[_ [_ Hc]]|[Elh [d' [tm' [Hc [T1 T2]]]]]].
    - destruct (Hc n _ _ _ Hpt) as [A [B C]]. exists (Z.to_nat (lo + Z.of_nat n)). destruct Hlo as [Hlo _]. rewrite Z2Nat.id by lia.
      split; [|auto]. apply at_index_nat. rewrite Z2Nat.id by lia. exact A.
    - rewrite Hc in Hpt. assert (E : ar_rayParam a = ph_min ph /\ d = d' /\ tm = tm').
      { destruct n as [|[|n]]; cbn in Hpt; [injection Hpt; auto|injection Hpt; auto|destruct n; discriminate]. }
      destruct E as [Ep [-> ->]]. exists (Z.to_nat hi). rewrite Elh in T1, T2.
      destruct Hhi as [H0 Hhi]. rewrite Z2Nat.id by lia. split; [|auto]. rewrite Ep in Hin |- *. apply decreasing_at; [exact Hdec|exact Hin|split; [exact H0|exact Hhi]]. }
  destruct K as [k [K1 [K2 K3]]]. rewrite <- Et in Hrdy, Hf, K1, K2, K3. rewrite <- En in Nd, Nh, Nk.
  destruct (C36_end fuel ph a a' k d tm Hrdy Hf Hp K1 K2 K3 Nk) as [z [g [Hfin [G _]]]]. rewrite (G Nd Nh) in Hfin.
  exists z. replace (tm + 0 * ar_rayParam a) with tm in Hfin by ring. replace (d + 0) with d in Hfin by ring. exact Hfin.
Qed.
Print Assumptions C36_sampled_arrival.

(** *** successive legs *)
Lemma pairs_join : forall k l1 x y l2, pairs k (l1 ++ x :: y :: l2) =
  (pairs k (l1 ++ [x]) + (if (x =? k)%Z && (y =? k)%Z then 1 else 0) + pairs k (y :: l2))%nat.
Proof.
  intros k l1. induction l1 as [|u l1 IH]; intros x y l2; [reflexivity|].
  destruct l1 as [|v l1]; [cbn [app pairs]; destruct ((u =? k)%Z && (x =? k)%Z); lia|].
  cbn [app]. cbn [app] in IH. cbn [pairs]. cbn [pairs] in IH. rewrite (IH x y l2). lia.
Qed.
Lemma pairs_nodup : forall k l, NoDup l -> pairs k l = 0%nat.
Proof.
  intros k l H. induction H as [|x l Hx Hl IH]; [reflexivity|]. destruct l as [|y l]; [reflexivity|]. cbn [pairs] in *. rewrite IH.
  destruct ((x =? k)%Z && (y =? k)%Z) eqn:E; [|reflexivity]. exfalso. apply andb_true_iff in E. rewrite !Z.eqb_eq in E. apply Hx. left. lia.
Qed.
Lemma branches_nodup : forall a b, NoDup (branches a b).
Proof. intros a b. unfold branches. apply FinFun.Injective_map_NoDup; [intros x y E; lia|apply seq_NoDup]. Qed.
Lemma branches_last : forall a b, (0 <= a < b)%Z -> exists l, branches a b = l ++ [(b - 1)%Z].
Proof.
  intros a b H. unfold branches. replace (Z.to_nat b - Z.to_nat a)%nat with (S (Z.to_nat b - Z.to_nat a - 1)) by lia.
  rewrite seq_S, map_app. cbn [map]. eexists. f_equal. f_equal. lia.
Qed.
Lemma branches_top : forall a b, (0 <= a < b)%Z -> exists l, rev (branches a b) = (b - 1)%Z :: l.
Proof. intros a b H. destruct (branches_last a b H) as [l ->]. rewrite rev_unit. eauto. Qed.
(** down to branch [b] - 1 and up again *)
Lemma pairs_vee : forall k a b, (0 <= a < b)%Z -> pairs k (branches a b ++ rev (branches 0 b)) = if (b - 1 =? k)%Z then 1%nat else 0%nat.
Proof.
  intros k a b H. destruct (branches_last a b H) as [l1 E1]. destruct (branches_top 0 b ltac:(lia)) as [l2 E2].
  assert (N1 := branches_nodup a b). assert (N2 := NoDup_rev (branches_nodup 0 b)). rewrite E1 in *. rewrite E2 in *.
  rewrite <- app_assoc. cbn [app]. rewrite pairs_join, (pairs_nodup k _ N1), (pairs_nodup k _ N2). rewrite andb_diag. destruct (_ =? _)%Z; reflexivity.
Qed.
(** the same twice, the second time from the surface *)
Lemma pairs_twice : forall k a b, (0 <= a < b)%Z -> (b - 1 = k)%Z ->
  (2 <= pairs k ((branches a b ++ rev (branches 0 b)) ++ branches 0 b ++ rev (branches 0 b)))%nat.
Proof.
  intros k a b H Hk. assert (A := pairs_vee k a b H). assert (B := pairs_vee k 0 b ltac:(lia)). rewrite Hk, Z.eqb_refl in A, B.
  assert (X : branches a b ++ rev (branches 0 b) = (branches a b ++ rev (branches 1 b)) ++ [0%Z]).
  { rewrite <- app_assoc. f_equal. unfold branches. replace (Z.to_nat b - Z.to_nat 0)%nat with (S (Z.to_nat b - Z.to_nat 1)) by lia.
    cbn [Z.to_nat seq map rev]. reflexivity. }
  assert (Y : exists l, branches 0 b = 0%Z :: l).
  { unfold branches. replace (Z.to_nat b - Z.to_nat 0)%nat with (S (Z.to_nat b - 1)) by lia. cbn [Z.to_nat seq map]. eauto. }
  destruct Y as [l Y]. rewrite X in *. rewrite Y in B |- *. rewrite <- app_assoc. cbn [app]. rewrite pairs_join. cbn [app] in B. rewrite A, B. lia.
Qed.
Lemma map_down : forall w a b, map (fun c : crossing => fst (fst c)) (down w a b) = branches a b.
Proof. intros w a b. unfold down. rewrite map_map. cbn. apply map_id. Qed.
Lemma map_up : forall w a b, map (fun c : crossing => fst (fst c)) (up w a b) = rev (branches a b).
Proof. intros w a b. unfold up. rewrite map_map. cbn. apply map_id. Qed.
Lemma seq_branches : forall (l : list seg) path, map (fun s => (sg_branch s, sg_down s, sg_isP s)) l = path ->
  map sg_branch l = map (fun c : crossing => fst (fst c)) path.
Proof. intros l path <-. rewrite map_map. reflexivity. Qed.

(** the branch numbers of a model with Moho, core and inner core *)
Definition layered (t : tmodel R) : Prop :=
  (0 <= tm_sourceBranch t < tm_cmbBranch t)%Z /\ (0 <= tm_mohoBranch t < tm_cmbBranch t)%Z /\
  (tm_cmbBranch t < tm_iocbBranch t < Z.of_nat (List.length (tm_P t)))%Z /\ List.length (tm_S t) = List.length (tm_P t).

Lemma route_of : forall show w t tid legs path ph, layered t ->
  textbook (tm_sourceBranch t) (tm_mohoBranch t) (tm_cmbBranch t) (tm_iocbBranch t) (Z.of_nat (List.length (tm_P t))) legs path ->
  newPhase show w t tid (join legs) = Ok ph -> 0 <= ph_max ph -> map sg_branch (ph_seq ph) = map (fun c : crossing => fst (fst c)) path.
Proof.
  intros show w t tid legs path ph [H1 [H2 [H3 H4]]] Ht H Hm. apply seq_branches.
  destruct (C32_sequence show w t tid legs path ph H1 H2 H3 H4 Ht H) as [E|[E _]]; [exact E|].
  exfalso. rewrite E in Hm. cbn in Hm. unfold Rlit in Hm. cbn in Hm. lra.
Qed.

(** Pdiff and Sdiff: the path ends at the distance of the arrival, and its time is that of the ray that
    grazes the core plus the ray parameter times the rest of the distance. *)
Theorem C36_diffracted : forall show w t tid x isP ph fuel a a', mantle_leg x isP -> layered t ->
  newPhase show w t tid (x ++ "diff")%string = Ok ph -> ph_rayParams ph <> [] -> In (ph_max ph) (tm_rayParams t) ->
  decreasing (tm_rayParams t) -> rays_ready t -> (forall w, List.length (sm_layers (tm_sMod t) w) <= fuel)%nat ->
  ar_rayParam a = ph_max ph -> calcPathFromArrival fuel ph a = Ok a' ->
  exists z d0 t0, nth_error (ph_dist ph) 0 = Some d0 /\ nth_error (ph_time ph) 0 = Some t0 /\
    final (ar_path a') (mkTD (ar_rayParam a) (t0 + (ar_dist a - d0) * ar_rayParam a) (ar_dist a) z).
Proof.
  intros show w t tid x isP ph fuel a a' Hx Hlay H Hne Hin Hdec Hrdy Hf Ha Hp.
  assert (Df : diffracted (x ++ "diff") /\ ~ head_wave (x ++ "diff") /\ ~ contains "kmps" (x ++ "diff")).
  { destruct Hx; (split; [|split; [intros [X|X]; not_in X|intros X; not_in X]]).
    - right. exists "", "". reflexivity.
    - left. exists "", "". reflexivity. }
  destruct Df as [Df [Nh Nk]]. assert (Hlen := proj2 (proj2 (proj2 Hlay))).
  destruct (phase_of show w t tid _ ph H Hne) as [Et En].
  destruct (C34_diffracted show w t tid _ ph H Hne Hlen ltac:(exists (ph_max ph); split; [exact Hin|lra]) Df) as [lo [d [tm [_ [P0 [Hlo [T1 [T2 [_ [Ed Etm]]]]]]]]]].
  assert (Hk := decreasing_at _ _ _ Hdec Hin Hlo). rewrite <- Ha in Hk. destruct Hlo as [L0 _].
  assert (R : map sg_branch (ph_seq ph) = branches (tm_sourceBranch t) (tm_cmbBranch t) ++ rev (branches 0 (tm_cmbBranch t))).
  { rewrite (route_of show w t tid [(x ++ "diff")%string] (down isP (tm_sourceBranch t) (tm_cmbBranch t) ++ up isP 0 (tm_cmbBranch t)) ph Hlay).
    - rewrite map_app, map_down, map_up. reflexivity.
    - apply te_down. apply ar_one. apply sr_diff. exact Hx.
    - destruct Hx; exact H.
    - exact P0. }
  rewrite <- (Z2Nat.id lo) in T1, T2 by exact L0.
  rewrite <- Et in Hrdy, Hf, Hk, T1, T2. rewrite <- En in Df, Nh, Nk.
  destruct (C36_end fuel ph a a' (Z.to_nat lo) d tm Hrdy Hf Hp Hk T1 T2 Nk) as [z [g [Hfin [_ [G _]]]]].
  assert (H0 : at_index (ph_dist ph) 0 d) by (left; split; [lia|rewrite Ed; reflexivity]).
  specialize (G d H0 Df Nh). rewrite R, Et, pairs_vee, Z.eqb_refl in G by apply Hlay. cbn [INR] in G.
  exists z, d, tm. rewrite Ed, Etm. split; [reflexivity|]. split; [reflexivity|].
  replace (d + g) with (ar_dist a) in Hfin by lra. replace (tm + g * ar_rayParam a) with (tm + (ar_dist a - d) * ar_rayParam a) in Hfin by (rewrite G; ring). exact Hfin.
Qed.
Print Assumptions C36_diffracted.

(** With a further leg that turns in the mantle, such as in PdiffP, the piece along the core is put in at
    least twice: the path goes beyond the arrival. *)
Theorem C36_diffracted_twice_refuted : forall show w t tid x isP y isP' ph fuel a a', mantle_leg x isP -> mantle_leg y isP' -> layered t ->
  newPhase show w t tid (x ++ "diff" ++ y)%string = Ok ph -> ph_rayParams ph <> [] -> In (ph_max ph) (tm_rayParams t) ->
  decreasing (tm_rayParams t) -> rays_ready t -> (forall w, List.length (sm_layers (tm_sMod t) w) <= fuel)%nat ->
  ar_rayParam a = ph_max ph -> (forall d0, nth_error (ph_dist ph) 0 = Some d0 -> d0 < ar_dist a) ->
  calcPathFromArrival fuel ph a = Ok a' ->
  exists e, final (ar_path a') e /\ ar_dist a < td_dist e.
Proof.
  intros show w t tid x isP y isP' ph fuel a a' Hx Hy Hlay H Hne Hin Hdec Hrdy Hf Ha Hfar Hp.
  assert (Df : diffracted (x ++ "diff" ++ y) /\ ~ head_wave (x ++ "diff" ++ y) /\ ~ contains "kmps" (x ++ "diff" ++ y)).
  { destruct Hx, Hy; (split; [|split; [intros [X|X]; not_in X|intros X; not_in X]]).
    - right. exists "", "P". reflexivity.
    - right. exists "", "S". reflexivity.
    - left. exists "", "P". reflexivity.
    - left. exists "", "S". reflexivity. }
  destruct Df as [Df [Nh Nk]]. assert (Hlen := proj2 (proj2 (proj2 Hlay))).
  destruct (phase_of show w t tid _ ph H Hne) as [Et En].
  destruct (C34_diffracted show w t tid _ ph H Hne Hlen ltac:(exists (ph_max ph); split; [exact Hin|lra]) Df) as [lo [d [tm [_ [P0 [Hlo [T1 [T2 [_ [Ed Etm]]]]]]]]]].
  assert (Hk := decreasing_at _ _ _ Hdec Hin Hlo). rewrite <- Ha in Hk. destruct Hlo as [L0 _].
  assert (R : map sg_branch (ph_seq ph) = (branches (tm_sourceBranch t) (tm_cmbBranch t) ++ rev (branches 0 (tm_cmbBranch t))) ++
      branches 0 (tm_cmbBranch t) ++ rev (branches 0 (tm_cmbBranch t))).
  { rewrite (route_of show w t tid ([(x ++ "diff")%string] ++ [y])
      ((down isP (tm_sourceBranch t) (tm_cmbBranch t) ++ up isP 0 (tm_cmbBranch t)) ++ (down isP' 0 (tm_cmbBranch t) ++ up isP' 0 (tm_cmbBranch t))) ph Hlay).
    - rewrite !map_app, !map_down, !map_up. reflexivity.
    - apply te_down. apply ar_more; [apply sr_diff; exact Hx|]. apply ar_plain, rs_one, ra_turn. exact Hy.
    - destruct Hx, Hy; exact H.
    - exact P0. }
  rewrite <- (Z2Nat.id lo) in T1, T2 by exact L0.
  rewrite <- Et in Hrdy, Hf, Hk, T1, T2. rewrite <- En in Df, Nh, Nk.
  destruct (C36_end fuel ph a a' (Z.to_nat lo) d tm Hrdy Hf Hp Hk T1 T2 Nk) as [z [g [Hfin [_ [G _]]]]].
  assert (H0 : at_index (ph_dist ph) 0 d) by (left; split; [lia|rewrite Ed; reflexivity]).
  specialize (G d H0 Df Nh). rewrite R, Et in G.
  assert (Two := pairs_twice (tm_cmbBranch t - 1) _ _ (proj1 Hlay) eq_refl). apply le_INR in Two. cbn [INR] in Two.
  assert (F := Hfar d ltac:(rewrite Ed; reflexivity)).
  eexists. split; [exact Hfin|]. cbn [td_dist].
  assert (2 * (ar_dist a - d) <= g) by (rewrite G; apply Rmult_le_compat_r; lra). lra.
Qed.
Print Assumptions C36_diffracted_twice_refuted.

(** Pn and Sn: the piece along the Moho is put in between two legs just above the Moho, but the deepest legs
    of these phases are just below it, so it is never put in; the path ends where the curve begins, however
    far the arrival is. *)
Theorem C36_head_wave_refuted : forall show w t tid x isP ph fuel a a', mantle_leg x isP -> layered t -> 
  newPhase show w t tid (x ++ "n")%string = Ok ph -> ph_rayParams ph <> [] -> In (ph_max ph) (tm_rayParams t) ->
  decreasing (tm_rayParams t) -> rays_ready t -> (forall w, List.length (sm_layers (tm_sMod t) w) <= fuel)%nat ->
  (tm_sourceBranch t <= tm_mohoBranch t)%Z ->
  ar_rayParam a = ph_max ph -> calcPathFromArrival fuel ph a = Ok a' ->
  exists z d0 t0, nth_error (ph_dist ph) 0 = Some d0 /\ nth_error (ph_time ph) 0 = Some t0 /\
    final (ar_path a') (mkTD (ar_rayParam a) t0 d0 z).
Proof.
  intros show w t tid x isP ph fuel a a' Hx Hlay H Hne Hin Hdec Hrdy Hf Hsm Ha Hp.
  assert (Df : ~ diffracted (x ++ "n") /\ head_wave (x ++ "n") /\ ~ contains "kmps" (x ++ "n")).
  { destruct Hx; (split; [intros [X|X]; not_in X|split; [|intros X; not_in X]]).
    - left. exists "", "". reflexivity.
    - right. exists "", "". reflexivity. }
  destruct Df as [Nd [Hh Nk]]. assert (Hlen := proj2 (proj2 (proj2 Hlay))).
  destruct (phase_of show w t tid _ ph H Hne) as [Et En].
  destruct (C34_head_wave_refuted show w t tid _ ph H Hne Hlen ltac:(exists (ph_max ph); split; [exact Hin|lra]) Nd Hh) as [lo [d [tm [_ [P0 [Hlo [T1 [T2 [_ [Ed [Etm _]]]]]]]]]]].
  assert (Hk := decreasing_at _ _ _ Hdec Hin Hlo). rewrite <- Ha in Hk. destruct Hlo as [L0 _].
  assert (R : map sg_branch (ph_seq ph) = branches (tm_sourceBranch t) (tm_mohoBranch t + 1) ++ rev (branches 0 (tm_mohoBranch t + 1))).
  { rewrite (route_of show w t tid [(x ++ "n")%string] (down isP (tm_sourceBranch t) (tm_mohoBranch t + 1) ++ up isP 0 (tm_mohoBranch t + 1)) ph Hlay).
    - rewrite map_app, map_down, map_up. reflexivity.
    - apply te_down. apply ar_plain, rs_one, ra_moho. exact Hx.
    - destruct Hx; exact H.
    - exact P0. }
  rewrite <- (Z2Nat.id lo) in T1, T2 by exact L0.
  rewrite <- Et in Hrdy, Hf, Hk, T1, T2. rewrite <- En in Nd, Hh, Nk.
  destruct (C36_end fuel ph a a' (Z.to_nat lo) d tm Hrdy Hf Hp Hk T1 T2 Nk) as [z [g [Hfin [_ [_ G]]]]].
  assert (H0 : at_index (ph_dist ph) 0 d) by (left; split; [lia|rewrite Ed; reflexivity]).
  specialize (G d H0 Nd Hh). destruct Hlay as [[S0 _] [[M0 _] _]]. rewrite R, Et, pairs_vee in G by lia.
  replace (tm_mohoBranch t + 1 - 1 =? tm_mohoBranch t - 1)%Z with false in G by (symmetry; apply Z.eqb_neq; lia). cbn [INR] in G. rewrite Rmult_0_l in G.
  exists z, d, tm. rewrite Ed, Etm. split; [reflexivity|]. split; [reflexivity|]. rewrite G in Hfin.
  replace (d + 0) with d in Hfin by ring. replace (tm + 0 * ar_rayParam a) with tm in Hfin by ring. exact Hfin.
Qed.
Print Assumptions C36_head_wave_refuted.

(** ** concrete cases *)

(** a planet of radius 8 with velocity 2: crust, mantle, outer and inner core, each 2 thick *)
Definition o_ls : list (slayer R) := [mkSL 0 4 0 3 2; mkSL 1 3 2 2 4; mkSL 2 2 4 1 6; mkSL 3 1 6 0 8].
Definition o_s : smodel R :=
  mkSM (mkVModel "o" 8 2 4 6 0 8 true []) 0 0 0 0 0 true (/ 100) 8 [] [] [] [] o_ls o_ls 4.
Definition ob (isP : bool) (top bot mx : R) (d tm : list R) : tbranch R := mkTB top bot isP mx 0 0 d tm tm.
Definition o_bs (isP : bool) : list (tbranch R) :=
  [ob isP 0 2 4 [0; 0] [0; 1]; ob isP 2 4 0 [0; 0] [0; 1]; ob isP 4 6 0 [0; 0] [0; 1]; ob isP 6 8 0 [0; PI / 2] [0; 1]].
Definition o_t : tmodel R := mkTM o_s [4; 0] (o_bs true) (o_bs false) 1 2 3 2 4 6 0 0 8.

Lemma o_layers : forall w, sm_layers o_s w = o_ls.
Proof. intros []; reflexivity. Qed.
Ltac o_layer k H := destruct k as [|[|[|[|k]]]]; cbn in H; [injection H as <-..|destruct k; discriminate H].
Lemma o_meet : s_meet o_ls.
Proof. intros k a b Ha Hb. o_layer k Ha; cbn in Hb; try discriminate Hb; injection Hb as <-; apply Reqb_true; reflexivity. Qed.
Lemma o_upright : s_upright o_ls.
Proof. intros y Hy. apply Rleb_true. cbn in Hy. repeat (destruct Hy as [<-|Hy]; [cbn; lra|]). contradiction. Qed.
Lemma o_ready : path_ready o_t.
Proof.
  split; [|split].
  - intros w. cbn [tm_sMod o_t]. rewrite o_layers. split; [exact o_meet|exact o_upright].
  - intros b Hb. apply Rltb_true. cbn in Hb. repeat (destruct Hb as [<-|Hb]; [cbn; lra|]). contradiction.
  - intros b Hb. apply Rltb_true. cbn in Hb. repeat (destruct Hb as [<-|Hb]; [cbn; lra|]). contradiction.
Qed.
Lemma o_falls : forall i j, falls o_ls i j.
Proof.
  intros i j k y Hk Hy. o_layer k Hy; cbn [sl_botP sl_topP sl_topDepth sl_botDepth];
    (split; [lra|]; split; [lra|]; intros z _ Hz; cbn in Hz; try discriminate Hz; injection Hz as <-; cbn; lra).
Qed.
Lemma vertical : forall n y w, nth_error o_ls n = Some y -> (n < 3)%nat -> layerTimeDist o_s 0 (Z.of_nat n) w = Ok (mkTD 0 1 0 0).
Proof.
  intros n y w Hy Hn. assert (Hg : getSlownessLayer o_s (Z.of_nat n) w = Ok y) by (apply get_iff; rewrite o_layers; exact Hy).
  assert (B : sl_topP y = (8 - sl_topDepth y) / 2 /\ sl_botP y = (8 - sl_botDepth y) / 2 /\ sl_botDepth y = sl_topDepth y + 2 /\ 0 <= sl_topDepth y <= 4).
  { o_layer n Hy; try lia; cbn; lra. }
  destruct B as [B1 [B2 [B3 B4]]].
  destruct (C19_straight_ray o_s (Z.of_nat n) w y 0 Hg) as [A _].
  - unfold BullenSpec.slow_pos. lra.
  - cbn [sm_radius o_s]. lra.
  - cbn [sm_radius sm_tolerance o_s]. rewrite B1, B2, B3. replace ((8 - sl_topDepth y) / ((8 - sl_topDepth y) / 2)) with 2 by (field; lra).
    replace ((8 - (sl_topDepth y + 2)) / ((8 - (sl_topDepth y + 2)) / 2)) with 2 by (field; lra). replace (2 - 2) with 0 by ring. rewrite Rabs_R0. lra.
  - cbn [sm_radius sm_tolerance o_s]. rewrite B3. nra.
  - destruct A as [[p tm d z] [E [Ep [Ez [Pt [Pd [[it [ib [I1 [I2 [I3 [I4 [I5 I6]]]]]]] Hl]]]]]]]; [lra|].
    cbn [td_p td_depth td_time td_dist] in *. subst p z. rewrite E. cbn [sm_radius o_s] in *.
    assert (Z0 : forall x rr, 0 <= x <= PI / 2 -> 0 < rr -> rr * sin x = 0 -> x = 0).
    { intros x rr Hx Hrr Hs. destruct (Req_dec x 0) as [|Nz]; [assumption|exfalso]. pose proof PI_RGT_0. assert (0 < sin x) by (apply sin_gt_0; lra). nra. }
    assert (it = 0) by (apply (Z0 it (8 - sl_topDepth y)); lra). assert (ib = 0) by (apply (Z0 ib (8 - sl_botDepth y)); lra). subst it ib.
    rewrite Rminus_0_r in I6. subst d. rewrite cos_0, sin_0 in Hl. rewrite B2, B3 in Hl.
    replace ((8 - (sl_topDepth y + 2)) / ((8 - (sl_topDepth y + 2)) / 2)) with 2 in Hl by (field; lra).
    unfold dist_euc in Hl. replace (Rsqr (8 - sl_topDepth y - (8 - (sl_topDepth y + 2)) * 1) + Rsqr (0 - (8 - (sl_topDepth y + 2)) * 0)) with (Rsqr 2) in Hl by (unfold Rsqr; ring).
    rewrite sqrt_Rsqr in Hl by lra. assert (tm = 1) by lra. subst tm. reflexivity.
Qed.
Lemma centre : forall w, layerTimeDist o_s 0 3 w = Ok (mkTD 0 1 (PI / 2) 0).
Proof.
  intros w. assert (Hg : getSlownessLayer o_s 3 w = Ok (mkSL 3 1 6 0 8)) by (destruct w; reflexivity).
  destruct (C19_centre o_s 3 w _ 0 Hg) as [A _]; try (cbn; lra). apply A; [reflexivity|destruct w; reflexivity].
Qed.
Lemma o_edges : forall n y, nth_error o_ls n = Some y -> deepest o_ls (sl_topDepth y) n /\ shallowest o_ls (sl_botDepth y) n.
Proof.
  intros n y Hy. assert (Hin := nth_error_In _ _ Hy). assert (U := proj1 (Rleb_le _ _) (o_upright y Hin)).
  split.
  - split; [exists y; split; [exact Hy|split; apply Rleb_le; lra]|]. intros j z Hz [A B]. apply Rleb_le in A. apply Rleb_le in B.
    o_layer n Hy; o_layer j Hz; cbn in *; try lia; lra.
  - split; [exists y; split; [exact Hy|split; apply Rleb_le; lra]|]. intros j z Hz [A B]. apply Rleb_le in A. apply Rleb_le in B.
    o_layer n Hy; o_layer j Hz; cbn in *; try lia; lra.
Qed.
Lemma o_ray : forall n y isP mx d tm, nth_error o_ls n = Some y ->
  layerTimeDist o_s 0 (Z.of_nat n) isP = Ok (mkTD 0 tm d 0) -> (n = 0%nat /\ mx = 4 \/ mx = 0) ->
  all_rays o_s isP [4; 0] (ob isP (sl_topDepth y) (sl_botDepth y) mx [0; d] [0; tm]).
Proof.
  intros n y isP mx d tm Hy Hl Hmx. split; [reflexivity|]. split; [reflexivity|]. split; [reflexivity|].
  destruct (o_edges n y Hy) as [E1 E2].
  intros [|[|k]] p d' t' u' Hp Hd Ht Hu'; cbn in Hp, Hd, Ht, Hu'; [injection Hp as <-; injection Hd as <-; injection Ht as <-; injection Hu' as <-..|destruct k; discriminate].
  - split; [cbn; ring|]. destruct Hmx as [[-> ->]| ->].
    + right. split; [apply Rleb_true; cbn; lra|]. exists 0%nat, 0%nat, []. rewrite o_layers. split; [exact E1|]. split; [exact E2|]. split; [|split; cbn; symmetry; apply n_0_R].
      left. split; [cbn; lia|]. split; [intros k z Hk; cbn in Hk; lia|]. split; [intros [|k] z Hz; discriminate|].
      right. exists y. rewrite o_layers. split; [exact Hy|]. injection Hy as <-. split.
      * intros [_ X]. apply Rleb_le in X. cbn in X. lra.
      * unfold spans. cbn [sl_topP sl_botP n_ltb n_sub n_mul Num_R]. rewrite n_0_R. intros X. apply Rltb_lt in X. lra.
    + left. split; [apply leb_R_false; cbn; lra|]. rewrite n_0_R. auto.
  - split; [cbn; ring|]. right. split; [apply Rleb_true; cbn; destruct Hmx as [[_ ->]| ->]; lra|].
    exists n, n, [mkTD 0 tm d 0]. rewrite o_layers. split; [exact E1|]. split; [exact E2|]. split; [|split; [unfold sum_dist|unfold sum_time]; cbn [fold_left td_dist td_time n_add Num_R]; rewrite n_0_R; ring].
    left. split; [cbn; lia|]. split.
    + intros k z Hk Hz. cbn in Hk. replace (n + k)%nat with n in Hz by lia. rewrite o_layers, Hy in Hz. injection Hz as <-.
      assert (0 <= sl_topP y /\ 0 <= sl_botP y) by (o_layer n Hy; cbn; lra). split; apply Rleb_true; lra.
    + split; [|left; cbn; lia]. intros [|k] x Hx; cbn in Hx; [injection Hx as <-; rewrite Nat.add_0_r; exact Hl|destruct k; discriminate].
Qed.
Lemma o_rays : rays_ready o_t.
Proof.
  split; [exact o_ready|]. intros b Hb. assert (G : forall isP, In b (o_bs isP) -> steady o_s b /\ all_rays o_s (tb_isP b) [4; 0] b).
  { intros isP Hin. split; [intros i j _ _; left; rewrite o_layers; apply o_falls|]. cbn in Hin.
    destruct Hin as [<-|[<-|[<-|[<-|[]]]]]; cbn [tb_isP ob].
    - apply (o_ray 0 (mkSL 0 4 0 3 2)); [reflexivity|apply (vertical 0 (mkSL 0 4 0 3 2)); [reflexivity|lia]|left; split; reflexivity].
    - apply (o_ray 1 (mkSL 1 3 2 2 4)); [reflexivity|apply (vertical 1 (mkSL 1 3 2 2 4)); [reflexivity|lia]|right; reflexivity].
    - apply (o_ray 2 (mkSL 2 2 4 1 6)); [reflexivity|apply (vertical 2 (mkSL 2 2 4 1 6)); [reflexivity|lia]|right; reflexivity].
    - apply (o_ray 3 (mkSL 3 1 6 0 8)); [reflexivity|apply centre|right; reflexivity]. }
  destruct Hb as [Hb|Hb]; [exact (G true Hb)|exact (G false Hb)].
Qed.
Lemma o_layered : layered o_t.
Proof. unfold layered. cbn. lia. Qed.
Lemma o_decreasing : decreasing (tm_rayParams o_t).
Proof. repeat constructor; apply Rltb_lt; lra. Qed.

(** the vertical ray in one branch *)
Lemma o_leg : forall n y isP mx d tm (dn : bool), nth_error o_ls n = Some y -> (n < 3)%nat -> 0 <= mx ->
  leg_points o_s isP 0 (ob isP (sl_topDepth y) (sl_botDepth y) mx d tm) dn [mkTD 0 1 0 (if dn then sl_botDepth y else sl_topDepth y)].
Proof.
  intros n y isP mx d tm dn Hy Hn Hmx. destruct (o_edges n y Hy) as [E1 E2].
  assert (Pass : passes o_s isP 0 n 1 0) by (exists (mkTD 0 1 0 0); split; [exact (vertical n y isP Hy Hn)|split; reflexivity]).
  assert (Bp : 0 <= sl_botP y /\ ~ flat y) by (rewrite flat_R; o_layer n Hy; cbn; lra). destruct Bp as [Bp Nf].
  right. split; [apply ltb_R_false; exact Hmx|]. split; [apply Rleb_true; rewrite n_0_R; lra|].
  exists n, n, y, y. rewrite o_layers. split; [exact E1|]. split; [exact E2|]. split; [exact Hy|]. split; [apply Reqb_true; reflexivity|].
  split; [exact Hy|]. split; [apply Reqb_true; reflexivity|]. destruct dn.
  - apply (de_pass o_s isP 0 (S n) n y [] 1 0); [lia|rewrite o_layers; exact Hy|apply Rleb_true; exact Bp|exact Nf|exact Pass|]. apply de_end. lia.
  - exists n, y. split; [lia|]. rewrite o_layers. split; [exact Hy|]. split; [intros; lia|]. split; [left; reflexivity|]. left. split; [apply ltb_R_false; exact Bp|].
    apply (cl_pass o_s isP 0 n n y [] 1 0); [lia|rewrite o_layers; exact Hy|exact Nf|exact Pass|apply cl_end].
Qed.
Definition o_arrival (d : R) : arrival R := mkArr 0 d 0 0 "" "" 0 0 0 [] [].
Ltac o_way :=
  lazymatch goal with
  | |- way _ _ [] _ => apply way_nil
  | |- way _ _ (?s :: ?l) _ => eapply way_cons;
      [left; split; [cbn; lia|reflexivity]
      |first [apply (o_leg 0 (mkSL 0 4 0 3 2) true 4 [0; 0] [0; 1]); [reflexivity|lia|lra]
             |apply (o_leg 1 (mkSL 1 3 2 2 4) true 0 [0; 0] [0; 1]); [reflexivity|lia|lra]]
      |apply extra_iff; rlazy; reflexivity
      |o_way]
  end.
Lemma o_fuel : forall w, (List.length (sm_layers (tm_sMod o_t) w) <= 4)%nat.
Proof. intros []; cbn; lia. Qed.
Lemma o_path : forall ph d pieces, ph_tMod ph = o_t -> ~ contains "kmps" (ph_name ph) ->
  way ph (o_arrival d) (ph_seq ph) pieces -> exists a', calcPathFromArrival 4 ph (o_arrival d) = Ok a'.
Proof.
  intros ph d pieces Et Nk Hw. eexists. apply path_iff; [rewrite Et; exact o_ready|rewrite Et; exact o_fuel|].
  exists pieces, []. eexists. split; [exact Hw|]. split; [right; split; [exact Nk|reflexivity]|]. split; [apply (cumulate_running _ 0)|reflexivity].
Qed.

(** the hypotheses of the theorems above are met: P, straight down to the core and back *)
Example C36_ex_sampled : exists ph a', newPhase x_show [] o_t 0 "P" = Ok ph /\ ph_rayParams ph = [4; 0] /\
  nth_error (ph_dist ph) 1 = Some 0 /\ nth_error (ph_time ph) 1 = Some 4 /\
  calcPathFromArrival 4 ph (o_arrival 0) = Ok a' /\ exists z, final (ar_path a') (mkTD 0 4 0 z).
Proof.
  eassert (Hp : newPhase x_show [] o_t 0 "P" = Ok _) by run. match type of Hp with _ = Ok ?p => set (ph := p) in * end.
  exists ph. eassert (Hw : way ph (o_arrival 0) (ph_seq ph) _) by (cbn [ph_seq ph]; o_way).
  destruct (o_path ph 0 _ eq_refl ltac:(intros X; not_in X) Hw) as [a' Ha]. exists a'.
  split; [exact Hp|]. split; [reflexivity|]. split; [reflexivity|]. split; [reflexivity|]. split; [exact Ha|].
  apply (C36_sampled_arrival x_show [] o_t 0 "P" ph 4 (o_arrival 0) a' 1 0 4 Hp); try reflexivity; try (intros X; not_in X); try (intros [X|X]; not_in X).
  - discriminate.
  - exists 4. split; [left; reflexivity|cbn; lra].
  - intros z [[]|[]].
  - exact o_decreasing.
  - exact o_rays.
  - exact o_fuel.
  - right. left. reflexivity.
  - exact Ha.
Qed.

(** Pdiff: the path ends at the distance of the arrival *)
Example C36_ex_diffracted : exists ph a', newPhase x_show [] o_t 0 "Pdiff" = Ok ph /\ ph_rayParams ph <> [] /\ ph_max ph = 0 /\
  calcPathFromArrival 4 ph (o_arrival 5) = Ok a' /\ exists z, final (ar_path a') (mkTD 0 4 5 z).
Proof.
  eassert (Hp : newPhase x_show [] o_t 0 "Pdiff" = Ok _) by run. match type of Hp with _ = Ok ?p => set (ph := p) in * end.
  exists ph. eassert (Hw : way ph (o_arrival 5) (ph_seq ph) _) by (cbn [ph_seq ph]; o_way).
  destruct (o_path ph 5 _ eq_refl ltac:(intros X; not_in X) Hw) as [a' Ha]. exists a'.
  split; [exact Hp|]. split; [discriminate|]. split; [reflexivity|]. split; [exact Ha|].
  destruct (C36_diffracted x_show [] o_t 0 "P" true ph 4 (o_arrival 5) a' ml_P o_layered Hp ltac:(discriminate) ltac:(right; left; reflexivity) o_decreasing o_rays o_fuel eq_refl Ha)
    as [z [d0 [t0 [E1 [E2 F]]]]]. injection E1 as <-. injection E2 as <-. exists z. cbn [ar_rayParam ar_dist o_arrival] in F.
  match type of F with final _ (mkTD 0 ?x 5 z) => replace 4 with x by (rlazy; ring) end. exact F.
Qed.

(** PdiffP goes too far, Pn not far enough *)
Example C36_ex_refuted : (exists ph a' e, newPhase x_show [] o_t 0 "PdiffP" = Ok ph /\ calcPathFromArrival 4 ph (o_arrival 5) = Ok a' /\
    final (ar_path a') e /\ 5 < td_dist e) /\
  (exists ph a', newPhase x_show [] o_t 0 "Pn" = Ok ph /\ calcPathFromArrival 4 ph (o_arrival 5) = Ok a' /\
    exists z, final (ar_path a') (mkTD 0 4 0 z)).
Proof.
  split.
  - eassert (Hp : newPhase x_show [] o_t 0 "PdiffP" = Ok _) by run. match type of Hp with _ = Ok ?p => set (ph := p) in * end.
    exists ph. eassert (Hw : way ph (o_arrival 5) (ph_seq ph) _) by (cbn [ph_seq ph]; o_way).
    destruct (o_path ph 5 _ eq_refl ltac:(intros X; not_in X) Hw) as [a' Ha]. exists a'.
    destruct (C36_diffracted_twice_refuted x_show [] o_t 0 "P" true "P" true ph 4 (o_arrival 5) a' ml_P ml_P o_layered Hp ltac:(discriminate) ltac:(right; left; reflexivity)
      o_decreasing o_rays o_fuel eq_refl) as [e [F X]].
    + intros d0 E. injection E as <-. cbn. lra.
    + exact Ha.
    + exists e. auto.
  - eassert (Hp : newPhase x_show [] o_t 0 "Pn" = Ok _) by run. match type of Hp with _ = Ok ?p => set (ph := p) in * end.
    exists ph. eassert (Hw : way ph (o_arrival 5) (ph_seq ph) _) by (cbn [ph_seq ph]; o_way).
    destruct (o_path ph 5 _ eq_refl ltac:(intros X; not_in X) Hw) as [a' Ha]. exists a'.
    split; [exact Hp|]. split; [exact Ha|].
    destruct (C36_head_wave_refuted x_show [] o_t 0 "P" true ph 4 (o_arrival 5) a' ml_P o_layered Hp ltac:(discriminate) ltac:(right; left; reflexivity) o_decreasing o_rays o_fuel ltac:(cbn; lia) eq_refl Ha)
      as [z [d0 [t0 [E1 [E2 F]]]]]. injection E1 as <-. injection E2 as <-. exists z. exact F.
Qed.

(** one leg through two layers: the ray turns at the top of the second one *)
Definition o_b : tbranch R := ob true 0 4 4 [] [].
Example C36_ex_leg : exists tm d, leg_points o_s true 3 o_b true [mkTD 3 tm d 2; mkTD 3 0 0 2] /\ leg_points o_s true 3 o_b false [mkTD 3 tm d 0] /\
  steady o_s o_b /\ tb_path 4 o_b 3 true o_s = Ok (Some [mkTD 3 tm d 2; mkTD 3 0 0 2]) /\ tb_path 4 o_b 5 true o_s = Ok None.
Proof.
  assert (Hg : getSlownessLayer o_s 0 true = Ok (mkSL 0 4 0 3 2)) by reflexivity.
  destruct (C19_straight_ray o_s 0 true _ 3 Hg) as [A _].
  - unfold BullenSpec.slow_pos. cbn. lra.
  - cbn. lra.
  - cbn. replace ((8 - 0) / 4 - (8 - 2) / 3) with 0 by field. rewrite Rabs_R0. lra.
  - cbn. lra.
  - destruct A as [x [E _]]; [cbn; lra|]. exists (td_time x), (td_dist x).
    assert (Pass : passes o_s true 3 0 (td_time x) (td_dist x)) by (exists x; auto).
    destruct (o_edges 0 (mkSL 0 4 0 3 2) eq_refl) as [E1 _]. destruct (o_edges 1 (mkSL 1 3 2 2 4) eq_refl) as [_ E2].
    assert (F0 : ~ flat (mkSL 0 4 0 3 2)) by (rewrite flat_R; cbn; lra). assert (F1 : ~ flat (mkSL 1 3 2 2 4)) by (rewrite flat_R; cbn; lra).
    assert (G : forall (dn : bool) l, (if dn then descent o_s true 3 2 0 l else ascent o_s true 3 0 1 l) -> leg_points o_s true 3 o_b dn l).
    { intros dn l Hl. right. split; [apply ltb_R_false; cbn; lra|]. split; [apply Rleb_true; rewrite n_0_R; lra|].
      exists 0%nat, 1%nat. eexists. eexists. split; [exact E1|]. split; [exact E2|]. split; [reflexivity|]. split; [apply Reqb_true; reflexivity|].
      split; [reflexivity|]. split; [apply Reqb_true; reflexivity|]. exact Hl. }
    assert (D : leg_points o_s true 3 o_b true [mkTD 3 (td_time x) (td_dist x) 2; mkTD 3 0 0 2]).
    { apply (G true). eapply (de_pass o_s true 3 2 0 (mkSL 0 4 0 3 2)); [lia|reflexivity|apply Rleb_true; cbn; lra|exact F0|exact Pass|].
      eapply (de_turn o_s true 3 2 1 (mkSL 1 3 2 2 4)); [lia|reflexivity|apply leb_R_false; cbn; lra|exact F1|].
      split; [|split; [|split]].
      - unfold bullenDepthFor. cbn [n_leb n_eqb n_sub n_mul Num_R sl_topP sl_botP sl_topDepth sl_botDepth]. rewrite n_0_R.
        destruct (Rleb_spec 0 ((3 - 3) * (3 - 2))); [|lra]. destruct (Reqb_spec 2 4); [lra|]. destruct (Reqb_spec 3 3); [reflexivity|lra].
      - apply Rleb_true. rewrite n_0_R. cbn. lra.
      - apply Rleb_true. rewrite n_0_R. lra.
      - exists (td_new 3). split; [|split; cbn; apply n_0_R]. unfold bullenRadialSlowness. cbn [sl_botDepth sl_topDepth n_eqb Num_R].
        destruct (Reqb_spec 2 2); [reflexivity|contradiction]. }
    split; [exact D|]. split; [|split; [|split]].
    + apply (G false). exists 0%nat, (mkSL 0 4 0 3 2). split; [lia|]. split; [reflexivity|]. split.
      * intros [|[|k]] z Hk Hz; try lia. cbn in Hz. injection Hz as <-. left. apply Rleb_true. cbn. lra.
      * split; [left; reflexivity|]. left. split; [apply ltb_R_false; cbn; lra|].
        apply (cl_pass o_s true 3 0 0 (mkSL 0 4 0 3 2)); [lia|reflexivity|exact F0|exact Pass|apply cl_end].
    + intros i j _ _. left. apply o_falls.
    + apply (C36_leg 4 o_b 3 true o_s o_meet o_upright (proj2 (Rltb_true 0 4) ltac:(lra)) ltac:(cbn; lia)). split; [apply ltb_R_false; cbn; lra|exact D].
    + apply (C36_leg 4 o_b 5 true o_s o_meet o_upright (proj2 (Rltb_true 0 4) ltac:(lra)) ltac:(cbn; lia)). apply Rltb_true. cbn. lra.
Qed.

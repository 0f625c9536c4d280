(** Proofs for C66: a constructed slowness model yields a tau model. *)
From Coq Require Import ZArith Bool List String Reals Lia Lra.
From Verif Require Import Base Num PyStr VelocityModel VelSpec VelProofs SlownessLayer SlownessModel
  SlowSpec SlowProofs SlowAddProofs SlowBuildProofs SlowProps CritSpec CritProofs CritProps SlowRealProofs SampleProofs StackSpec StackProofs
  TauModel TauSpec TauProofs TauBuildProofs TauSplitProofs TauProps PathSpec PathLegProofs MonoSpec MonoProofs LimitSpec LimitProofs
  BullenSpec BullenProofs BullenProps ShellProps ErrSpec ErrProofs SourceSpec SourceProofs InsideSpec InsideProofs InsideRayProofs InsideWalkProofs InsideSplitProofs
  AcceptProofs CompatSpec CompatProofs CompatProps ReadySpec.
Import ListNotations.
Local Open Scope list_scope.
Local Open Scope R_scope.

(** ** the slownesses in order *)
Lemma slow_nth : forall (ls : list (slayer R)) k y, nth_error ls k = Some y ->
  nth_error (slownesses ls) (2 * k) = Some (sl_topP y) /\ nth_error (slownesses ls) (S (2 * k)) = Some (sl_botP y).
Proof.
  induction ls as [|x ls IH]; intros [|k] y H; cbn [nth_error] in H; try discriminate.
  - injection H as ->. split; reflexivity.
  - replace (2 * S k)%nat with (S (S (2 * k))) by lia. exact (IH k y H).
Qed.
Lemma slow_inv : forall (ls : list (slayer R)) i v, nth_error (slownesses ls) i = Some v ->
  exists k y, nth_error ls k = Some y /\ ((i = 2 * k /\ v = sl_topP y) \/ (i = S (2 * k) /\ v = sl_botP y))%nat.
Proof.
  induction ls as [|x ls IH]; intros i v H; [destruct i; discriminate|].
  destruct i as [|[|i]].
  - exists 0%nat, x. split; [reflexivity|]. left. injection H as <-. auto.
  - exists 0%nat, x. split; [reflexivity|]. right. injection H as <-. auto.
  - destruct (IH i v H) as [k [y [Hk E]]]. exists (S k), y. split; [exact Hk|]. destruct E as [[-> ->]|[-> ->]]; [left|right]; split; auto; lia.
Qed.
Lemma slow_sampled : forall (ls : list (slayer R)) s, In s (slownesses ls) <-> sampled_value ls s.
Proof.
  intros ls s. unfold slownesses. rewrite in_flat_map. split.
  - intros [y [Hy [<-|[<-|[]]]]]; exists y; auto.
  - intros [y [Hy [->| ->]]]; exists y; split; auto; [left; reflexivity|right; left; reflexivity].
Qed.
Lemma firstn_nth : forall {A} (l : list A) k y, In y (firstn k l) <-> exists i, (i < k)%nat /\ nth_error l i = Some y.
Proof.
  intros A l. induction l as [|x l IH]; intros k y.
  - rewrite firstn_nil. split; [intros []|]. intros [[|i] [_ H]]; discriminate.
  - destruct k as [|k]; [split; [intros []|intros [i [H _]]; lia]|]. cbn [firstn In]. rewrite IH. split.
    + intros [<-|[i [L H]]]; [exists 0%nat; split; [lia|reflexivity]|exists (S i); split; [lia|exact H]].
    + intros [[|i] [L H]]; [left; cbn in H; congruence|right; exists i; split; [lia|exact H]].
Qed.
Lemma sampled_firstn : forall (ls : list (slayer R)) k s, sampled_value (firstn k ls) s <->
  exists i y, (i < k)%nat /\ nth_error ls i = Some y /\ (s = sl_topP y \/ s = sl_botP y).
Proof.
  intros ls k s. unfold sampled_value. split.
  - intros [y [Hy E]]. apply firstn_nth in Hy. destruct Hy as [i [L H]]. eauto 6.
  - intros [i [y [L [H E]]]]. exists y. split; [apply firstn_nth; eauto|exact E].
Qed.
Lemma records_in : forall (vs out : list R) v, records vs out -> (In v out <-> exists i, record_at vs i /\ nth_error vs i = Some v).
Proof.
  intros vs out v [idx [_ [Hr Em]]]. split.
  - intros Hv. apply (in_map Some) in Hv. rewrite <- Em in Hv. apply in_map_iff in Hv. destruct Hv as [i [Ei Ii]]. exists i. split; [apply Hr; exact Ii|exact Ei].
  - intros [i [Hi Ei]]. apply Hr in Hi. apply (in_map (nth_error vs)) in Hi. rewrite Em, Ei in Hi. apply in_map_iff in Hi. destruct Hi as [u [Eu Iu]]. injection Eu as ->. exact Iu.
Qed.
(** the least of the values above a layer is one of the ray parameters *)
Lemma first_at : forall (vs : list R) q n, nth_error vs n = Some q -> (forall i v, (i <= n)%nat -> nth_error vs i = Some v -> q <= v) ->
  exists i, (i <= n)%nat /\ nth_error vs i = Some q /\ record_at vs i.
Proof.
  intros vs q n. induction n as [n IH] using lt_wf_ind. intros Hn Hl.
  destruct (existsb (fun i => match nth_error vs i with Some v => Reqb v q | None => false end) (seq 0 n)) eqn:E.
  - apply existsb_exists in E. destruct E as [i [Ii E]]. apply in_seq in Ii. destruct (nth_error vs i) as [v|] eqn:Ev; [|discriminate].
    apply Reqb_eq in E. subst v. destruct (IH i ltac:(lia) Ev) as [j [Lj J]]; [intros k v Lk Hk; apply (Hl k v); [lia|exact Hk]|]. exists j. split; [lia|exact J].
  - exists n. split; [lia|]. split; [exact Hn|]. exists q. split; [exact Hn|]. intros j u Lj Hj.
    apply Rltb_lt. pose proof (Hl j u ltac:(lia) Hj). assert (u <> q); [|lra]. intros ->.
    assert (F : existsb (fun i => match nth_error vs i with Some v => Reqb v q | None => false end) (seq 0 n) = true).
    { apply existsb_exists. exists j. split; [apply in_seq; lia|]. rewrite Hj. apply Reqb_eq. reflexivity. }
    congruence.
Qed.
Lemma least_record : forall (ls : list (slayer R)) k q out, (k <= List.length ls)%nat -> least_above ls k q -> records (slownesses ls) out -> In q out.
Proof.
  intros ls k q out Lk [Hq Hl] Hr. apply (records_in _ _ _ Hr). apply sampled_firstn in Hq. destruct Hq as [i [y [Li [Hi E]]]].
  destruct (slow_nth ls i y Hi) as [N1 N2].
  assert (G : exists n, (n < 2 * k)%nat /\ nth_error (slownesses ls) n = Some q) by (destruct E as [->| ->]; eexists; (split; [|eassumption]); lia).
  destruct G as [n [Ln Hn]]. destruct (first_at (slownesses ls) q n Hn) as [j [_ [J1 J2]]].
  - intros a v La Ha. apply Hl. apply sampled_firstn. destruct (slow_inv ls a v Ha) as [b [z [Hb [[-> ->]|[-> ->]]]]]; exists b, z; (split; [lia|auto]).
  - eauto.
Qed.
(** a ray parameter strictly inside a layer that falls below it is sampled above this layer *)
Lemma record_above : forall (ls : list (slayer R)) k y q out, nth_error ls k = Some y -> sl_botP y < q < sl_topP y -> records (slownesses ls) out -> In q out ->
  sampled_value (firstn k ls) q.
Proof.
  intros ls k y q out Hk B Hr Hq. apply (records_in _ _ _ Hr) in Hq. destruct Hq as [i [[v [Ev Rv]] Ei]]. assert (v = q) by congruence. subst v.
  destruct (slow_nth ls k y Hk) as [N1 N2].
  assert (Li : (i < 2 * k)%nat).
  { destruct (Nat.lt_trichotomy i (S (2 * k))) as [X|[X|X]].
    - destruct (Nat.eq_dec i (2 * k)) as [->|N]; [|lia]. assert (q = sl_topP y) by congruence. lra.
    - subst i. assert (q = sl_botP y) by congruence. lra.
    - pose proof (Rv _ _ X N2) as F. apply Rltb_lt in F. lra. }
  apply sampled_firstn. destruct (slow_inv ls i q Ei) as [b [z [Hb [[E ->]|[E ->]]]]]; exists b, z; (split; [lia|auto]).
Qed.

(** ** one ray *)
Section Ray.
  Variables (m : smodel R) (w : bool) (p : R).
  Let ls := sm_layers m w.
  Hypothesis Rg : regular m.
  Hypothesis Ce : forall k y, nth_error ls k = Some y -> centre_layer m y -> S k = List.length ls.
  Hypothesis P0 : 0 <= p.

  Lemma layer_total : forall k y, nth_error ls k = Some y -> p <= sl_topP y -> p <= sl_botP y ->
    exists td, layerTimeDist m p (Z.of_nat k) w = Ok td.
  Proof.
    intros k y Hk P1 P2. pose proof (layer_at w m k y Hk) as Hg.
    destruct (Rg w y (nth_error_In _ _ Hk)) as [F|[Pl|Cn]].
    - unfold layerTimeDist. rewrite Hg. cbn [bind]. unfold py_max, py_min. rewrite n_0_R.
      destruct (n_ltb (sl_topP y) (sl_botP y)) eqn:E1; destruct (n_ltb (sl_botP y) (sl_topP y)) eqn:E2;
        repeat match goal with |- context [n_ltb ?a ?b] => assert (Q : n_ltb a b = false) by (apply Rltb_false; lra); rewrite Q; clear Q end;
        (assert (Q : n_eqb (sl_topDepth y) (sl_botDepth y) = true) by (apply Reqb_eq; exact F)); rewrite Q; eauto.
    - pose proof Pl as [Tk [Sp _]]. destruct (thick_exists _ _ Tk Sp) as [A [B HP]].
      destruct (plain_exists m p _ w y A B Hg Pl HP P0 P1 P2) as [td [Q _]]. eauto.
    - pose proof Cn as [C1 [C2 [C3 C4]]]. destruct (C19_centre m _ w y p Hg C1 C2 C3 C4) as [A _].
      rewrite A; [eauto|lra|]. unfold sm_numLayers. pose proof (Ce k y Hk Cn) as L. unfold ls in L. lia.
  Qed.

  Lemma ctd_total : forall n k y td, nth_error ls k = Some y -> (k + n <= List.length ls)%nat -> (1 <= n)%nat ->
    exists td' k' y', ctd_go m w p n (Z.of_nat k) y td = Ok (td', y') /\ nth_error ls k' = Some y' /\ (k <= k' < k + n)%nat /\
      forall j z, (k <= j < k')%nat -> nth_error ls j = Some z -> p <= sl_topP z /\ p <= sl_botP z.
  Proof.
    induction n as [|n IH]; intros k y td Hk Ln L1; [lia|]. cbn [ctd_go].
    destruct (n_leb p (sl_topP y) && n_leb p (sl_botP y)) eqn:E.
    - apply andb_true_iff in E. destruct E as [E1 E2]. apply Rleb_le in E1, E2.
      destruct (layer_total k y Hk E1 E2) as [x Hx]. rewrite Hx. cbn [bind].
      destruct n as [|n]; [exists (td_add td x), k, y; split; [reflexivity|]; split; [exact Hk|]; split; [lia|]; intros; lia|].
      destruct (nth_error ls (S k)) as [z|] eqn:Ez; [|apply nth_error_None in Ez; lia].
      replace (Z.of_nat k + 1)%Z with (Z.of_nat (S k)) by lia. rewrite (layer_at w m (S k) z Ez). cbn [bind].
      destruct (IH (S k) z (td_add td x) Ez ltac:(lia) ltac:(lia)) as [td' [k' [y' [Q1 [Q2 [Q3 Q4]]]]]].
      exists td', k', y'. split; [exact Q1|]. split; [exact Q2|]. split; [lia|].
      intros j u Lj Hj. destruct (Nat.eq_dec j k) as [->|N]; [assert (u = y) by congruence; subst u; auto|]. apply (Q4 j u); [lia|exact Hj].
    - exists td, k, y. split; [reflexivity|]. split; [exact Hk|]. split; [lia|]. intros; lia.
  Qed.
End Ray.

Lemma passes_spans : forall (y : slayer R) p, spans y p <-> passes_through y p.
Proof.
  intros y p. rewrite spans_R. unfold strictly_between, passes_through. tauto.
Qed.

(** ** one branch *)
Definition unhindered (ls : list (slayer R)) (i j : nat) (p : R) : Prop :=
  forall k y, (i <= k <= j)%nat -> (forall l z, (i <= l < k)%nat -> nth_error ls l = Some z -> p <= sl_topP z /\ p <= sl_botP z) ->
    nth_error ls k = Some y -> ~ passes_through y p.

Section Branch.
  Variables (fuel : nat) (m : smodel R) (w : bool) (rp : list R).
  Let ls := sm_layers m w.
  Hypothesis Hm : s_meet ls.
  Hypothesis Hu : s_upright ls.
  Hypothesis Hf : (List.length ls <= fuel)%nat.
  Hypothesis Rg : regular m.
  Hypothesis Ce : forall k y, nth_error ls k = Some y -> centre_layer m y -> S k = List.length ls.
  Hypothesis P0 : forall p, In p rp -> 0 <= p.

  Lemma create_ok : forall c c' mx i j, bnd ls c -> bnd ls c' -> c < c' -> deepest ls c i -> shallowest ls c' j ->
    (forall p, In p rp -> p <= mx -> unhindered ls i j p) -> exists b, createBranch fuel m c c' w mx rp = Ok b.
  Proof.
    intros c c' mx i j Bc Bc' Lt Di Sj Hp.
    destruct (deep_fat ls c c' i j Hm Hu Bc Bc' Lt Di Sj) as [yi [yj [Hyi [Hyj [Fi [Fj [Ti [Tj Lij]]]]]]]].
    destruct (bnd_deep fuel m w Hm Hu Hf c' Bc') as [i' Di'].
    unfold createBranch. rewrite (proj2 (below_iff_s fuel m w _ i Hm Hu (R_ok _) Hf) Di). cbn [bind].
    rewrite (proj2 (above_iff_s fuel m w _ j Hm Hu (R_ok _) Hf) Sj). cbn [bind].
    rewrite (layer_at w m i yi Hyi). cbn [bind]. rewrite (layer_at w m j yj Hyj). cbn [bind].
    assert (Be : branch_ends c c' yi yj = Ok (c, c')).
    { unfold branch_ends. rewrite (proj2 (Reqb_eq (sl_topDepth yi) c) Ti), (proj2 (Reqb_eq (sl_botDepth yj) c') Tj). reflexivity. }
    rewrite Be. cbn [bind]. destruct (limits_total fuel m w c' j yj i' Hm Hu Sj Hyj Tj Di' Hf) as [[q1 Q1] [q2 Q2]].
    rewrite Q1. cbn [bind]. rewrite Q2. cbn [bind].
    assert (Lj : (j < List.length ls)%nat) by (apply nth_error_Some; congruence).
    assert (M : exists tds, mapM (calcTimeDist m w mx (Z.of_nat i) (Z.of_nat j)) rp = Ok tds).
    { assert (Each : forall p, In p rp -> exists td, calcTimeDist m w mx (Z.of_nat i) (Z.of_nat j) p = Ok td).
      { intros p Ip. unfold calcTimeDist. destruct (n_leb p mx) eqn:Ep; [|eauto]. apply Rleb_le in Ep.
        rewrite (layer_at w m i yi Hyi). cbn [bind]. replace (Z.to_nat (Z.of_nat j + 1 - Z.of_nat i)) with (S j - i)%nat by lia.
        destruct (ctd_total m w p Rg Ce (P0 p Ip) (S j - i) i yi (td_new p) Hyi ltac:(fold ls; lia) ltac:(lia)) as [td' [k' [y' [C1 [C2 [C3 C4]]]]]].
        rewrite C1. cbn [bind]. change (strictly_contains y' p) with (n_ltb n_0 ((sl_topP y' - p) * (p - sl_botP y')))%num.
        destruct (n_ltb n_0 ((sl_topP y' - p) * (p - sl_botP y')))%num eqn:E; [exfalso|eauto].
        assert (Sy : spans y' p) by exact E. apply passes_spans in Sy. exact (Hp p Ip Ep k' y' ltac:(lia) C4 C2 Sy). }
      clear - Each. induction rp as [|p l IH]; [cbn; eauto|]. cbn [mapM]. destruct (Each p (or_introl eq_refl)) as [td E]. rewrite E. cbn [bind].
      destruct IH as [tds E']; [intros q Hq; apply Each; right; exact Hq|]. rewrite E'. cbn [bind]. eauto. }
    destruct M as [tds M]. rewrite M. cbn [bind]. eauto.
  Qed.
End Branch.

(** ** all branches *)
Lemma inc_lt : forall (cr : list (critdepth R)), increasing cr -> forall i j a b, (i < j)%nat -> nth_error cr i = Some a -> nth_error cr j = Some b ->
  cd_depth a < cd_depth b.
Proof.
  intros cr Hi i j a b L. revert b. induction L as [|j L IH]; intros b Ha Hb.
  - apply Rltb_lt. exact (Hi i a b Ha Hb).
  - destruct (nth_error cr j) as [z|] eqn:Ez.
    + pose proof (IH z Ha eq_refl). pose proof (Hi j z b Ez Hb) as F. apply Rltb_lt in F. lra.
    + apply nth_error_None in Ez. assert (S j < List.length cr)%nat by (apply nth_error_Some; congruence). lia.
Qed.
Lemma inc_gap : forall (cr : list (critdepth R)), increasing cr -> forall n a b c, nth_error cr n = Some a -> nth_error cr (S n) = Some b -> In c cr ->
  cd_depth c <= cd_depth a \/ cd_depth b <= cd_depth c.
Proof.
  intros cr Hi n a b c Ha Hb Hc. apply In_nth_error in Hc. destruct Hc as [k Hk].
  destruct (Nat.lt_trichotomy k n) as [X|[X|X]].
  - left. pose proof (inc_lt cr Hi k n c a X Hk Ha). lra.
  - subst k. left. replace c with a by congruence. lra.
  - right. destruct (Nat.eq_dec k (S n)) as [->|N]; [replace c with b by congruence; lra|].
    pose proof (inc_lt cr Hi (S n) k b c ltac:(lia) Hb Hk). lra.
Qed.

Lemma constructed_stacked : forall {L : Libm R} fuel vm dp Dp dz dx err innerS tol (m : smodel R),
  newSlownessModel fuel vm dp Dp dz dx err innerS tol = Ok m -> VelSpec.thick (vm_layers vm) -> vm_radius vm = 6371 -> forall w, stacked m w.
Proof.
  intros L fuel vm dp Dp dz dx err innerS tol m H Ht Hr w.
  pose proof (validated_contiguous _ _ _ _ _ _ _ _ _ _ _ H) as Hc.
  pose proof (constructed_nums _ _ _ _ _ _ _ _ _ _ H w) as Hn. pose proof (constructed_squeezed _ _ _ _ _ _ _ _ _ _ H Ht Hr w) as Hs.
  unfold newSlownessModel in H.
  destruct (crit_increasing _ _ _ H (R_ok _) Hc Ht (C44_surface_once vm innerS)) as [Hi _].
  destruct (createSample_built _ _ _ H (R_ok _)) as [_ [_ [_ [G [_ [[c0 [l [cn [E1 [E2 [E3 _]]]]]] [Cr La]]]]]]].
  split.
  - apply G.
  - exact Hi.
  - intros c Hc'. exact (Cr c w Hc').
  - exact Hn.
  - exact Hs.
  - exists c0, l, cn. rewrite n_0_R in E2. auto.
  - destruct (La w) as [l' [y [A B]]]. exists l', y. apply Reqb_eq in B. auto.
Qed.

Section Stack.
  Variables (m : smodel R) (w : bool).
  Let ls := sm_layers m w.
  Hypothesis K : stacked m w.

  Lemma k_meet : s_meet ls. Proof. apply (st_good m w K). Qed.
  Lemma k_join : s_join ls. Proof. apply (st_good m w K). Qed.
  Lemma k_up : s_upright ls. Proof. exact (good_upright _ _ (st_good m w K)). Qed.
  Lemma k_vals : forall y, In y ls -> 0 <= sl_topP y /\ 0 <= sl_botP y /\ 0 <= sl_topDepth y <= sl_botDepth y /\ sl_botDepth y <= sm_radius m.
  Proof.
    intros y Hy. destruct (st_good m w K) as [G0 [G1 [G2 G3]]]. destruct (G3 y Hy) as [A [B [C D]]].
    rewrite n_0_R in A, B. apply Rleb_le in A, B, C, D.
    assert (E : 0 <= sl_topDepth y).
    { apply In_nth_error in Hy. destruct Hy as [[|k] Hk].
      - pose proof (G0 y Hk) as E. rewrite n_0_R in E. apply Reqb_eq in E. lra.
      - destruct (nth_error ls 0) as [f|] eqn:El; [|apply nth_error_None in El; assert (S k < List.length ls)%nat by (apply nth_error_Some; congruence); lia].
        pose proof (G0 f El) as E. rewrite n_0_R in E. apply Reqb_eq in E.
        pose proof (srt ls k_meet k_up 0 (S k) f y ltac:(lia) El Hk). pose proof (upr ls k_up f (nth_error_In _ _ El)). lra. }
    tauto.
  Qed.
  Lemma k_first : forall y, nth_error ls 0 = Some y -> sl_topDepth y = 0.
  Proof. intros y Hy. destruct (st_good m w K) as [G0 _]. pose proof (G0 y Hy) as E. rewrite n_0_R in E. apply Reqb_eq in E. auto. Qed.
  Lemma k_bnd : forall c, In c (sm_crit m) -> bnd ls (cd_depth c).
  Proof. intros c Hc. exact (crit_bnd m c w (st_at m w K c Hc)). Qed.
  Lemma k_joined : forall k y z, nth_error ls k = Some y -> nth_error ls (S k) = Some z -> sl_botP y = sl_topP z.
  Proof. intros k y z Hy Hz. apply Reqb_eq. exact (k_join k y z Hy Hz). Qed.
  Lemma k_centre : forall k y, nth_error ls k = Some y -> centre_layer m y -> S k = List.length ls.
  Proof.
    intros k y Hk [C1 [C2 _]]. destruct (Nat.eq_dec (S k) (List.length ls)) as [|N]; [assumption|exfalso].
    destruct (nth_error ls (S k)) as [z|] eqn:Ez; [|apply nth_error_None in Ez; assert (k < List.length ls)%nat by (apply nth_error_Some; congruence); lia].
    pose proof (srt ls k_meet k_up k (S k) y z ltac:(lia) Hk Ez). pose proof (k_vals z (nth_error_In _ _ Ez)) as [_ [_ [V1 V2]]].
    destruct (st_sq m w K z (nth_error_In _ _ Ez)) as [a [b [_ [Ib [_ [Fb [_ [Eb _]]]]]]]]; [lra|].
    pose proof (k_vals b Ib) as [_ [_ [V3 V4]]]. unfold fat in Fb. lra.
  Qed.
  (** a fat layer starting at a depth is the deepest there, one ending there is the shallowest *)
  Lemma fat_deep : forall k y x, nth_error ls k = Some y -> fat y -> sl_topDepth y = x -> deepest ls x k.
  Proof.
    intros k y x Hk F E. unfold fat in F. split; [exists y; split; [exact Hk|]; split; apply Rleb_le; lra|].
    intros q z Hz [A B]. apply Rleb_le in A, B. destruct (Nat.le_gt_cases q k) as [X|X]; [exact X|exfalso].
    pose proof (srt ls k_meet k_up k q y z X Hk Hz). lra.
  Qed.
  Lemma fat_shallow : forall k y x, nth_error ls k = Some y -> fat y -> sl_botDepth y = x -> shallowest ls x k.
  Proof.
    intros k y x Hk F E. unfold fat in F. split; [exists y; split; [exact Hk|]; split; apply Rleb_le; lra|].
    intros q z Hz [A B]. apply Rleb_le in A, B. destruct (Nat.le_gt_cases k q) as [X|X]; [exact X|exfalso].
    pose proof (srt ls k_meet k_up q k z y X Hz Hk). lra.
  Qed.
  Lemma num_exact : forall c i y, In c (sm_crit m) -> nth_error ls i = Some y -> fat y -> sl_topDepth y = cd_depth c -> num_of w c = Z.of_nat i.
  Proof.
    intros c i y Hc Hi F E. destruct (st_num m w K c Hc) as [i' [y' [D [Hy' N]]]].
    assert (i' = i) by exact (deepest_unique _ _ _ _ D (fat_deep i y _ Hi F E)). subst i'.
    destruct N as [N|N]; [exact N|]. assert (y' = y) by (unfold ls in Hi; congruence). subst y'. unfold fat in F. lra.
  Qed.
  (** the last critical depth has no layer below *)
  Lemma num_last : forall c, In c (sm_crit m) -> cd_depth c = sm_radius m -> num_of w c = Z.of_nat (List.length ls).
  Proof.
    intros c Hc E. destruct (st_at m w K c Hc) as [[k [y [N [Hk T]]]]|[l [y [_ [N _]]]]]; [exfalso|exact N].
    apply Reqb_eq in T. pose proof (nth_error_In _ _ Hk) as Iy. destruct (k_vals y Iy) as [_ [_ [V1 V2]]].
    destruct (st_sq m w K y Iy) as [a [b [_ [Ib [_ [Fb [_ [Eb _]]]]]]]]; [lra|].
    pose proof (k_vals b Ib) as [_ [_ [V3 V4]]]. unfold fat in Fb. lra.
  Qed.
  Lemma ls_ne : ls <> [].
  Proof. destruct (st_last m w K) as [l [y [E _]]]. unfold ls. rewrite E. destruct l; discriminate. Qed.

  (** two neighbouring critical depths *)
  Lemma pair_layers : forall fuel n c c', (List.length ls <= fuel)%nat -> nth_error (sm_crit m) n = Some c -> nth_error (sm_crit m) (S n) = Some c' ->
    exists i j yi yj, deepest ls (cd_depth c) i /\ shallowest ls (cd_depth c') j /\ nth_error ls i = Some yi /\ nth_error ls j = Some yj /\
      fat yi /\ fat yj /\ sl_topDepth yi = cd_depth c /\ sl_botDepth yj = cd_depth c' /\ (i <= j)%nat /\ num_of w c = Z.of_nat i /\
      ((cd_depth c' = sm_radius m /\ S (S n) = List.length (sm_crit m) /\ exists z, getSlownessLayer m (num_of w c' - 1) w = Ok z) \/
       exists i' yi' z, nth_error ls (S i') = Some yi' /\ fat yi' /\ sl_topDepth yi' = cd_depth c' /\ (j <= i')%nat /\ nth_error ls i' = Some z /\
         num_of w c' = Z.of_nat (S i') /\ getSlownessLayer m (num_of w c' - 1) w = Ok z).
  Proof.
    intros fuel n c c' Hf Hc Hc'.
    pose proof (nth_error_In _ _ Hc) as Ic. pose proof (nth_error_In _ _ Hc') as Ic'.
    pose proof (inc_lt _ (st_inc m w K) n (S n) c c' ltac:(lia) Hc Hc') as Lt.
    destruct (bnd_deep fuel m w k_meet k_up Hf _ (k_bnd c Ic)) as [i Di].
    destruct (bnd_shallow fuel m w k_meet k_up Hf _ (k_bnd c' Ic')) as [j Sj].
    destruct (deep_fat ls _ _ i j k_meet k_up (k_bnd c Ic) (k_bnd c' Ic') Lt Di Sj) as [yi [yj [Hyi [Hyj [Fi [Fj [Ti [Tj Lij]]]]]]]].
    exists i, j, yi, yj. do 9 (split; [assumption|]). split; [exact (num_exact c i yi Ic Hyi Fi Ti)|].
    destruct (nth_error (sm_crit m) (S (S n))) as [c2|] eqn:E2.
    - right. pose proof (nth_error_In _ _ E2) as I2.
      pose proof (inc_lt _ (st_inc m w K) (S n) (S (S n)) c' c2 ltac:(lia) Hc' E2) as Lt2.
      destruct (bnd_deep fuel m w k_meet k_up Hf _ (k_bnd c' Ic')) as [i' Di'].
      destruct (bnd_shallow fuel m w k_meet k_up Hf _ (k_bnd c2 I2)) as [j2 Sj2].
      destruct (deep_fat ls _ _ i' j2 k_meet k_up (k_bnd c' Ic') (k_bnd c2 I2) Lt2 Di' Sj2) as [y' [_ [Hy' [_ [F' [_ [T' _]]]]]]].
      unfold fat in *.
      assert (Lj : (j < i')%nat).
      { destruct (Nat.lt_trichotomy i' j) as [X|[X|X]]; [exfalso|exfalso|exact X].
        - pose proof (srt ls k_meet k_up i' j y' yj X Hy' Hyj). lra.
        - subst i'. assert (y' = yj) by congruence. subst y'. lra. }
      destruct i' as [|i']; [lia|].
      destruct (nth_error ls i') as [z|] eqn:Ez; [|apply nth_error_None in Ez; assert (S i' < List.length ls)%nat by (apply nth_error_Some; congruence); lia].
      pose proof (num_exact c' (S i') y' Ic' Hy' F' T') as Nm.
      exists i', y', z. split; [exact Hy'|]. split; [exact F'|]. split; [exact T'|]. split; [lia|]. split; [exact Ez|]. split; [exact Nm|].
      rewrite Nm. replace (Z.of_nat (S i') - 1)%Z with (Z.of_nat i') by lia. exact (layer_at w m i' z Ez).
    - left. destruct (st_ends m w K) as [c0 [l [cn [Ec [_ En]]]]]. apply nth_error_None in E2.
      assert (Lc : (S n < List.length (sm_crit m))%nat) by (apply nth_error_Some; congruence).
      assert (Ecn : c' = cn).
      { assert (El : List.length (sm_crit m) = S (S (List.length l))) by (rewrite Ec; cbn; rewrite app_length; cbn; lia).
        rewrite Ec in Hc'. cbn [nth_error] in Hc'. rewrite nth_error_app2 in Hc' by lia. replace (n - List.length l)%nat with 0%nat in Hc' by lia. cbn in Hc'. congruence. }
      subst c'. split; [exact En|]. split; [lia|].
      rewrite (num_last cn Ic' En). destruct (st_last m w K) as [l' [y [El _]]]. exists y.
      assert (Ln : List.length ls = S (List.length l')) by (unfold ls; rewrite El, app_length; cbn; lia).
      replace (Z.of_nat (List.length ls) - 1)%Z with (Z.of_nat (List.length l')) by lia.
      apply layer_at. rewrite El, nth_error_app2, Nat.sub_diag by lia. reflexivity.
  Qed.

  Section Fold.
    Variables (fuel : nat) (rp : list R).
    Hypothesis Hf : (List.length ls <= fuel)%nat.
    Hypothesis Rg : regular m.
    Hypothesis P0 : forall p, In p rp -> 0 <= p.
    (** what is kept from branch to branch, for the critical depth and the limit of the ray parameters *)
    Variable Inv : critdepth R -> R -> Prop.
    Hypothesis HI : forall n c c' mx i j, nth_error (sm_crit m) n = Some c -> nth_error (sm_crit m) (S n) = Some c' -> Inv c mx ->
      deepest ls (cd_depth c) i -> shallowest ls (cd_depth c') j -> forall p, In p rp -> p <= mx -> unhindered ls i j p.
    Hypothesis HS : forall n c c' mx i j i' yi yj yi' z, nth_error (sm_crit m) n = Some c -> nth_error (sm_crit m) (S n) = Some c' -> Inv c mx ->
      deepest ls (cd_depth c) i -> shallowest ls (cd_depth c') j -> nth_error ls i = Some yi -> nth_error ls j = Some yj ->
      fat yj -> sl_botDepth yj = cd_depth c' ->
      nth_error ls (S i') = Some yi' -> fat yi' -> sl_topDepth yi' = cd_depth c' -> (i <= j <= i')%nat -> nth_error ls i' = Some z ->
      Inv c' (py_min (py_min mx (py_min (sl_topP yi) (sl_botP z))) (sl_botP yj)).

    Lemma fold_total : forall cs c acc mx n, skipn n (sm_crit m) = c :: cs -> (cs <> [] -> Inv c mx) ->
      exists r, foldM (branch_step fuel m w rp) (adjacent (c :: cs)) (acc, mx) = Ok r.
    Proof.
      induction cs as [|c' cs IH]; intros c acc mx n Hs Hi; [cbn; eauto|].
      specialize (Hi ltac:(discriminate)).
      assert (Nx : forall k, nth_error (sm_crit m) (n + k) = nth_error (c :: c' :: cs) k).
      { intros k. rewrite <- Hs. clear. revert n. induction (sm_crit m) as [|x l IH]; intros [|n]; cbn; try reflexivity; [|apply IH].
        destruct k; reflexivity. }
      assert (Hc : nth_error (sm_crit m) n = Some c) by (specialize (Nx 0%nat); rewrite Nat.add_0_r in Nx; exact Nx).
      assert (Hc' : nth_error (sm_crit m) (S n) = Some c') by (specialize (Nx 1%nat); replace (n + 1)%nat with (S n) in Nx by lia; exact Nx).
      pose proof (nth_error_In _ _ Hc) as Ic. pose proof (nth_error_In _ _ Hc') as Ic'.
      pose proof (inc_lt _ (st_inc m w K) n (S n) c c' ltac:(lia) Hc Hc') as Lt.
      destruct (pair_layers fuel n c c' Hf Hc Hc') as [i [j [yi [yj [Di [Sj [Hyi [Hyj [Fi [Fj [Ti [Tj [Lij [Nc Z]]]]]]]]]]]]]].
      destruct (create_ok fuel m w rp k_meet k_up Hf Rg k_centre P0 (cd_depth c) (cd_depth c') mx i j (k_bnd c Ic) (k_bnd c' Ic') Lt Di Sj
        (HI n c c' mx i j Hc Hc' Hi Di Sj)) as [b Hb].
      change (adjacent (c :: c' :: cs)) with ((c, c') :: adjacent (c' :: cs)). cbn [foldM]. unfold branch_step at 1. rewrite Hb. cbn [bind].
      fold (num_of w c). fold (num_of w c'). rewrite Nc. rewrite (layer_at w m i yi Hyi). cbn [bind].
      assert (Gz : exists z, getSlownessLayer m (num_of w c' - 1) w = Ok z /\ (cs <> [] -> Inv c' (py_min (py_min mx (py_min (sl_topP yi) (sl_botP z))) (sl_botP yj)))).
      { destruct Z as [[Er [El [z Hz]]]|[i' [yi' [z [Z1 [Z2 [Z3 [Z4 [Z5 [Z6 Z7]]]]]]]]]].
        - exists z. split; [exact Hz|]. intros Ne. exfalso. destruct cs as [|c2 cs]; [congruence|].
          assert (nth_error (sm_crit m) (n + 2) <> None) by (rewrite (Nx 2%nat); discriminate). apply nth_error_Some in H. lia.
        - exists z. split; [exact Z7|]. intros _. apply (HS n c c' mx i j i' yi yj yi' z); auto. }
      destruct Gz as [z [Hz Hi']]. rewrite Hz. cbn [bind].
      rewrite (proj2 (above_iff_s fuel m w _ j k_meet k_up (R_ok _) Hf) Sj). cbn [bind]. rewrite (layer_at w m j yj Hyj). cbn [bind].
      apply (IH c' _ _ (S n)); [|exact Hi'].
      clear - Hs. revert n Hs. induction (sm_crit m) as [|x l IH]; intros [|n] Hs; cbn [skipn] in *; try discriminate.
      + injection Hs as <- ->. reflexivity.
      + apply (IH n Hs).
    Qed.

    Lemma branches_total : forall c0 y0, nth_error (sm_crit m) 0 = Some c0 -> nth_error ls 0 = Some y0 -> Inv c0 (sl_topP y0) ->
      exists bs, make_branches fuel m w rp = Ok bs.
    Proof.
      intros c0 y0 Hc Hy Hi. unfold make_branches. change 0%Z with (Z.of_nat 0). rewrite (layer_at w m 0 y0 Hy). cbn [bind].
      assert (G : exists cs, sm_crit m = c0 :: cs) by (clear - Hc; destruct (sm_crit m) as [|c cs]; [discriminate|]; cbn in Hc; injection Hc as ->; eauto).
      destruct G as [cs E].
      destruct (fold_total cs c0 [] (sl_topP y0) 0) as [r Hr]; [cbn; exact E|intros _; exact Hi|]. rewrite E, Hr. cbn [bind]. eauto.
    Qed.
  End Fold.
End Stack.

(** ** the limit stays below all slownesses passed *)
Definition floor_at (ls : list (slayer R)) (c : critdepth R) (mx : R) : Prop :=
  forall i, deepest ls (cd_depth c) i ->
    (forall k z, (k < i)%nat -> nth_error ls k = Some z -> mx <= sl_topP z /\ mx <= sl_botP z) /\
    (forall y, nth_error ls i = Some y -> mx <= sl_topP y).
Lemma min_le_l : forall a b : R, py_min a b <= a.
Proof. intros a b. unfold py_min. destruct (n_ltb b a) eqn:E; [apply Rltb_lt in E; lra|lra]. Qed.
Lemma min_le_r : forall a b : R, py_min a b <= b.
Proof. intros a b. unfold py_min. destruct (n_ltb b a) eqn:E; [lra|apply Rltb_false in E; lra]. Qed.
Lemma min_ge : forall q a b : R, q <= a -> q <= b -> q <= py_min a b.
Proof. intros q a b A B. unfold py_min. destruct (n_ltb b a); assumption. Qed.

Lemma constructed_steady : forall {L : Libm R} fuel vm dp Dp dz dx err innerS tol (m : smodel R),
  newSlownessModel fuel vm dp Dp dz dx err innerS tol = Ok m -> VelSpec.thick (vm_layers vm) -> vm_radius vm = 6371 ->
  no_flat vm innerS -> fluid_above_inner_core vm innerS -> forall w, steady_between m w.
Proof.
  intros L fuel vm dp Dp dz dx err innerS tol m H Ht Hr Hnf Hfi w n c c' i j Hc Hc' Hi Hj.
  pose proof (constructed_stacked _ _ _ _ _ _ _ _ _ _ H Ht Hr w) as K.
  pose proof (k_meet m w K) as Hm. pose proof (k_up m w K) as Up.
  pose proof (inc_lt _ (st_inc m w K) n (S n) c c' ltac:(lia) Hc Hc') as Lt.
  destruct (branch_inside _ _ _ _ _ Hm Up Lt Hi Hj) as [Lj [In1 In2]].
  destruct (constructed_pairs _ _ _ _ _ _ _ _ _ _ H Ht Hr Hnf Hfi w) as [A B].
  apply steady_range; [exact (k_join m w K)|exact Lj|exact B| |].
  - intros y Hy. apply Rleb_le. exact (Up y Hy).
  - intros k l y z Lk Ll Hy Hz. rewrite FOP_nth in A. apply (A k l y z ltac:(lia) Hy Hz).
    intros x Hx X. apply in_map_iff in Hx. destruct Hx as [a [<- Ha]].
    pose proof (In1 k y ltac:(lia) Hy). pose proof (In2 l z ltac:(lia) Hz).
    destruct (inc_gap _ (st_inc m w K) n c c' a Hc Hc' Ha); lra.
Qed.

Section Floor.
  Variables (m : smodel R) (w : bool).
  Let ls := sm_layers m w.
  Hypothesis K : stacked m w.

  Lemma floor_start : forall fuel c0 c1 y0, (List.length ls <= fuel)%nat -> nth_error (sm_crit m) 0 = Some c0 -> nth_error (sm_crit m) 1 = Some c1 ->
    cd_depth c0 = 0 -> nth_error ls 0 = Some y0 -> floor_at ls c0 (sl_topP y0).
  Proof.
    intros fuel c0 c1 y0 Hf H0 H1 E0 Hy i Di.
    destruct (pair_layers m w K fuel 0 c0 c1 Hf H0 H1) as [i' [j [yi [yj [Di' [_ [Hyi [_ [Fi [_ [Ti _]]]]]]]]]]].
    assert (i' = i) by exact (deepest_unique _ _ _ _ Di' Di). subst i'.
    assert (Ei : i = 0%nat).
    { destruct i as [|i]; [reflexivity|exfalso]. pose proof (srt ls (k_meet m w K) (k_up m w K) 0 (S i) y0 yi ltac:(lia) Hy Hyi) as F.
      pose proof (nth_error_In _ _ Hy) as Iy. pose proof (k_first m w K y0 Hy). destruct (k_vals m w K y0 Iy) as [_ [_ [V1 _]]].
      destruct (st_sq m w K y0 Iy) as [a [b [Ia [_ [Fa [_ [Ea _]]]]]]]; [lra|]. destruct (k_vals m w K a Ia) as [_ [_ [V2 _]]]. unfold fat in Fa. lra. }
    subst i. split; [intros; lia|]. intros y Hy'. assert (y = y0) by (unfold ls in *; congruence). subst y. lra.
  Qed.

  Lemma floor_step : steady_between m w -> forall n c c' mx i j i' yi yj yi' z, nth_error (sm_crit m) n = Some c -> nth_error (sm_crit m) (S n) = Some c' -> floor_at ls c mx ->
      deepest ls (cd_depth c) i -> shallowest ls (cd_depth c') j -> nth_error ls i = Some yi -> nth_error ls j = Some yj ->
      fat yj -> sl_botDepth yj = cd_depth c' ->
      nth_error ls (S i') = Some yi' -> fat yi' -> sl_topDepth yi' = cd_depth c' -> (i <= j <= i')%nat -> nth_error ls i' = Some z ->
      floor_at ls c' (py_min (py_min mx (py_min (sl_topP yi) (sl_botP z))) (sl_botP yj)).
  Proof.
    intros St n c c' mx i j i' yi yj yi' z Hc Hc' Fl Di Sj Hyi Hyj Fj Tj Hyi' Fi' Ti' Lij Hz.
    set (mx' := py_min _ _).
    assert (M1 : mx' <= mx) by (unfold mx'; eapply Rle_trans; [apply min_le_l|apply min_le_l]).
    assert (M2 : mx' <= sl_topP yi) by (unfold mx'; eapply Rle_trans; [apply min_le_l|]; eapply Rle_trans; [apply min_le_r|apply min_le_l]).
    assert (M3 : mx' <= sl_botP z) by (unfold mx'; eapply Rle_trans; [apply min_le_l|]; eapply Rle_trans; [apply min_le_r|apply min_le_r]).
    assert (M4 : mx' <= sl_botP yj) by (unfold mx'; apply min_le_r).
    rewrite (k_joined m w K i' z yi' Hz Hyi') in M3. clearbody mx'.
    intros i'' Di''. assert (i'' = S i') by exact (deepest_unique _ _ _ _ Di'' (fat_deep m w K (S i') yi' _ Hyi' Fi' Ti')). subst i''.
    split; [|intros y Hy; assert (y = yi') by congruence; subst y; exact M3].
    intros k u Lk Hk. destruct (Fl i Di) as [F1 _]. destruct (Nat.lt_ge_cases k i) as [A|A]; [destruct (F1 k u A Hk); lra|].
    destruct (Nat.le_gt_cases k j) as [B|B].
    - destruct (range_between ls i j yi yj (St n c c' i j Hc Hc' Di Sj) ltac:(lia) Hyi Hyj k u ltac:(lia) Hk) as [Q1 Q2]. unfold btw in Q1, Q2. lra.
    - pose proof (srt ls (k_meet m w K) (k_up m w K) j k yj u B Hyj Hk). pose proof (srt ls (k_meet m w K) (k_up m w K) k (S i') u yi' ltac:(lia) Hk Hyi').
      pose proof (upr ls (k_up m w K) u (nth_error_In _ _ Hk)).
      destruct (st_sq m w K u (nth_error_In _ _ Hk)) as [a [b [Ia [Ib [Fa [Fb [Ea [Eb [Q1 Q2]]]]]]]]]; [lra|].
      apply In_nth_error in Ia. destruct Ia as [ka Ha]. apply In_nth_error in Ib. destruct Ib as [kb Hb].
      pose proof (fat_shallow m w K ka a (cd_depth c') Ha Fa ltac:(lra)) as Sa. pose proof (fat_deep m w K kb b (cd_depth c') Hb Fb ltac:(lra)) as Db.
      assert (Xa : ka = j) by exact (shallowest_unique _ _ _ _ Sa Sj). assert (Xb : kb = S i') by exact (deepest_unique _ _ _ _ Db Di'').
      subst ka kb. assert (a = yj) by (unfold ls in *; congruence). assert (b = yi') by (unfold ls in *; congruence). subst a b. unfold btw in Q1, Q2. lra.
  Qed.
End Floor.

Lemma floor_ray : forall (m : smodel R) rp, stacked m false -> records (slownesses (sm_S m)) rp -> ~ unsampled_return m ->
  forall n c c' mx i j, nth_error (sm_crit m) n = Some c -> nth_error (sm_crit m) (S n) = Some c' -> floor_at (sm_layers m false) c mx ->
    deepest (sm_layers m false) (cd_depth c) i -> shallowest (sm_layers m false) (cd_depth c') j -> forall p, In p rp -> p <= mx -> unhindered (sm_layers m false) i j p.
Proof.
  intros m rp K Hr Hn n c c' mx i j Hc Hc' Fl Di Sj p Ip Pm k y Lk Hab Hy Pt.
  pose proof (inc_lt _ (st_inc m false K) n (S n) c c' ltac:(lia) Hc Hc') as Lt.
  pose proof (k_bnd m false K c (nth_error_In _ _ Hc)) as Bc. pose proof (k_bnd m false K c' (nth_error_In _ _ Hc')) as Bc'.
  destruct (deep_fat _ _ _ i j (k_meet m false K) (k_up m false K) Bc Bc' Lt Di Sj) as [yi [yj [Hyi [Hyj [Fi [Fj [Ti [Tj Lij]]]]]]]].
  destruct (Fl i Di) as [F1 F2].
  assert (Tp : p <= sl_topP y).
  { destruct (Nat.eq_dec k i) as [->|N]; [pose proof (F2 y Hy); lra|]. destruct k as [|k]; [lia|].
    destruct (nth_error (sm_layers m false) k) as [z|] eqn:Ez; [|apply nth_error_None in Ez; assert (S k < List.length (sm_layers m false))%nat by (apply nth_error_Some; congruence); lia].
    rewrite <- (k_joined m false K k z y Ez Hy). apply (Hab k z); [lia|exact Ez]. }
  unfold passes_through in Pt. apply Hn. exists k, y, p. split; [exact Hy|]. split; [|split; [split|]].
  - unfold within_branch. destruct (Rlt_dec (sl_topDepth y) (sl_botDepth y)) as [|Nf]; [left; assumption|right].
    pose proof (upr _ (k_up m false K) y (nth_error_In _ _ Hy)) as U.
    destruct (branch_inside _ _ _ _ _ (k_meet m false K) (k_up m false K) Lt Di Sj) as [_ [In1 In2]].
    unfold fat in *. assert (k <> i) by (intros ->; assert (y = yi) by congruence; subst y; lra). assert (k <> j) by (intros ->; assert (y = yj) by congruence; subst y; lra).
    pose proof (In1 k y ltac:(lia) Hy). pose proof (In2 k y ltac:(lia) Hy). intros a Ia E.
    destruct (inc_gap _ (st_inc m false K) n c c' a Hc Hc' Ia); lra.
  - apply (record_above (sm_S m) k y p rp Hy); [lra|exact Hr|exact Ip].
  - intros s Hs. apply sampled_firstn in Hs. destruct Hs as [l [z [Ll [Hz E]]]].
    destruct (Nat.lt_ge_cases l i) as [A|A]; [destruct (F1 l z A Hz); destruct E; subst s; lra|].
    destruct (Hab l z ltac:(lia) Hz); destruct E; subst s; lra.
  - lra.
Qed.

(** ** the nearest branch *)
Lemma closest_some : forall strict target (l : list (tbranch R)) i best f, closest_go strict target i l best (Some f) <> None.
Proof.
  intros strict target. induction l as [|b l IH]; intros i best f; cbn [closest_go]; [discriminate|].
  destruct (if strict then _ else _); apply IH.
Qed.
Lemma closest_total : forall strict target (b : tbranch R) l, tb_top b = 0 -> Rabs target < n_lit 1 300 -> exists x, closestBranch strict target (b :: l) = Ok x.
Proof.
  intros strict target b l E H. unfold closestBranch. cbn [closest_go]. rewrite E.
  assert (A : n_abs (0 - target)%num = Rabs target) by (cbn [n_abs n_sub Num_R]; rewrite Rminus_0_l; apply Rabs_Ropp).
  rewrite A. assert (B : (if strict then n_ltb (Rabs target) (n_lit 1 300) else n_leb (Rabs target) (n_lit 1 300)) = true).
  { destruct strict; [apply Rltb_lt; exact H|apply Rleb_le; lra]. }
  rewrite B. destruct (closest_go strict target (0 + 1) l (Rabs target) (Some (0%Z, 0))) eqn:G; [eauto|].
  exfalso. exact (closest_some _ _ _ _ _ _ G).
Qed.

(** ** the model *)
Lemma tau_total : forall fuel (m : smodel R), (forall w, stacked m w) -> sm_validate m = Ok true -> near_depths (sm_vMod m) ->
  (forall rp, tauRayParams m = Ok rp -> forall w, exists bs, make_branches fuel m w rp = Ok bs) -> exists t, newTauModel fuel m = Ok t.
Proof.
  intros fuel m K Hv [D1 [D2 D3]] HB. unfold newTauModel.
  assert (N : forall w, (sm_numLayers m w =? 0)%Z = false).
  { intros w. pose proof (ls_ne m w (K w)) as Ne. apply Z.eqb_neq. unfold sm_numLayers. destruct (sm_layers m w); [congruence|]. cbn. lia. }
  rewrite !N. cbn [orb]. rewrite Hv. cbn [bind negb].
  assert (R0 : exists rp, tauRayParams m = Ok rp).
  { unfold tauRayParams. pose proof (ls_ne m false (K false)) as Ne. cbn [sm_layers] in Ne. destruct (sm_S m) as [|y l] eqn:E; [congruence|]. cbn. eauto. }
  destruct R0 as [rp R0]. rewrite R0. cbn [bind]. destruct (HB rp R0 true) as [P HP]. destruct (HB rp R0 false) as [Sb HSb].
  rewrite HP. cbn [bind]. rewrite HSb. cbn [bind].
  destruct (st_ends m true (K true)) as [c0 [l [cn [Ec [E0 _]]]]].
  assert (Q : exists b bs, P = b :: bs /\ tb_top b = 0).
  { apply make_branches_spec in HP; [|exact (k_meet m true (K true))|exact (k_up m true (K true))|exact (k_bnd m true (K true))|exact (st_inc m true (K true))|rewrite Ec; discriminate].
    destruct HP as [[El Ti] _]. rewrite Ec in El, Ti. cbn [List.length] in El. rewrite app_length in El. cbn [List.length] in El.
    destruct P as [|b bs]; [cbn in El; lia|]. exists b, bs. split; [reflexivity|].
    destruct (nth_error (l ++ [cn]) 0) as [c1|] eqn:E1; [|apply nth_error_None in E1; rewrite app_length in E1; cbn in E1; lia].
    destruct (Ti 0%nat b c0 c1 eq_refl eq_refl E1) as [A _]. congruence. }
  destruct Q as [b [bs [-> Tb]]].
  destruct (closest_total false (vm_moho (sm_vMod m)) b bs Tb D1) as [[mb md] ->].
  destruct (closest_total true (vm_cmb (sm_vMod m)) b bs Tb D2) as [[cb cd] ->].
  destruct (closest_total true (vm_iocb (sm_vMod m)) b bs Tb D3) as [[ib id] ->]. cbn [bind]. eauto.
Qed.

(** the branch of a layer *)
Lemma locate : forall (cr : list (critdepth R)) c0 cn x, nth_error cr 0 = Some c0 -> (exists l, cr = l ++ [cn]) -> cd_depth c0 <= x < cd_depth cn ->
  exists n c c', nth_error cr n = Some c /\ nth_error cr (S n) = Some c' /\ cd_depth c <= x < cd_depth c'.
Proof.
  induction cr as [|c cr IH]; intros c0 cn x H0 [l Hl] B; [discriminate|]. cbn in H0. injection H0 as ->.
  destruct cr as [|c1 cr].
  - destruct l as [|u l]; [injection Hl as ->; lra|]. injection Hl as _ Hl. destruct l; discriminate.
  - destruct (Rlt_dec x (cd_depth c1)) as [X|X]; [exists 0%nat, c0, c1; cbn; split; [reflexivity|]; split; [reflexivity|lra]|].
    destruct l as [|u l]; [discriminate|]. injection Hl as _ Hl.
    destruct (IH c1 cn x eq_refl (ex_intro _ l Hl) ltac:(lra)) as [n [a [b [A1 [A2 A3]]]]]. exists (S n), a, b. auto.
Qed.

Lemma unsampled_fails : forall {L : Libm R} fuel (m : smodel R) t, stacked m false ->
  unsampled_return m -> newTauModel fuel m <> Ok t.
Proof.
  intros L fuel m t K [k [y [q [Hy [Wb [La B]]]]]] HT.
  pose proof (proj1 (C24_ray_parameters _ _ _ HT (fun v _ => R_ok v))) as Rc.
  destruct (newTauModel_inv _ _ _ HT) as [_ [_ [_ [HB _]]]]. specialize (HB false).
  apply make_branches_spec in HB; [|exact (k_meet m false K)|exact (k_up m false K)|exact (k_bnd m false K)|exact (st_inc m false K)
    |destruct (st_ends m false K) as [c0 [l [cn [Ec _]]]]; rewrite Ec; discriminate].
  destruct HB as [[El Ti] [Is [T0 T1]]].
  set (ls := sm_layers m false) in *. change (sm_S m) with ls in *. pose proof (k_meet m false K) as Hm. pose proof (k_up m false K) as Hu. fold ls in Hm, Hu.
  assert (Lk : (k < List.length ls)%nat) by (apply nth_error_Some; congruence).
  assert (Iq : In q (tm_rayParams t)).
  { apply (least_record ls k q); [lia|exact La|exact Rc]. }
  destruct La as [Sq Lq].
  assert (Lq' : forall a u, (a < k)%nat -> nth_error ls a = Some u -> q <= sl_topP u /\ q <= sl_botP u).
  { intros a u A U. split; apply Lq; apply sampled_firstn; exists a, u; auto. }
  pose proof (nth_error_In _ _ Hy) as Iy. destruct (k_vals m false K y Iy) as [_ [_ [V1 V2]]].
  (* the branch *)
  destruct (st_ends m false K) as [c0 [l [cn [Ec [E0 En]]]]].
  assert (H0 : nth_error (sm_crit m) 0 = Some c0) by (rewrite Ec; reflexivity).
  assert (In0 : forall c, In c (sm_crit m) -> sl_topDepth y <> cd_depth c \/ sl_topDepth y < sl_botDepth y).
  { intros c Hc. destruct Wb as [F|F]; [right; exact F|left; intros E; exact (F c Hc (eq_sym E))]. }
  assert (Icn : In cn (sm_crit m)) by (rewrite Ec; right; apply in_or_app; right; left; reflexivity).
  destruct (locate (sm_crit m) c0 cn (sl_topDepth y) H0) as [n [c [c' [Hc [Hc' Bc]]]]].
  { exists (c0 :: l). exact Ec. } { destruct (In0 cn Icn); lra. }
  pose proof (nth_error_In _ _ Hc) as Ic. pose proof (nth_error_In _ _ Hc') as Ic'.
  destruct (pair_layers m false K (List.length ls) n c c' (le_n _) Hc Hc') as [i [j [yi [yj [Di [Sj [Hyi [Hyj [Fi [Fj [Ti1 [Tj1 [Lij _]]]]]]]]]]]]].
  unfold fat in Fi, Fj.
  (* layers above a critical depth above the layer *)
  assert (Up : forall a u x, In x (sm_crit m) -> cd_depth x <= sl_topDepth y -> nth_error ls a = Some u -> sl_topDepth u = cd_depth x -> (a <= k)%nat).
  { intros a u x Ix Lx Ha Ea. destruct (Nat.le_gt_cases a k) as [X|X]; [exact X|exfalso].
    pose proof (srt ls Hm Hu k a y u X Hy Ha). destruct (In0 x Ix); lra. }
  assert (Li : (i <= k)%nat) by (apply (Up i yi c Ic); [lra|exact Hyi|exact Ti1]).
  assert (Lj : (k <= j)%nat).
  { destruct (Nat.le_gt_cases k j) as [X|X]; [exact X|exfalso]. pose proof (srt ls Hm Hu j k yj y X Hyj Hy). lra. }
  (* the limits *)
  assert (Mx : forall a b x, (a <= n)%nat -> nth_error (branches t false) a = Some b -> nth_error (sm_crit m) a = Some x -> q <= tb_maxRP b).
  { induction a as [|a IH]; intros b x La Hb Hx.
    - destruct (nth_error ls 0) as [f|] eqn:Ef; [|apply nth_error_None in Ef; lia].
      rewrite (T0 b f Hb eq_refl). apply (Lq' 0%nat f); [|exact Ef]. apply sampled_firstn in Sq. destruct Sq as [z [_ [Lz _]]]. lia.
    - destruct (nth_error (branches t false) a) as [b'|] eqn:Eb; [|apply nth_error_None in Eb; assert (S a < List.length (branches t false))%nat by (apply nth_error_Some; congruence); lia].
      destruct (nth_error (sm_crit m) a) as [x'|] eqn:Ex; [|apply nth_error_None in Ex; assert (S a < List.length (sm_crit m))%nat by (apply nth_error_Some; congruence); lia].
      pose proof (IH b' x' ltac:(lia) eq_refl eq_refl) as Q0.
      destruct (T1 a b' b x' x Eb Hb Ex Hx) as [y1 [z1 [u1 [j1 [G1 [G2 [G3 [G4 ->]]]]]]]].
      assert (Dx : cd_depth x <= sl_topDepth y).
      { destruct (Nat.eq_dec (S a) n) as [Ea|Na]; [subst n; assert (x = c) by congruence; subst x; lra|].
        pose proof (inc_lt _ (st_inc m false K) (S a) n x c ltac:(lia) Hx Hc). lra. }
      destruct (pair_layers m false K (List.length ls) a x' x (le_n _) Ex Hx) as [i2 [j2 [yi2 [yj2 [Di2 [Sj2 [Hyi2 [Hyj2 [Fi2 [Fj2 [Ti2 [Tj2 [Lij2 [Nc2 Z]]]]]]]]]]]]]].
      pose proof (nth_error_In _ _ Hx) as Ix.
      destruct Z as [[Er [Ln _]]|[i3 [yi3 [z3 [Z1 [Z2 [Z3 [Z4 [Z5 [Z6 Z7]]]]]]]]]].
      { assert (S n < List.length (sm_crit m))%nat by (apply nth_error_Some; congruence). lia. }
      pose proof (Up (S i3) yi3 x Ix Dx Z1 Z3) as L3. unfold num_of in Nc2, Z7.
      rewrite Nc2, (layer_at false m i2 yi2 Hyi2) in G1. injection G1 as <-. rewrite Z7 in G2. injection G2 as <-.
      assert (j1 = j2) by exact (shallowest_unique _ _ _ _ G3 Sj2). subst j1. assert (u1 = yj2) by (unfold ls in *; congruence). subst u1.
      apply min_ge; [apply min_ge; [exact Q0|apply min_ge]|].
      + apply (Lq' i2 yi2); [lia|exact Hyi2].
      + apply (Lq' i3 z3); [lia|exact Z5].
      + apply (Lq' j2 yj2); [lia|exact Hyj2]. }
  assert (Lc : (S n < List.length (sm_crit m))%nat) by (apply nth_error_Some; congruence).
  destruct (nth_error (branches t false) n) as [b|] eqn:Eb; [|apply nth_error_None in Eb; lia].
  pose proof (Mx n b c (le_n _) Eb Hc) as Qb. destruct (Ti n b c c' Eb Hc Hc') as [Tb1 Tb2].
  destruct (Is b (nth_error_In _ _ Eb)) as [_ [[L1 [L2 [L3 R3]]] _]].
  apply In_nth_error in Iq. destruct Iq as [e He].
  assert (Le : (e < List.length (tm_rayParams t))%nat) by (apply nth_error_Some; congruence).
  assert (Get : forall l : list R, List.length l = List.length (tm_rayParams t) -> exists v, nth_error l e = Some v).
  { intros l' El'. destruct (nth_error l' e) as [v|] eqn:Ev; [eauto|]. apply nth_error_None in Ev. lia. }
  destruct (Get _ L1) as [d1 D1], (Get _ L2) as [t1 Tm1], (Get _ L3) as [u1 U1].
  destruct (R3 e q d1 t1 u1 He D1 Tm1 U1) as [_ [[F _]|[_ [i' [j' [incs [Di' [Sj' [De _]]]]]]]]].
  { apply Rleb_false in F. lra. }
  rewrite Tb1 in Di'. rewrite Tb2 in Sj'.
  assert (i' = i) by exact (deepest_unique _ _ _ _ Di' Di). assert (j' = j) by exact (shallowest_unique _ _ _ _ Sj' Sj). subst i' j'.
  destruct De as [De|[De _]]; [|lia]. destruct De as [Dl [Dc [_ De]]].
  assert (X : (i + List.length incs <= k)%nat).
  { destruct (Nat.le_gt_cases (i + List.length incs) k) as [X|X]; [exact X|exfalso].
    destruct (Dc (k - i)%nat y ltac:(lia)) as [_ C2]; [replace (i + (k - i))%nat with k by lia; exact Hy|]. apply Rleb_le in C2. lra. }
  destruct De as [De|[z [Hz [Nc Ns]]]]; [lia|].
  destruct (Nat.eq_dec (i + List.length incs) k) as [E|E].
  - rewrite E in Hz. assert (z = y) by (unfold ls in *; congruence). subst z. apply Ns. apply passes_spans. right. exact B.
  - apply Nc. destruct (Lq' (i + List.length incs)%nat z ltac:(lia) Hz). split; apply Rleb_le; assumption.
Qed.

Lemma rp_sampled : forall (m : smodel R) rp, tauRayParams m = Ok rp -> records (slownesses (sm_S m)) rp /\ forall p, In p rp -> sampled_value (sm_S m) p.
Proof.
  intros m rp H. destruct (tauRayParams_spec m rp H (fun v _ => R_ok v)) as [Rc _]. split; [exact Rc|].
  intros p Hp. apply (records_in _ _ _ Rc) in Hp. destruct Hp as [i [_ Ei]]. apply slow_sampled. eapply nth_error_In. exact Ei.
Qed.

Lemma nonneg_rp : forall (m : smodel R) rp, stacked m false -> tauRayParams m = Ok rp -> forall p, In p rp -> 0 <= p.
Proof.
  intros m rp K H p Hp. destruct (proj2 (rp_sampled m rp H) p Hp) as [y [Hy E]]. destruct (k_vals m false K y Hy) as [A [B _]]. destruct E; subst p; assumption.
Qed.
Lemma two_crit : forall (m : smodel R) w, stacked m w -> exists c0 c1 y0, nth_error (sm_crit m) 0 = Some c0 /\ nth_error (sm_crit m) 1 = Some c1 /\
  cd_depth c0 = 0 /\ nth_error (sm_layers m w) 0 = Some y0.
Proof.
  intros m w K. destruct (st_ends m w K) as [c0 [l [cn [E [E0 _]]]]].
  destruct (nth_error (l ++ [cn]) 0) as [c1|] eqn:E1; [|apply nth_error_None in E1; rewrite app_length in E1; cbn in E1; lia].
  destruct (nth_error (sm_layers m w) 0) as [y|] eqn:Ey; [|apply nth_error_None in Ey; pose proof (ls_ne m w K) as Ne; destruct (sm_layers m w); [congruence|cbn in Ey; lia]].
  exists c0, c1, y. rewrite E. auto.
Qed.
(** rays through layers that are clear of all ray parameters *)
Lemma clear_branches : forall fuel (m : smodel R) w rp, stacked m w -> regular m -> (List.length (sm_layers m w) <= fuel)%nat ->
  (forall p, In p rp -> 0 <= p /\ clear_of (sm_layers m w) p) -> exists bs, make_branches fuel m w rp = Ok bs.
Proof.
  intros fuel m w rp K Rg Hf Hp. destruct (two_crit m w K) as [c0 [_ [y0 [H0 [_ [_ Hy]]]]]].
  apply (branches_total m w K fuel rp Hf Rg (fun p Ip => proj1 (Hp p Ip)) (fun _ _ => True)) with (c0 := c0) (y0 := y0); auto.
  intros n c c' mx i j _ _ _ _ _ p Ip _ k y _ _ Hk. apply (proj2 (Hp p Ip)). eapply nth_error_In. exact Hk.
Qed.
Lemma floor_branches : forall fuel (m : smodel R) rp, stacked m false -> regular m -> (List.length (sm_layers m false) <= fuel)%nat -> steady_between m false ->
  records (slownesses (sm_S m)) rp -> (forall p, In p rp -> 0 <= p) -> ~ unsampled_return m -> exists bs, make_branches fuel m false rp = Ok bs.
Proof.
  intros fuel m rp K Rg Hf St Hr Hp Hn. destruct (two_crit m false K) as [c0 [c1 [y0 [H0 [H1 [E0 Hy]]]]]].
  apply (branches_total m false K fuel rp Hf Rg Hp (floor_at (sm_layers m false))) with (c0 := c0) (y0 := y0).
  - exact (floor_ray m rp K Hr Hn).
  - exact (floor_step m false K St).
  - exact H0.
  - exact Hy.
  - exact (floor_start m false K fuel c0 c1 y0 Hf H0 H1 E0 Hy).
Qed.

(** a list of layers that never rises is clear of its own samples *)
Lemma falling_clear : forall (ls : list (slayer R)) s, s_join ls -> never_rises ls -> sampled_value ls s -> clear_of ls s.
Proof.
  intros ls s Hj Hn.
  assert (J : forall k y z, nth_error ls k = Some y -> nth_error ls (S k) = Some z -> sl_botP y = sl_topP z) by (intros k y z A B; apply Reqb_eq; exact (Hj k y z A B)).
  assert (O : forall a b y z, (a < b)%nat -> nth_error ls a = Some y -> nth_error ls b = Some z -> sl_topP z <= sl_botP y).
  { intros a b y z L. revert z. induction L as [|b L IH]; intros z Ha Hb; [rewrite (J a y z Ha Hb); lra|].
    destruct (nth_error ls b) as [u|] eqn:Eu; [|apply nth_error_None in Eu; assert (S b < List.length ls)%nat by (apply nth_error_Some; congruence); lia].
    pose proof (IH u Ha eq_refl). pose proof (Hn u (nth_error_In _ _ Eu)). rewrite <- (J b u z Eu Hb). lra. }
  intros [u [Iu E]] y Hy Pt. apply In_nth_error in Iu, Hy. destruct Iu as [a Ha], Hy as [b Hb].
  pose proof (Hn u (nth_error_In _ _ Ha)). pose proof (Hn y (nth_error_In _ _ Hb)). unfold passes_through in Pt.
  destruct (Nat.lt_trichotomy a b) as [X|[X|X]].
  - pose proof (O a b u y X Ha Hb). destruct E; lra.
  - subst b. assert (u = y) by congruence. subst u. destruct E; lra.
  - pose proof (O b a y u X Hb Ha). destruct E; lra.
Qed.

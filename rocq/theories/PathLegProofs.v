(** Proofs for PathProps.v: down and up through one branch. *)
From Coq Require Import ZArith Bool List String Reals Lra Lia.
From Verif Require Import Base Num PyStr VelocityModel SlownessLayer SlownessModel SlowSpec SlowProofs TauModel SeismicPhase
  TauSpec TauProofs CurveSpec CurveProofs PierceSpec SlowRealProofs PathSpec PathProofs PathWholeProofs.
From Verif Require BullenSpec BullenProps.
Import ListNotations.
Local Open Scope list_scope.
Local Open Scope R_scope.

Lemma flat_R : forall y : slayer R, flat y <-> sl_topDepth y = sl_botDepth y.
Proof. intros y. unfold flat. cbn [n_eqb Num_R]. apply Reqb_true. Qed.
Lemma flat_dec : forall y : slayer R, flat y \/ ~ flat y.
Proof. intros y. rewrite flat_R. destruct (Req_dec (sl_topDepth y) (sl_botDepth y)); auto. Qed.
Lemma leb_R_false : forall a b : R, (a <=? b)%num = false <-> b < a.
Proof. intros a b. cbn [n_leb Num_R]. destruct (Rleb_spec a b); split; intros; try discriminate; try lra; reflexivity. Qed.
Lemma ltb_R_false : forall a b : R, (a <? b)%num = false <-> b <= a.
Proof. intros a b. cbn [n_ltb Num_R]. destruct (Rltb_spec a b); split; intros; try discriminate; try lra; reflexivity. Qed.

Section Leg.
  Variables (m : smodel R) (w : bool) (p : R).
  Let ls := sm_layers m w.

  (** the thick layers from [i] to [n] - 1, all of them passed *)
  Inductive crossed (i : nat) : nat -> list stretch -> Prop :=
  | cr_nil : crossed i i []
  | cr_flat : forall n y c, (i <= n)%nat -> nth_error ls n = Some y -> flat y -> crossed i n c -> crossed i (S n) c
  | cr_pass : forall n y c tm d, (i <= n)%nat -> nth_error ls n = Some y -> ~ flat y -> passes m w p n tm d -> crossed i n c ->
      crossed i (S n) (c ++ [(tm, d, sl_topDepth y, sl_botDepth y)]).

  Lemma passes_fun : forall k tm d tm' d', passes m w p k tm d -> passes m w p k tm' d' -> tm = tm' /\ d = d'.
  Proof. intros k tm d tm' d' [x [H [<- <-]]] [x' [H' [<- <-]]]. assert (x = x') by congruence. subst. auto. Qed.
  Lemma turns_fun : forall y z tm d z' tm' d', turns m p y z tm d -> turns m p y z' tm' d' -> z = z' /\ tm = tm' /\ d = d'.
  Proof.
    intros y z tm d z' tm' d' [A [_ [_ [x [B [<- <-]]]]]] [A' [_ [_ [x' [B' [<- <-]]]]]]. assert (z = z') by congruence. subst.
    assert (x = x') by congruence. subst. auto.
  Qed.
  Lemma crossed_le : forall i n c, crossed i n c -> (i <= n)%nat.
  Proof. intros i n c H. induction H; lia. Qed.
  Lemma crossed_inv : forall i n c, crossed i (S n) c -> (i <= n)%nat -> exists y, nth_error ls n = Some y /\
    ((flat y /\ crossed i n c) \/
     (~ flat y /\ exists tm d c', passes m w p n tm d /\ crossed i n c' /\ c = c' ++ [(tm, d, sl_topDepth y, sl_botDepth y)])).
  Proof.
    intros i n c H Hn. remember (S n) as k eqn:Ek. destruct H as [|n' y c Hi Hy Hf Hc|n' y c tm d Hi Hy Hf Hp Hc]; [lia|..]; injection Ek as ->.
    - exists y. auto.
    - exists y. split; [exact Hy|]. right. split; [exact Hf|]. exists tm, d, c. auto.
  Qed.
  Lemma crossed_nil : forall i c, crossed i i c -> c = [].
  Proof. intros i c H. remember i as n eqn:En in H at 2. destruct H; [reflexivity|lia|lia]. Qed.
  Lemma crossed_fun : forall i n c c', crossed i n c -> crossed i n c' -> c = c'.
  Proof.
    intros i n c c' H. revert c'. induction H as [|n y c Hi Hy Hf Hc IH|n y c tm d Hi Hy Hf Hp Hc IH]; intros c' H'.
    - apply crossed_nil in H'. auto.
    - apply crossed_inv in H'; [|exact Hi]. destruct H' as [y' [Hy' [[_ H']|[F _]]]]; [auto|]. rewrite Hy in Hy'. injection Hy' as <-. contradiction.
    - apply crossed_inv in H'; [|exact Hi]. destruct H' as [y' [Hy' [[F _]|[_ [tm' [d' [c1 [Hp' [H' ->]]]]]]]]]; rewrite Hy in Hy'; injection Hy' as <-; [contradiction|].
      destruct (passes_fun _ _ _ _ _ Hp Hp') as [-> ->]. rewrite (IH _ H'). reflexivity.
  Qed.
  Lemma crossed_first_flat : forall k n y c, nth_error ls k = Some y -> flat y -> crossed (S k) n c -> crossed k n c.
  Proof.
    intros k n y c Hy Hf H. induction H as [|n u c Hi Hu Hfu Hc IH|n u c tm d Hi Hu Hfu Hp Hc IH].
    - eapply cr_flat; eauto. constructor.
    - eapply cr_flat; eauto. lia.
    - eapply cr_pass; eauto. lia.
  Qed.
  Lemma crossed_first_pass : forall k n y c tm d, nth_error ls k = Some y -> ~ flat y -> passes m w p k tm d -> crossed (S k) n c ->
    crossed k n ((tm, d, sl_topDepth y, sl_botDepth y) :: c).
  Proof.
    intros k n y c tm d Hy Hf Hp H. induction H as [|n u c Hi Hu Hfu Hc IH|n u c tm' d' Hi Hu Hfu Hp' Hc IH].
    - exact (cr_pass k k y [] tm d ltac:(lia) Hy Hf Hp (cr_nil k)).
    - eapply cr_flat; eauto. lia.
    - rewrite app_comm_cons. eapply cr_pass; eauto. lia.
  Qed.
  Lemma crossed_flats : forall i n n' c, crossed i n c -> (n <= n')%nat -> (n' <= List.length ls)%nat ->
    (forall k y, (n <= k < n')%nat -> nth_error ls k = Some y -> flat y) -> crossed i n' c.
  Proof.
    intros i n n' c H Hn. induction Hn as [|n' Hn IH]; intros Hl Hf; [exact H|].
    destruct (nth_error ls n') as [y|] eqn:Ey; [|apply nth_error_None in Ey; lia].
    apply (cr_flat i n' y c).
    - apply crossed_le in H. lia.
    - exact Ey.
    - apply (Hf n'); [lia|exact Ey].
    - apply IH; [lia|]. intros k y' Hk. apply Hf. lia.
  Qed.

  Lemma climb_crossed : forall i n l, climb m w p i n l -> exists c, crossed i n c /\ l = rev (map (at_top p) c).
  Proof.
    intros i n l H. induction H as [|n y l Hi Hy Hf Hl [c [Hc E]]|n y l tm d Hi Hy Hf Hp Hl [c [Hc E]]].
    - exists []. split; [constructor|reflexivity].
    - exists c. split; [eapply cr_flat; eauto|exact E].
    - eexists. split; [eapply cr_pass; eauto|]. rewrite map_app, rev_app_distr, <- E. reflexivity.
  Qed.
  Lemma descent_crossed : forall e k l, descent m w p e k l -> (k <= e)%nat -> (e <= List.length ls)%nat ->
    exists n c tail, (k <= n <= e)%nat /\ crossed k n c /\ l = map (at_bottom p) c ++ tail /\
      (forall x y, (k <= x < n)%nat -> nth_error ls x = Some y -> p <= sl_botP y) /\
      ((n = e /\ tail = []) \/ ((n < e)%nat /\ exists y, nth_error ls n = Some y /\ sl_botP y < p /\ last_bit m p y tail)).
  Proof.
    intros e k l H. induction H as [k He|k y l Hk Hy Hp Hf Hd IH|k y l tm d Hk Hy Hp Hf Hps Hd IH|k y z tm d Hk Hy Hp Hf Ht|k y Hk Hy Hp Hf]; intros Hke Hle.
    - exists k, [], []. split; [lia|]. split; [constructor|]. split; [reflexivity|]. split; [intros x y Hx; lia|]. left. split; [lia|reflexivity].
    - destruct (IH ltac:(lia) Hle) as [n [c [tail [Hn [Hc [E [Hb Hend]]]]]]]. exists n, c, tail. split; [lia|].
      split; [eapply crossed_first_flat; eauto|]. split; [exact E|]. split; [|exact Hend].
      intros x u Hx Hu. destruct (Nat.eq_dec x k) as [->|Ne]; [|apply (Hb x); [lia|exact Hu]].
      fold ls in Hy. rewrite Hy in Hu. injection Hu as <-. apply Rleb_le. exact Hp.
    - destruct (IH ltac:(lia) Hle) as [n [c [tail [Hn [Hc [E [Hb Hend]]]]]]]. eexists n, _, tail. split; [lia|].
      split; [eapply crossed_first_pass; eauto|]. split; [cbn [map app]; rewrite E; reflexivity|]. split; [|exact Hend].
      intros x u Hx Hu. destruct (Nat.eq_dec x k) as [->|Ne]; [|apply (Hb x); [lia|exact Hu]].
      fold ls in Hy. rewrite Hy in Hu. injection Hu as <-. apply Rleb_le. exact Hp.
    - exists k, [], [mkTD p tm d z]. split; [lia|]. split; [constructor|]. split; [reflexivity|]. split; [intros x u Hx; lia|]. right. split; [exact Hk|].
      exists y. split; [exact Hy|]. split; [apply leb_R_false; exact Hp|]. right. split; [exact Hf|]. eauto.
    - exists k, [], []. split; [lia|]. split; [constructor|]. split; [reflexivity|]. split; [intros x u Hx; lia|]. right. split; [exact Hk|].
      exists y. split; [exact Hy|]. split; [apply leb_R_false; exact Hp|]. left. auto.
  Qed.

  Lemma passes_slow : forall k y tm d, passes m w p k tm d -> nth_error ls k = Some y -> p <= sl_topP y /\ p <= sl_botP y.
  Proof.
    intros k y tm d [x [H _]] Hy. unfold layerTimeDist in H. rewrite (proj2 (get_iff m w k y) Hy) in H. cbn [bind] in H.
    unfold py_max, py_min in H. cbn [n_ltb Num_R] in H.
    destruct (Rltb_spec (sl_topP y) (sl_botP y)); destruct (Rltb_spec (sl_botP y) (sl_topP y)); try lra.
    all: destruct (Rltb_spec (sl_botP y) p) in H; try discriminate; destruct (Rltb_spec p n_0) in H; try discriminate.
    all: try (destruct (Rltb_spec (sl_topP y) p) in H; try discriminate); try (destruct (Rltb_spec (sl_botP y) p) in H; try discriminate); lra.
  Qed.
  Lemma turns_slow : forall y z tm d, turns m p y z tm d -> sl_botP y < p -> ~ flat y ->
    p <= sl_topP y /\ (p = sl_topP y -> z = sl_topDepth y /\ tm = 0 /\ d = 0).
  Proof.
    intros y z tm d [Hz [_ [_ [x [Hx [<- <-]]]]]] Hb Hf. rewrite flat_R in Hf. unfold bullenDepthFor in Hz.
    cbn [n_leb n_eqb n_sub n_mul Num_R] in Hz. rewrite n_0_R in Hz.
    destruct (Rleb_spec 0 ((sl_topP y - p) * (p - sl_botP y))) as [E|E]; [|discriminate]. split; [nra|]. intros Ep.
    destruct (Reqb_spec (sl_topDepth y) (sl_botDepth y)); [contradiction|]. destruct (Reqb_spec (sl_topP y) p); [|symmetry in Ep; contradiction].
    injection Hz as <-. split; [reflexivity|]. unfold bullenRadialSlowness in Hx. cbn [sl_botDepth sl_topDepth n_eqb Num_R] in Hx.
    destruct (Reqb_spec (sl_topDepth y) (sl_topDepth y)); [|contradiction]. assert (E2 : x = td_new p) by congruence. subst x. unfold td_new. cbn [td_time td_dist]. rewrite n_0_R. auto.
  Qed.

  (** *** steady slowness *)
  Variables (i j : nat).
  Hypothesis Hj : (j < List.length ls)%nat.
  Lemma falls_below : falls ls i j -> forall n k y z, (i <= k)%nat -> (k + S n <= j)%nat -> nth_error ls k = Some y -> nth_error ls (k + S n) = Some z ->
    sl_topP z <= sl_botP y.
  Proof.
    intros F n. induction n as [|n IH]; intros k y z Hi Hk Hy Hz.
    - destruct (F k y ltac:(lia) Hy) as [_ [_ X]]. apply X; [lia|]. replace (S k) with (k + 1)%nat by lia. exact Hz.
    - destruct (nth_error ls (k + S n)) as [u|] eqn:Eu; [|apply nth_error_None in Eu; lia].
      assert (A := IH k y u Hi ltac:(lia) Hy Eu). destruct (F (k + S n)%nat u ltac:(lia) Eu) as [B [_ C]].
      assert (D := C z ltac:(lia) ltac:(replace (S (k + S n)) with (k + S (S n))%nat by lia; exact Hz)). lra.
  Qed.
  Lemma rises_below : rises ls i j -> forall n k y z, (i <= k)%nat -> (k + S n <= j)%nat -> nth_error ls k = Some y -> nth_error ls (k + S n) = Some z ->
    sl_botP y <= sl_topP z.
  Proof.
    intros F n. induction n as [|n IH]; intros k y z Hi Hk Hy Hz.
    - destruct (F k y ltac:(lia) Hy) as [_ [_ X]]. apply X; [lia|]. replace (S k) with (k + 1)%nat by lia. exact Hz.
    - destruct (nth_error ls (k + S n)) as [u|] eqn:Eu; [|apply nth_error_None in Eu; lia].
      assert (A := IH k y u Hi ltac:(lia) Hy Eu). destruct (F (k + S n)%nat u ltac:(lia) Eu) as [B [_ C]].
      assert (D := C z ltac:(lia) ltac:(replace (S (k + S n)) with (k + S (S n))%nat by lia; exact Hz)). lra.
  Qed.
  Hypothesis Hij : (i <= j)%nat.
  Variable y0 : slayer R.
  Hypothesis Hy0 : nth_error ls i = Some y0.
  Hypothesis Hf0 : ~ flat y0.
  Hypothesis Steady : falls ls i j \/ rises ls i j.
  (** below a layer that the ray does not pass it never comes *)
  Lemma steady_stop : (rises ls i j -> p <= sl_topP y0) -> forall k k' y z, (i <= k < k')%nat -> (k' <= j)%nat -> nth_error ls k = Some y -> nth_error ls k' = Some z ->
    sl_botP y < p -> sl_topP z < p.
  Proof.
    intros Hr k k' y z Hk Hk' Hy Hz Hp. destruct Steady as [F|F].
    - assert (A := falls_below F (k' - S k) k y z ltac:(lia) ltac:(lia) Hy ltac:(replace (k + S (k' - S k))%nat with k' by lia; exact Hz)). lra.
    - exfalso. specialize (Hr F). destruct (F i y0 ltac:(lia) Hy0) as [A _]. destruct (F k y ltac:(lia) Hy) as [B _].
      destruct (Nat.eq_dec k i) as [->|Ne]; [rewrite Hy0 in Hy; injection Hy as <-; lra|].
      assert (C := rises_below F (k - S i) i y0 y ltac:(lia) ltac:(lia) Hy0 ltac:(replace (i + S (k - S i))%nat with k by lia; exact Hy)). lra.
  Qed.
  Lemma steady_pass : (rises ls i j -> p <= sl_topP y0) -> forall k y, (i < k <= j)%nat -> nth_error ls k = Some y -> ~ flat y -> p <= sl_botP y -> p < sl_topP y.
  Proof.
    intros Hr k y Hk Hy Hf Hp. rewrite flat_R in Hf, Hf0. destruct Steady as [F|F].
    - destruct (F k y ltac:(lia) Hy) as [A [B _]]. destruct (Rle_lt_or_eq_dec _ _ A) as [X|X]; [lra|]. exfalso. auto.
    - specialize (Hr F). destruct (F i y0 ltac:(lia) Hy0) as [A [B _]].
      assert (C := rises_below F (k - S i) i y0 y ltac:(lia) ltac:(lia) Hy0 ltac:(replace (i + S (k - S i))%nat with k by lia; exact Hy)).
      destruct (Rle_lt_or_eq_dec _ _ A) as [X|X]; [lra|]. exfalso. auto.
  Qed.
  Lemma down_rise : forall l, descent m w p (S j) i l -> rises ls i j -> p <= sl_topP y0.
  Proof.
    intros l H F. destruct (F i y0 ltac:(lia) Hy0) as [A _].
    inversion H as [k He|k y l0 Hk Hy Hp Hf Hd|k y l0 tm d Hk Hy Hp Hf Hps Hd|k y z tm d Hk Hy Hp Hf Ht|k y Hk Hy Hp Hf]; subst k; [lia|..];
      fold ls in Hy; rewrite Hy0 in Hy; injection Hy as <-; try contradiction.
    - eapply passes_slow; eassumption.
    - apply leb_R_false in Hp. destruct (turns_slow _ _ _ _ Ht Hp Hf) as [X _]. exact X.
  Qed.
  Lemma up_rise : forall l, ascent m w p i j l -> rises ls i j -> p <= sl_topP y0.
  Proof.
    intros l [e [y [He [Hy [_ [Hc H]]]]]] F. destruct (F i y0 ltac:(lia) Hy0) as [A _]. fold ls in Hy.
    assert (Cl : forall n l', climb m w p i (S n) l' -> (i <= n)%nat -> p <= sl_topP y0).
    { intros n. induction n as [|n IH]; intros l' Hl Hn.
      - assert (Ei : i = 0%nat) by lia. apply climb_inv in Hl; [|lia]. destruct Hl as [u [Hu Hl]]. rewrite <- Ei in Hu. fold ls in Hu. rewrite Hy0 in Hu. injection Hu as <-.
        destruct Hl as [[X _]|[_ [tm [d [l1 [Hp _]]]]]]; [contradiction|]. rewrite <- Ei in Hp. eapply passes_slow; eassumption.
      - apply climb_inv in Hl; [|lia]. destruct Hl as [u [Hu Hl]]. fold ls in Hu. destruct (Nat.eq_dec i (S n)) as [Ei|Ne].
        + rewrite <- Ei in Hu. rewrite Hy0 in Hu. injection Hu as <-.
          destruct Hl as [[X _]|[_ [tm [d [l1 [Hp _]]]]]]; [contradiction|]. rewrite <- Ei in Hp. eapply passes_slow; eassumption.
        + destruct Hl as [[_ Hl]|[_ [tm [d [l1 [_ [Hl _]]]]]]]; apply (IH _ Hl); lia. }
    destruct H as [[_ H]|[Hb [z [tm [d [l' [Ht [H _]]]]]]]]; [apply (Cl _ _ H); lia|].
    destruct (Nat.eq_dec e i) as [->|Ne].
    - rewrite Hy0 in Hy. injection Hy as <-. apply Rltb_lt in Hb. destruct (turns_slow _ _ _ _ Ht Hb Hf0) as [X _]. exact X.
    - destruct e as [|e]; [lia|]. apply (Cl _ _ H). lia.
  Qed.

  Lemma retrace : forall l l', descent m w p (S j) i l -> ascent m w p i j l' ->
    exists n c tail, (i <= n <= S j)%nat /\ l = map (at_bottom p) c ++ tail /\ l' = rev (map (at_top p) c) /\
      ((n = S j /\ crossed i n c /\ tail = []) \/
       ((n <= j)%nat /\ exists y, nth_error ls n = Some y /\ sl_botP y < p /\
         ((crossed i n c /\ flat y /\ tail = []) \/
          (crossed i n c /\ ~ flat y /\ p = sl_topP y /\ tail = [mkTD p 0 0 (sl_topDepth y)]) \/
          (exists c' z tm d, crossed i n c' /\ ~ flat y /\ turns m p y z tm d /\ c = c' ++ [(tm, d, sl_topDepth y, z)] /\ tail = [])))).
  Proof.
    intros l l' Hd Ha. assert (Hr := down_rise l Hd).
    destruct (descent_crossed _ _ _ Hd ltac:(lia) ltac:(lia)) as [n [c [tail [Hn [Hc [-> [Hb Hend]]]]]]].
    destruct Ha as [e [y [He [Hy [Hs [Hcl Ha]]]]]]. fold ls in Hy, Hs.
    assert (Mid : (e < n)%nat -> sl_botP y >= p -> l' = rev (map (at_top p) c)).
    { intros Hen Hbp. destruct Ha as [[_ Ha]|[X _]]; [|apply Rltb_lt in X; lra].
      destruct (climb_crossed _ _ _ Ha) as [c0 [Hc0 ->]].
      assert (Hc1 : crossed i n c0).
      { apply (crossed_flats i (S e) n c0 Hc0); [lia|lia|]. intros k u Hk Hu. destruct (flat_dec u) as [X|X]; [exact X|exfalso].
        assert (Hpb := Hb k u ltac:(lia) Hu). assert (A := steady_pass Hr k u ltac:(lia) Hu X Hpb).
        destruct (Hs k u ltac:(lia) Hu) as [B|B]; [|contradiction]. apply Rleb_le in B. lra. }
      rewrite (crossed_fun _ _ _ _ Hc Hc1). reflexivity. }
    destruct Hend as [[-> ->]|[Hnj [u [Hu [Hub Ht]]]]].
    - exists (S j), c, []. split; [lia|]. split; [reflexivity|]. split; [|left; auto].
      apply Mid; [lia|]. apply Rle_ge. apply (Hb e y); [lia|exact Hy].
    - assert (Hen : (e <= n)%nat).
      { destruct (le_lt_dec e n) as [X|X]; [exact X|exfalso]. assert (A := steady_stop Hr n e u y ltac:(lia) ltac:(lia) Hu Hy Hub).
        destruct Hcl as [->|[B _]]; [lia|]. apply leb_R_false in B. lra. }
      destruct (Nat.eq_dec e n) as [->|Ne].
      + rewrite Hu in Hy. injection Hy as ->. 
        assert (Nf : ~ flat y). { destruct Hcl as [->|[_ X]]; [|exact X]. rewrite Hy0 in Hu. injection Hu as <-. exact Hf0. }
        destruct Ht as [[X _]|[_ [z [tm [d [Ht ->]]]]]]; [contradiction|].
        destruct Ha as [[X _]|[_ [z' [tm' [d' [l1 [Ht' [Ha ->]]]]]]]]; [apply ltb_R_false in X; lra|].
        destruct (turns_fun _ _ _ _ _ _ _ Ht Ht') as [<- [<- <-]]. destruct (climb_crossed _ _ _ Ha) as [c0 [Hc0 ->]].
        rewrite (crossed_fun _ _ _ _ Hc0 Hc).
        exists n, (c ++ [(tm, d, sl_topDepth y, z)]), []. split; [lia|]. rewrite !map_app, rev_app_distr, app_nil_r. split; [reflexivity|]. split; [reflexivity|].
        right. split; [lia|]. exists y. split; [exact Hu|]. split; [exact Hub|]. right. right. exists c, z, tm, d. auto.
      + assert (El : l' = rev (map (at_top p) c)).
        { apply Mid; [lia|]. apply Rle_ge. apply (Hb e y); [lia|exact Hy]. }
        exists n, c, tail. split; [lia|]. split; [reflexivity|]. split; [exact El|]. right. split; [lia|]. exists u. split; [exact Hu|]. split; [exact Hub|].
        destruct Ht as [[X ->]|[X [z [tm [d [Ht ->]]]]]]; [left; auto|]. right. left.
        destruct (turns_slow _ _ _ _ Ht Hub X) as [A B].
        assert (Ep : p = sl_topP u). { destruct (Hs n u ltac:(lia) Hu) as [Y|Y]; [apply Rleb_le in Y; lra|contradiction]. }
        destruct (B Ep) as [-> [-> ->]]. auto.
  Qed.
End Leg.

(** ** depths *)
Lemma depthFor_range : forall (y : slayer R) p rad z, bullenDepthFor y p rad = Ok z -> sl_topDepth y <= sl_botDepth y ->
  sl_topDepth y <= z <= sl_botDepth y.
Proof.
  intros y p rad z H Hy. unfold bullenDepthFor in H. cbn [n_leb n_eqb n_ltb n_sub n_mul n_add n_isnan n_isinf Num_R] in H. rewrite n_0_R in H.
  destruct (Rleb_spec 0 ((sl_topP y - p) * (p - sl_botP y))) as [Hs|]; [|discriminate].
  destruct (Reqb_spec (sl_topDepth y) (sl_botDepth y)); [injection H as <-; lra|].
  destruct (Reqb_spec (sl_topP y) p) as [|Et]; [injection H as <-; lra|].
  destruct (Reqb_spec (sl_botP y) p) as [|Eb]; [injection H as <-; lra|].
  assert (Hne : sl_topP y <> sl_botP y) by (intros X; rewrite X in Hs; assert ((sl_botP y - p) * (p - sl_botP y) < 0) by nra; lra).
  assert (Lin : 0 <= (p - sl_topP y) / (sl_botP y - sl_topP y) <= 1).
  { assert (D : (sl_botP y - sl_topP y) <> 0) by lra. destruct (Rtotal_order (sl_topP y) (sl_botP y)) as [A|[A|A]]; [|contradiction|].
    - assert (sl_topP y <= p <= sl_botP y) by nra. split; [apply Rmult_le_pos; [lra|apply Rlt_le, Rinv_0_lt_compat; lra]|].
      apply Rmult_le_reg_r with (sl_botP y - sl_topP y); [lra|]. unfold Rdiv. rewrite Rmult_assoc, Rinv_l by lra. lra.
    - assert (sl_botP y <= p <= sl_topP y) by nra.
      replace ((p - sl_topP y) / (sl_botP y - sl_topP y)) with ((sl_topP y - p) / (sl_topP y - sl_botP y)) by (field; lra).
      split; [apply Rmult_le_pos; [lra|apply Rlt_le, Rinv_0_lt_compat; lra]|].
      apply Rmult_le_reg_r with (sl_topP y - sl_botP y); [lra|]. unfold Rdiv. rewrite Rmult_assoc, Rinv_l by lra. lra. }
  match type of H with (if ?c then _ else _) = _ => destruct c end.
  - inv_as H as temp Ht. clear Ht.
    match type of H with context [if ?c then sl_topDepth y else temp] => set (t1 := if c then sl_topDepth y else temp) in H end.
    match type of H with context [if ?c then sl_botDepth y else t1] => set (t2 := if c then sl_botDepth y else t1) in H end.
    destruct ((Rltb t2 0 || false || false || Rltb t2 (sl_topDepth y) || Rltb (sl_botDepth y) t2)%bool) eqn:Eo.
    + destruct (Rltb _ (n_lit 5 0)); [|discriminate]. rewrite py_div_R in H by lra. cbn [bind] in H.
      match type of H with (if ?c then Ok ?v else _) = _ => destruct c; [|discriminate]; assert (E : z = v) by congruence end.
      replace ((sl_botDepth y - sl_topDepth y) / (sl_botP y - sl_topP y) * (p - sl_topP y) + sl_topDepth y)
        with ((p - sl_topP y) / (sl_botP y - sl_topP y) * (sl_botDepth y - sl_topDepth y) + sl_topDepth y) in E by (field; lra).
      set (q := (p - sl_topP y) / (sl_botP y - sl_topP y)) in *. nra.
    + apply orb_false_iff in Eo. destruct Eo as [Eo E2]. apply orb_false_iff in Eo. destruct Eo as [_ E1].
      destruct (Rltb_spec t2 (sl_topDepth y)); [discriminate|]. destruct (Rltb_spec (sl_botDepth y) t2); [discriminate|].
      cbn [andb] in H. injection H as <-. lra.
  - destruct (Reqb_spec (sl_topP y) (sl_botP y)); [contradiction|]. cbn [negb] in H. rewrite py_div_R in H by lra. cbn [bind] in H.
    match type of H with Ok ?v = _ => assert (E : z = v) by congruence end.
    replace (sl_botDepth y + (p - sl_botP y) * (sl_topDepth y - sl_botDepth y) / (sl_topP y - sl_botP y))
        with ((p - sl_topP y) / (sl_botP y - sl_topP y) * (sl_botDepth y - sl_topDepth y) + sl_topDepth y) in E by (field; lra).
    set (q := (p - sl_topP y) / (sl_botP y - sl_topP y)) in *. nra.
Qed.
Lemma depthFor_value : forall (y : slayer R) p rad z, bullenDepthFor y p rad = Ok z -> BullenSpec.thick y rad -> BullenSpec.slow_pos y -> 0 <= sl_topDepth y ->
  evaluateAtBullen y z rad = Ok p.
Proof.
  intros y p rad z H Hk Hp H0. destruct (BullenProps.C18_inverse y rad Hk Hp H0) as [A [_ [B [B' [C C']]]]].
  assert (Hs : 0 <= (sl_topP y - p) * (p - sl_botP y)).
  { unfold bullenDepthFor in H. cbn [n_leb n_sub n_mul Num_R] in H. rewrite n_0_R in H. destruct (Rleb_spec 0 ((sl_topP y - p) * (p - sl_botP y))); [assumption|discriminate]. }
  destruct (Req_dec p (sl_topP y)) as [->|N1]; [assert (z = sl_topDepth y) by congruence; subst; exact B'|].
  destruct (Req_dec p (sl_botP y)) as [->|N2]; [rewrite C in H by lra; assert (z = sl_botDepth y) by congruence; subst; exact C'|].
  destruct (A p) as [d [A1 [_ A2]]]; [|assert (z = d) by congruence; subst; exact A2].
  unfold BullenSpec.strictly_between. destruct (Rtotal_order (sl_topP y) p) as [X|[X|X]]; [left|lra|right]; nra.
Qed.
Lemma chain_snoc : forall z c z1 z2 tm d, chain z c z1 -> z1 <= z2 -> chain z (c ++ [(tm, d, z1, z2)]) z2.
Proof.
  intros z c z1 z2 tm d H Hz. induction H as [z|z u z1 t' d' c Hu Hc IH]; cbn [app].
  - constructor; [exact Hz|constructor].
  - constructor; [exact Hu|auto].
Qed.
Lemma crossed_chain : forall m w p, s_meet (sm_layers m w) -> s_upright (sm_layers m w) -> forall i y0, nth_error (sm_layers m w) i = Some y0 ->
  forall n c, crossed m w p i n c -> exists z, chain (sl_topDepth y0) c z /\ (n = i -> z = sl_topDepth y0) /\
    (forall n' y, n = S n' -> (i <= n')%nat -> nth_error (sm_layers m w) n' = Some y -> z = sl_botDepth y) /\
    (forall y, nth_error (sm_layers m w) n = Some y -> z = sl_topDepth y).
Proof.
  intros m w p Hm Hu i y0 H0 n c H.
  assert (Next : forall n y z, nth_error (sm_layers m w) n = Some y -> z = sl_botDepth y -> forall y', nth_error (sm_layers m w) (S n) = Some y' -> z = sl_topDepth y').
  { intros k y z Hy -> y' Hy'. apply Reqb_true. exact (Hm k y y' Hy Hy'). }
  induction H as [|n y c Hi Hy Hf Hc [z [C1 [C2 [C3 C4]]]]|n y c tm d Hi Hy Hf Hp Hc [z [C1 [C2 [C3 C4]]]]].
  - exists (sl_topDepth y0). split; [constructor|]. split; [auto|]. split; [intros; lia|]. intros y Hy. congruence.
  - exists z. split; [exact C1|]. split; [lia|]. assert (E := C4 y Hy). apply flat_R in Hf.
    assert (E' : z = sl_botDepth y) by lra.
    split; [|exact (Next n y z Hy E')]. intros n' u En _ Hn. injection En as <-. congruence.
  - assert (E := C4 y Hy). exists (sl_botDepth y). split.
    + rewrite <- E. apply chain_snoc; [exact C1|]. rewrite E. apply Rleb_le. apply Hu. eapply nth_error_In. exact Hy.
    + split; [lia|]. split; [|exact (Next n y _ Hy eq_refl)]. intros n' u En _ Hn. injection En as <-. congruence.
Qed.

(** the layers of a branch *)
Lemma leg_layers : forall (m : smodel R) w b i j y y', s_meet (sm_layers m w) -> s_upright (sm_layers m w) -> tb_top b < tb_bot b ->
  deepest (sm_layers m w) (tb_top b) i -> shallowest (sm_layers m w) (tb_bot b) j ->
  nth_error (sm_layers m w) i = Some y -> nth_error (sm_layers m w) j = Some y' ->
  sl_topDepth y = tb_top b -> sl_botDepth y' = tb_bot b -> (i <= j)%nat /\ (j < List.length (sm_layers m w))%nat /\ ~ flat y.
Proof.
  intros m w b i j y y' Hm Hu Hlt Hd Hsh Hy Hy' Et Eb.
  assert (Hj : (j < List.length (sm_layers m w))%nat) by (apply nth_error_Some; congruence).
  assert (Hij : (i <= j)%nat).
  { destruct (le_lt_dec i j) as [X|X]; [exact X|exfalso].
    assert (A := tops_below _ Hm Hu (i - S j) j y' y Hy'). replace (S j + (i - S j))%nat with i in A by lia. specialize (A Hy). apply Rleb_le in A. lra. }
  split; [exact Hij|]. split; [exact Hj|]. intros F. apply flat_R in F. destruct Hd as [_ Hd]. destruct Hsh as [_ Hsh].
  destruct (nth_error (sm_layers m w) (S i)) as [z|] eqn:Ez.
  - assert (X : (S i <= i)%nat); [|lia]. apply (Hd (S i) z Ez). assert (M := proj1 (Reqb_true _ _) (Hm i y z Hy Ez)). split; [apply Rleb_le; cbn in *; lra|].
    eapply (ord_trans (T := R)); [|apply Hu; eapply nth_error_In; exact Ez]. apply Rleb_le. lra.
  - apply nth_error_None in Ez. assert (i = j) by lia. subst j. assert (y = y') by congruence. subst. lra.
Qed.

Theorem leg_retrace : forall (m : smodel R) b p l l', let w := tb_isP b in
  s_meet (sm_layers m w) -> s_upright (sm_layers m w) -> tb_top b < tb_bot b -> steady m b -> p <= tb_maxRP b ->
  leg_points m w p b true l -> leg_points m w p b false l' ->
  exists c tail z, chain (tb_top b) c z /\ l = map (at_bottom p) c ++ tail /\ l' = rev (map (at_top p) c) /\
    (tail = [] \/ tail = [mkTD p 0 0 z]) /\
    (z = tb_bot b \/ exists y, In y (sm_layers m w) /\ holds y z /\ sl_botP y < p /\
       (sl_topDepth y < sl_botDepth y -> p <= sl_topP y /\
         (BullenSpec.thick y (sm_radius m) -> BullenSpec.slow_pos y -> 0 <= sl_topDepth y -> evaluateAtBullen y z (sm_radius m) = Ok p))).
Proof.
  intros m b p l l' w Hm Hu Hlt Hst Hp Hl Hl'. fold w in Hm, Hu.
  destruct Hl as [[X _]|[_ [_ [i [j [y [y' [Hd [Hsh [Hy [Et [Hy' [Eb Hl]]]]]]]]]]]]]; [apply Rltb_lt in X; lra|].
  destruct Hl' as [[X _]|[_ [_ [i' [j' [u [u' [Hd' [Hsh' [Hu1 [_ [Hu2 [_ Hl']]]]]]]]]]]]]; [apply Rltb_lt in X; lra|].
  assert (i' = i) by (exact (deepest_unique _ _ _ _ Hd' Hd)). assert (j' = j) by (exact (shallowest_unique _ _ _ _ Hsh' Hsh)). subst i' j'.
  apply Reqb_true in Et. apply Reqb_true in Eb.
  destruct (leg_layers m w b i j y y' Hm Hu Hlt Hd Hsh Hy Hy' Et Eb) as [Hij [Hj Nf]].
  destruct (retrace m w p i j Hj Hij y Hy Nf (Hst i j Hd Hsh) l l' Hl Hl') as [n [c [tail [Hn [-> [-> H]]]]]].
  assert (Up : forall v, In v (sm_layers m w) -> sl_topDepth v <= sl_botDepth v) by (intros v Hv; apply Rleb_le; apply Hu; exact Hv).
  assert (Turn : forall v z, In v (sm_layers m w) -> sl_botP v < p -> bullenDepthFor v p (sm_radius m) = Ok z -> ~ flat v ->
    exists y1, In y1 (sm_layers m w) /\ holds y1 z /\ sl_botP y1 < p /\ (sl_topDepth y1 < sl_botDepth y1 -> p <= sl_topP y1 /\
      (BullenSpec.thick y1 (sm_radius m) -> BullenSpec.slow_pos y1 -> 0 <= sl_topDepth y1 -> evaluateAtBullen y1 z (sm_radius m) = Ok p))).
  { intros v z Hv Hvp Hz _. exists v. split; [exact Hv|]. destruct (depthFor_range _ _ _ _ Hz (Up v Hv)) as [R1 R2].
    split; [split; apply Rleb_le; assumption|]. split; [exact Hvp|]. intros _. split.
    - unfold bullenDepthFor in Hz. cbn [n_leb n_sub n_mul Num_R] in Hz. rewrite n_0_R in Hz. destruct (Rleb_spec 0 ((sl_topP v - p) * (p - sl_botP v))); [nra|discriminate].
    - intros K1 K2 K3. eapply depthFor_value; eassumption. }
  destruct H as [[-> [Hc ->]]|[Hnj [v [Hv [Hvp H]]]]].
  - destruct (crossed_chain m w p Hm Hu i y Hy _ _ Hc) as [z [C1 [_ [C3 _]]]]. exists c, [], z. rewrite <- Et.
    split; [exact C1|]. split; [reflexivity|]. split; [reflexivity|]. split; [auto|]. left. rewrite <- Eb. exact (C3 j y' eq_refl Hij Hy').
  - assert (Hin := nth_error_In _ _ Hv). destruct H as [[Hc [Hf ->]]|[[Hc [Hf [Ep ->]]]|[c' [z [tm [d [Hc [Hf [Ht [-> ->]]]]]]]]]].
    + destruct (crossed_chain m w p Hm Hu i y Hy _ _ Hc) as [z [C1 [_ [_ C4]]]]. exists c, [], z. rewrite <- Et.
      split; [exact C1|]. split; [reflexivity|]. split; [reflexivity|]. split; [auto|]. right. exists v. assert (Ez := C4 v Hv). apply flat_R in Hf. split; [exact Hin|].
      split; [split; apply Rleb_le; lra|]. split; [exact Hvp|]. lra.
    + destruct (crossed_chain m w p Hm Hu i y Hy _ _ Hc) as [z [C1 [_ [_ C4]]]]. exists c, [mkTD p 0 0 z]. exists z. assert (Ez := C4 v Hv). rewrite <- Et, <- Ez.
      split; [exact C1|]. split; [reflexivity|]. split; [reflexivity|]. split; [auto|]. right. apply (Turn v z Hin Hvp); [|exact Hf]. rewrite flat_R in Hf.
      unfold bullenDepthFor. cbn [n_leb n_eqb n_sub n_mul Num_R]. rewrite n_0_R, Ep.
      destruct (Rleb_spec 0 ((sl_topP v - sl_topP v) * (sl_topP v - sl_botP v))); [|nra]. destruct (Reqb_spec (sl_topDepth v) (sl_botDepth v)); [contradiction|].
      destruct (Reqb_spec (sl_topP v) (sl_topP v)); [congruence|contradiction].
    + destruct (crossed_chain m w p Hm Hu i y Hy _ _ Hc) as [z1 [C1 [_ [_ C4]]]]. assert (Ez := C4 v Hv).
      assert (Hz : bullenDepthFor v p (sm_radius m) = Ok z) by apply Ht.
      destruct (depthFor_range _ _ _ _ Hz (Up v Hin)) as [R1 R2].
      exists (c' ++ [(tm, d, sl_topDepth v, z)]), [], z. rewrite <- Et. split; [rewrite <- Ez; apply chain_snoc; [exact C1|lra]|].
      split; [reflexivity|]. split; [reflexivity|]. split; [auto|]. right. exact (Turn v z Hin Hvp Hz Hf).
Qed.

(** ** totals *)
Lemma layer_flat : forall (m : smodel R) w p k y x, nth_error (sm_layers m w) k = Some y -> flat y -> layerTimeDist m p (Z.of_nat k) w = Ok x ->
  td_time x = 0 /\ td_dist x = 0.
Proof.
  intros m w p k y x Hy Hf H. unfold layerTimeDist in H. rewrite (proj2 (get_iff m w k y) Hy) in H. cbn [bind] in H.
  destruct (_ >? _)%num; [discriminate|]. destruct (_ <? _)%num; [discriminate|]. destruct (_ >? _)%num; [discriminate|].
  unfold flat in Hf. rewrite Hf in H. assert (E : x = td_new p) by congruence. subst x. unfold td_new. cbn [td_time td_dist]. rewrite n_0_R. auto.
Qed.
Lemma total_cons : forall {A} (f : A -> R) x l, total f (x :: l) = f x + total f l.
Proof. reflexivity. Qed.
Lemma total_nil : forall {A} (f : A -> R), total f [] = 0.
Proof. reflexivity. Qed.
Lemma total_rev : forall {A} (f : A -> R) l, total f (rev l) = total f l.
Proof. intros A f l. induction l as [|x l IH]; [reflexivity|]. cbn [rev]. rewrite total_app, IH, !total_cons, total_nil. ring. Qed.
Lemma crossed_total : forall (m : smodel R) w p i n c, crossed m w p i n c -> forall incs, List.length incs = (n - i)%nat ->
  (forall k x, nth_error incs k = Some x -> layerTimeDist m p (Z.of_nat (i + k)) w = Ok x) ->
  (total td_time (map (at_bottom p) c) = total td_time incs /\ total td_dist (map (at_bottom p) c) = total td_dist incs) /\
  (total td_time (map (at_top p) c) = total td_time incs /\ total td_dist (map (at_top p) c) = total td_dist incs).
Proof.
  intros m w p i n c H. induction H as [|n y c Hi Hy Hf Hc IH|n y c tm d Hi Hy Hf Hp Hc IH]; intros incs Hl Hx.
  - assert (incs = []) by (destruct incs; [reflexivity|cbn [List.length] in Hl; lia]). subst. auto.
  - destruct (exists_last (l := incs)) as [l0 [x ->]]; [intros ->; cbn [List.length] in Hl; lia|]. rewrite app_length in Hl. cbn [List.length] in Hl.
    destruct (IH l0 ltac:(lia)) as [[A1 A2] [A3 A4]].
    { intros k u Hu. apply Hx. rewrite nth_error_app1; [exact Hu|]. apply nth_error_Some. congruence. }
    assert (Ex : layerTimeDist m p (Z.of_nat n) w = Ok x).
    { replace n with (i + List.length l0)%nat by lia. apply Hx. rewrite nth_error_app2, Nat.sub_diag by lia. reflexivity. }
    destruct (layer_flat m w p n y x Hy Hf Ex) as [Z1 Z2]. rewrite !total_app, !total_cons, !total_nil, Z1, Z2, A1, A2, A3, A4. split; split; ring.
  - destruct (exists_last (l := incs)) as [l0 [x ->]]; [intros ->; cbn [List.length] in Hl; lia|]. rewrite app_length in Hl. cbn [List.length] in Hl.
    destruct (IH l0 ltac:(lia)) as [[A1 A2] [A3 A4]].
    { intros k u Hu. apply Hx. rewrite nth_error_app1; [exact Hu|]. apply nth_error_Some. congruence. }
    assert (Ex : layerTimeDist m p (Z.of_nat n) w = Ok x).
    { replace n with (i + List.length l0)%nat by lia. apply Hx. rewrite nth_error_app2, Nat.sub_diag by lia. reflexivity. }
    destruct Hp as [x' [Hp [<- <-]]]. assert (x' = x) by congruence. subst x'.
    rewrite !map_app, !total_app. cbn [map at_bottom at_top]. rewrite !total_cons, !total_nil, A1, A2, A3, A4. cbn [td_time td_dist]. split; split; ring.
Qed.
Lemma sum_total : forall l : list (timedist R), sum_dist l = total td_dist l /\ sum_time l = total td_time l.
Proof.
  assert (G : forall (f : timedist R -> R) l a, fold_left (fun s x => s + f x) l a = a + total f l).
  { intros f l. induction l as [|x l IH]; intros a; [cbn [fold_left]; rewrite total_nil; ring|]. cbn [fold_left]. rewrite IH, total_cons. ring. }
  intros l. unfold sum_dist, sum_time. cbn [n_add Num_R]. rewrite n_0_R. split; rewrite G; ring.
Qed.

Section Totals.
  Variables (m : smodel R) (w : bool) (p : R) (i j : nat) (y0 : slayer R).
  Let ls := sm_layers m w.
  Hypothesis Hj : (j < List.length ls)%nat.
  Hypothesis Hij : (i <= j)%nat.
  Hypothesis Hy0 : nth_error ls i = Some y0.
  Hypothesis Hf0 : ~ flat y0.
  Hypothesis Steady : falls ls i j \/ rises ls i j.

  (** above a layer with slowness at least [p] the layers are crossed *)
  Lemma steady_cross : (rises ls i j -> p <= sl_topP y0) -> forall k y, (i <= k <= j)%nat -> nth_error ls k = Some y -> p <= sl_botP y -> p <= sl_topP y.
  Proof.
    intros Hr k y Hk Hy Hp. destruct Steady as [F|F].
    - destruct (F k y ltac:(lia) Hy) as [A _]. lra.
    - specialize (Hr F). destruct (F i y0 ltac:(lia) Hy0) as [A _].
      destruct (Nat.eq_dec k i) as [->|Ne]; [rewrite Hy0 in Hy; injection Hy as <-; lra|].
      assert (C := rises_below m w i j Hj F (k - S i) i y0 y ltac:(lia) ltac:(lia) Hy0 ltac:(replace (i + S (k - S i))%nat with k by lia; exact Hy)). lra.
  Qed.
  Lemma not_spans : forall y, ~ spans y p -> sl_botP y < p -> p <= sl_topP y -> p = sl_topP y.
  Proof.
    intros y Hs Hb Ht. destruct (Rle_lt_or_eq_dec _ _ Ht) as [X|X]; [|exact X]. exfalso. apply Hs. unfold spans. cbn [n_ltb n_sub n_mul Num_R]. rewrite n_0_R.
    apply Rltb_true. nra.
  Qed.
  Lemma down_total : forall l incs, descent m w p (S j) i l -> descends m w p i j incs ->
    total td_time l = total td_time incs /\ total td_dist l = total td_dist incs.
  Proof.
    intros l incs Hd [Hlen [Hcr [Hinc Hend]]]. assert (Hr := down_rise m w p i j Hj Hij y0 Hy0 Hf0 l Hd).
    destruct (descent_crossed _ _ _ _ _ _ Hd ltac:(lia) ltac:(fold ls; lia)) as [n [c [tail [Hn [Hc [-> [Hb He]]]]]]].
    assert (En : n = (i + List.length incs)%nat).
    { destruct (lt_eq_lt_dec n (i + List.length incs)) as [[X|X]|X]; [exfalso|exact X|exfalso].
      - destruct He as [[En _]|[_ [y [Hy [Hyp _]]]]]; [lia|].
        assert (C := Hcr (n - i)%nat y ltac:(lia)). replace (i + (n - i))%nat with n in C by lia. destruct (C Hy) as [_ C2]. apply Rleb_le in C2. lra.
      - destruct Hend as [Hend|[y [Hy [Nc _]]]]; [lia|]. assert (Hp := Hb (i + List.length incs)%nat y ltac:(lia) Hy). apply Nc.
        assert (Ht := steady_cross Hr (i + List.length incs)%nat y ltac:(lia) Hy Hp). split; apply Rleb_le; assumption. }
    subst n. destruct (crossed_total m w p i _ c Hc incs ltac:(lia) Hinc) as [[T1 T2] _].
    rewrite !total_app, T1, T2.
    assert (Tz : total td_time tail = 0 /\ total td_dist tail = 0).
    { destruct He as [[_ ->]|[Hlt [y [Hy [Hyp Ht]]]]]; [auto|]. destruct Hend as [Hend|[y' [Hy' [_ Ns]]]]; [lia|].
      assert (y' = y) by (fold ls in Hy, Hy'; congruence). subst y'.
      destruct Ht as [[_ ->]|[Nf [z [tm [d [Ht ->]]]]]]; [auto|]. destruct (turns_slow m p y z tm d Ht Hyp Nf) as [A B].
      destruct (B (not_spans y Ns Hyp A)) as [-> [-> ->]]. rewrite !total_cons, !total_nil. cbn [td_time td_dist]. split; ring. }
    destruct Tz as [-> ->]. split; ring.
  Qed.
  Lemma crossed_slow : forall n c, crossed m w p i n c -> forall k y, (i <= k < n)%nat -> nth_error ls k = Some y -> ~ flat y -> p <= sl_topP y /\ p <= sl_botP y.
  Proof.
    intros n c H. induction H as [|n y c Hi Hy Hf Hc IH|n y c tm d Hi Hy Hf Hp Hc IH]; intros k u Hk Hu Nf; [lia|..].
    - destruct (Nat.eq_dec k n) as [->|Ne]; [fold ls in Hy; rewrite Hy in Hu; injection Hu as <-; contradiction|apply (IH k u); [lia|exact Hu|exact Nf]].
    - destruct (Nat.eq_dec k n) as [->|Ne]; [fold ls in Hy; rewrite Hy in Hu; injection Hu as <-; eapply passes_slow; eassumption|apply (IH k u); [lia|exact Hu|exact Nf]].
  Qed.
  Lemma up_total : forall l incs, ascent m w p i j l -> descends m w p i j incs ->
    total td_time l = total td_time incs /\ total td_dist l = total td_dist incs.
  Proof.
    intros l incs Ha [Hlen [Hcr [Hinc Hend]]]. assert (Hr := up_rise m w p i j Hj Hij y0 Hy0 Hf0 l Ha).
    destruct Ha as [e [y [He [Hy [Hs [Hcl Ha]]]]]]. fold ls in Hy, Hs.
    assert (Hrt : forall k u, rises ls i j -> (i <= k <= j)%nat -> nth_error ls k = Some u -> p <= sl_topP u /\ p <= sl_botP u).
    { intros k u F Hk Hu. destruct (F i y0 ltac:(lia) Hy0) as [A _]. destruct (F k u Hk Hu) as [B _]. specialize (Hr F).
      destruct (Nat.eq_dec k i) as [->|Ne]; [rewrite Hy0 in Hu; injection Hu as <-; lra|].
      assert (C := rises_below m w i j Hj F (k - S i) i y0 u ltac:(lia) ltac:(lia) Hy0 ltac:(replace (i + S (k - S i))%nat with k by lia; exact Hu)). lra. }
    (* layers above e are crossed *)
    assert (Above : forall k u, (i <= k < e)%nat -> nth_error ls k = Some u -> p <= sl_topP u /\ p <= sl_botP u).
    { intros k u Hk Hu. destruct Steady as [F|F]; [|apply (Hrt k u F); [lia|exact Hu]].
      destruct Hcl as [->|[X _]]; [lia|]. apply leb_R_false in X. destruct (F k u ltac:(lia) Hu) as [A _].
      assert (C := falls_below m w i j Hj F (e - S k) k u y ltac:(lia) ltac:(lia) Hu ltac:(replace (k + S (e - S k))%nat with e by lia; exact Hy)). lra. }
    assert (Nfe : ~ flat y). { destruct Hcl as [->|[_ X]]; [|exact X]. rewrite Hy0 in Hy. injection Hy as <-. exact Hf0. }
    assert (Low : (e <= i + List.length incs)%nat).
    { destruct (le_lt_dec e (i + List.length incs)) as [X|X]; [exact X|exfalso]. destruct Hend as [Hend|[u [Hu [Nc _]]]]; [lia|].
      destruct (Above (i + List.length incs)%nat u ltac:(lia) Hu) as [A B]. apply Nc. split; apply Rleb_le; assumption. }
    destruct Ha as [[Hb Ha]|[Hb [z [tm [d [l' [Ht [Ha ->]]]]]]]].
    - apply ltb_R_false in Hb. destruct (climb_crossed _ _ _ _ _ _ Ha) as [c [Hc ->]].
      assert (Cr : p <= sl_topP y) by (apply (steady_cross Hr e y); [lia|exact Hy|exact Hb]).
      assert (Low2 : (S e <= i + List.length incs)%nat).
      { destruct (Nat.eq_dec e (i + List.length incs)) as [X|X]; [exfalso|lia]. destruct Hend as [Hend|[u [Hu [Nc _]]]]; [lia|].
        fold ls in Hu. rewrite <- X, Hy in Hu. injection Hu as <-. apply Nc. split; apply Rleb_le; assumption. }
      assert (Hc' : crossed m w p i (i + List.length incs) c).
      { apply (crossed_flats m w p i (S e)); [exact Hc|lia|fold ls; lia|]. intros k u Hk Hu. fold ls in Hu. destruct (flat_dec u) as [X|X]; [exact X|exfalso].
        assert (C := Hcr (k - i)%nat u ltac:(lia)). replace (i + (k - i))%nat with k in C by lia. destruct (C Hu) as [_ C2]. apply Rleb_le in C2.
        assert (A := steady_pass m w p i j Hj Hij y0 Hy0 Hf0 Steady Hr k u ltac:(lia) Hu X C2).
        destruct (Hs k u ltac:(lia) Hu) as [B|B]; [apply Rleb_le in B; lra|contradiction]. }
      destruct (crossed_total m w p i _ c Hc' incs ltac:(lia) Hinc) as [_ [T3 T4]]. rewrite !total_rev. auto.
    - apply Rltb_lt in Hb. destruct (climb_crossed _ _ _ _ _ _ Ha) as [c [Hc ->]]. destruct (turns_slow m p y z tm d Ht Hb Nfe) as [A B].
      assert (Ee : e = (i + List.length incs)%nat).
      { destruct (Nat.eq_dec e (i + List.length incs)) as [X|X]; [exact X|exfalso].
        assert (C := Hcr (e - i)%nat y ltac:(lia)). replace (i + (e - i))%nat with e in C by lia. destruct (C Hy) as [_ C2]. apply Rleb_le in C2. lra. }
      assert (Ns : ~ spans y p). { destruct Hend as [Hend|[u [Hu [_ Ns]]]]; [lia|]. fold ls in Hu. rewrite <- Ee, Hy in Hu. injection Hu as <-. exact Ns. }
      destruct (B (not_spans y Ns Hb A)) as [_ [-> ->]]. rewrite Ee in Hc.
      destruct (crossed_total m w p i _ c Hc incs ltac:(lia) Hinc) as [_ [T3 T4]]. rewrite !total_cons, !total_rev. cbn [td_time td_dist]. rewrite T3, T4. split; ring.
  Qed.
End Totals.

Theorem leg_total : forall (m : smodel R) b p down l dist time tau, let w := tb_isP b in
  s_meet (sm_layers m w) -> s_upright (sm_layers m w) -> tb_top b < tb_bot b -> steady m b ->
  leg_points m w p b down l -> ray_values m w b p dist time tau -> total td_dist l = dist /\ total td_time l = time.
Proof.
  intros m b p down l dist time tau w Hm Hu Hlt Hst Hl [_ Hv]. fold w in Hm, Hu.
  destruct Hl as [[X ->]|[X [_ [i [j [y [y' [Hd [Hsh [Hy [Et [Hy' [Eb Hl]]]]]]]]]]]]].
  - apply Rltb_lt in X. destruct Hv as [[_ [-> ->]]|[V _]]; [rewrite !total_nil, n_0_R; auto|]. apply Rleb_le in V. lra.
  - apply ltb_R_false in X. destruct Hv as [[V _]|[_ [i' [j' [incs [Hd' [Hsh' [Hi [-> ->]]]]]]]]]; [apply leb_R_false in V; lra|].
    assert (i' = i) by exact (deepest_unique _ _ _ _ Hd' Hd). assert (j' = j) by exact (shallowest_unique _ _ _ _ Hsh' Hsh). subst i' j'.
    apply Reqb_true in Et. apply Reqb_true in Eb.
    destruct (leg_layers m w b i j y y' Hm Hu Hlt Hd Hsh Hy Hy' Et Eb) as [Hij [Hj Nf]].
    destruct Hi as [Hi|[Hi _]]; [|lia]. destruct (sum_total incs) as [-> ->].
    destruct down.
    + destruct (down_total m w p i j y Hj Hij Hy Nf (Hst i j Hd Hsh) l incs Hl Hi). auto.
    + destruct (up_total m w p i j y Hj Hij Hy Nf (Hst i j Hd Hsh) l incs Hl Hi). auto.
Qed.

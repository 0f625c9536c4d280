(** Proofs for PathProps.v. *)
From Coq Require Import ZArith Bool List String Lia.
From Verif Require Import Base Num VelocityModel SlownessLayer SlownessModel SlowSpec SlowProofs TauModel SeismicPhase TauSpec
  CurveSpec CurveProofs PierceSpec PathSpec.
Import ListNotations.
Local Open Scope list_scope.

Lemma get_iff : forall {T} {N : Num T} (m : smodel T) w k y,
  getSlownessLayer m (Z.of_nat k) w = Ok y <-> nth_error (sm_layers m w) k = Some y.
Proof.
  intros T N m w k y. unfold getSlownessLayer. rewrite py_index_nat. destruct (nth_error (sm_layers m w) k); split; congruence.
Qed.

Section Leg.
  Context {T : Type} {N : Num T} {L : Libm T}.
  Variables (m : smodel T) (w : bool) (p : T).
  Local Open Scope num_scope.
  Let ls := sm_layers m w.

  Lemma layer_p : forall k x, layerTimeDist m p k w = Ok x -> td_p x = p.
  Proof.
    intros k x H. unfold layerTimeDist in H. inv_as H as y Hy.
    destruct (p >? py_max (sl_topP y) (sl_botP y)); [discriminate|]. destruct (p <? n_0); [discriminate|].
    destruct (p >? py_min (sl_topP y) (sl_botP y)); [discriminate|].
    destruct (sl_topDepth y =? sl_botDepth y); [injection H as <-; reflexivity|].
    destruct ((p =? n_0) && (sl_botDepth y =? sm_radius m)).
    - destruct (negb _); [discriminate|]. inv_as H as dd Hd. destruct (_ || _); [discriminate|]. injection H as <-. reflexivity.
    - inv_as H as v1 H1. inv_as H as v2 H2. destruct (n_abs (v1 - v2) <? sm_tolerance m).
      + unfold constVelTimeDist in H. inv_as H as v Hv. inv_as H as st Hs. inv_as H as sb Hb. inv_as H as tm Ht. inv_as H as q Hq.
        inv_as H as di Hi. destruct (_ || _); [discriminate|]. injection H as <-. reflexivity.
      + unfold bullenRadialSlowness in H. destruct (sl_botDepth y =? sl_topDepth y); [injection H as <-; reflexivity|].
        destruct (_ <? _); [injection H as <-; reflexivity|].
        do 11 (inv_bind H). destruct (_ || _); [discriminate|]. injection H as <-. reflexivity.
  Qed.
  Lemma bullen_p : forall y q x rad, bullenRadialSlowness y q rad = Ok x -> td_p x = q.
  Proof.
    intros y q x rad H. unfold bullenRadialSlowness in H. destruct (sl_botDepth y =? sl_topDepth y); [injection H as <-; reflexivity|].
    destruct (_ <? _); [injection H as <-; reflexivity|].
    do 11 (inv_bind H). destruct (_ || _); [discriminate|]. injection H as <-. reflexivity.
  Qed.
  Lemma passes_iff : forall k z x, layerTimeDist m p (Z.of_nat k) w = Ok x ->
    passes m w p k (td_time x) (td_dist x) /\ td_at x z = mkTD p (td_time x) (td_dist x) z.
  Proof. intros k z x H. split; [exists x; auto|]. unfold td_at. rewrite (layer_p _ _ H). reflexivity. Qed.
  Lemma turns_iff : forall y td z, turn_td m y p = Ok (td, z) <->
    turns m p y z (td_time td) (td_dist td) /\
    bullenRadialSlowness (mkSL (-1) (sl_topP y) (sl_topDepth y) p z) p (sm_radius m) = Ok td.
  Proof.
    intros y td z. unfold turn_td, turns. split.
    - intros H. inv_as H as z' Hz. inv_as H as ty Hy. inv_as H as td' Ht. injection H as <- <-.
      unfold new_slayer in Hy. destruct (n_0 <=? sl_topDepth y) eqn:E1; [|discriminate]. destruct (n_0 <=? z') eqn:E2; [|discriminate].
      injection Hy as <-. split; [|exact Ht]. split; [exact Hz|]. split; [reflexivity|]. split; [reflexivity|]. eauto.
    - intros [[Hz [E1 [E2 _]]] Ht]. rewrite Hz. cbn [bind]. unfold new_slayer. rewrite E1, E2. cbn [bind]. rewrite Ht. reflexivity.
  Qed.
  Lemma turns_td : forall y z tm d, turns m p y z tm d ->
    exists x, turn_td m y p = Ok (x, z) /\ forall z', td_at x z' = mkTD p tm d z'.
  Proof.
    intros y z tm d H. assert (H' := H). destruct H' as [_ [_ [_ [x [Hx [<- <-]]]]]]. exists x. split.
    - apply turns_iff. split; [|exact Hx]. exact H.
    - intros z'. unfold td_at. rewrite (bullen_p _ _ _ _ Hx). reflexivity.
  Qed.
  Lemma flat_b : forall y : slayer T, hasZeroThickness y = true <-> flat y.
  Proof. reflexivity. Qed.
  Lemma push_ok : forall cap acc (x : timedist T) r, path_push cap acc x = Ok r -> r = acc ++ [x] /\ (List.length acc < cap)%nat.
  Proof. intros cap acc x r H. unfold path_push in H. destruct (Nat.ltb_spec (List.length acc) cap); [|discriminate]. injection H as <-. auto. Qed.
  Lemma push_some : forall cap acc (x : timedist T), (List.length acc < cap)%nat -> path_push cap acc x = Ok (acc ++ [x]).
  Proof. intros cap acc x H. unfold path_push. destruct (Nat.ltb_spec (List.length acc) cap); [reflexivity|lia]. Qed.

  Definition last_bit (y : slayer T) (l : list (timedist T)) : Prop :=
    (flat y /\ l = []) \/ (~ flat y /\ exists z tm d, turns m p y z tm d /\ l = [mkTD p tm d z]).
  Definition rest_bit (o : option (slayer T)) (l : list (timedist T)) : Prop :=
    match o with None => l = [] | Some y => last_bit y l end.
  Lemma stop : forall e k y l, (k < e)%nat -> nth_error ls k = Some y -> p <=? sl_botP y = false -> last_bit y l -> descent m w p e k l.
  Proof.
    intros e k y l Hk Hy Hp [[F ->]|[F [z [tm [d [Ht ->]]]]]]; [eapply de_stop; eauto|eapply de_turn; eauto].
  Qed.

  Lemma down_sound : forall cap n k y acc acc' o,
    nth_error ls k = Some y -> path_down m w p cap n (Z.of_nat k) y acc = Ok (acc', o) ->
    exists l, acc' = acc ++ l /\ forall tail, rest_bit o tail -> descent m w p (k + n) k (l ++ tail).
  Proof.
    intros cap n. induction n as [|n IH]; intros k y acc acc' o Hy H; cbn [path_down] in H.
    - injection H as <- <-. exists []. rewrite app_nil_r. split; [reflexivity|]. intros tail ->. apply de_end. lia.
    - destruct (p <=? sl_botP y) eqn:Ep.
      2:{ injection H as <- <-. exists []. rewrite app_nil_r. split; [reflexivity|]. intros tail Ht. cbn [app]. apply (stop _ _ y); auto; lia. }
      inv_as H as acc1 H1.
      assert (Next : exists l, acc' = acc1 ++ l /\ forall tail, rest_bit o tail -> descent m w p (k + S n) (S k) (l ++ tail)).
      { destruct n as [|n].
        - injection H as <- <-. exists []. rewrite app_nil_r. split; [reflexivity|]. intros tail ->. apply de_end. lia.
        - inv_as H as y' Hy'. replace (Z.of_nat k + 1)%Z with (Z.of_nat (S k)) in * by lia.
          apply get_iff in Hy'. apply (IH (S k) y') in H; [|exact Hy'].
          replace (S k + S n)%nat with (k + S (S n))%nat in H by lia. exact H. }
      destruct Next as [l [-> Hl]].
      destruct (hasZeroThickness y) eqn:Ez; cbn [negb] in H1.
      + injection H1 as <-. exists l. split; [reflexivity|]. intros tail Ht. eapply de_flat; eauto. lia.
      + inv_as H1 as td Hd. apply push_ok in H1. destruct H1 as [-> _]. destruct (passes_iff k (sl_botDepth y) td Hd) as [P1 P2]. rewrite P2.
        exists (mkTD p (td_time td) (td_dist td) (sl_botDepth y) :: l). split; [rewrite <- app_assoc; reflexivity|].
        intros tail Ht. cbn [app]. eapply de_pass; eauto; [lia|]. unfold flat. fold (hasZeroThickness y). congruence.
  Qed.
  Lemma down_complete : forall cap n k y acc l,
    nth_error ls k = Some y -> (k + n <= List.length ls)%nat -> (List.length acc + n <= cap)%nat ->
    descent m w p (k + n) k l ->
    exists l1 tail o, l = l1 ++ tail /\ path_down m w p cap n (Z.of_nat k) y acc = Ok (acc ++ l1, o) /\ rest_bit o tail /\
      (List.length l1 + match o with None => 0 | Some _ => 1 end <= n)%nat.
  Proof.
    intros cap n. induction n as [|n IH]; intros k y acc l Hy Hn Hc H; cbn [path_down].
    - exists [], [], None. rewrite (app_nil_r acc). inversion H; subst; try lia. split; [reflexivity|]. split; [reflexivity|]. split; [reflexivity|cbn; lia].
    - assert (Next : forall acc1 l', (List.length acc1 + n <= cap)%nat -> descent m w p (k + S n) (S k) l' ->
        exists l1 tail o, l' = l1 ++ tail /\
          match n with 0%nat => Ok (acc1, None) | S _ => let! y := getSlownessLayer m (Z.of_nat k + 1) w in path_down m w p cap n (Z.of_nat k + 1) y acc1 end
            = Ok (acc1 ++ l1, o) /\ rest_bit o tail /\ (List.length l1 + match o with None => 0 | Some _ => 1 end <= n)%nat).
      { intros acc1 l' Hc' Hd. destruct n as [|n].
        - exists [], [], None. rewrite (app_nil_r acc1). inversion Hd; subst; try lia. split; [reflexivity|]. split; [reflexivity|]. split; [reflexivity|cbn; lia].
        - replace (Z.of_nat k + 1)%Z with (Z.of_nat (S k)) by lia. unfold getSlownessLayer. rewrite py_index_nat. fold ls.
          destruct (nth_error ls (S k)) as [y'|] eqn:Ey'; [|apply nth_error_None in Ey'; lia]. cbn [bind].
          apply IH; try assumption; try lia. replace (S k + S n)%nat with (k + S (S n))%nat by lia. exact Hd. }
      inversion H as [k' Hk|k' y' l' Hk Hy' Hp Hf Hd|k' y' l' tm d Hk Hy' Hp Hf Hps Hd|k' y' z tm d Hk Hy' Hp Hf Ht|k' y' Hk Hy' Hp Hf]; subst k'; [lia|..];
        fold ls in Hy'; rewrite Hy in Hy'; injection Hy' as <-; rewrite Hp.
      + assert (Ez : hasZeroThickness y = true) by exact Hf. rewrite Ez. cbn [negb bind].
        destruct (Next acc l ltac:(lia) Hd) as [l1 [tail [o [-> [E [R Le]]]]]]. exists l1, tail, o. rewrite E. split; [reflexivity|]. split; [reflexivity|]. split; [exact R|lia].
      + assert (Ez : hasZeroThickness y = false). { destruct (hasZeroThickness y) eqn:Ez; [|reflexivity]. exfalso. apply Hf. exact Ez. }
        rewrite Ez. cbn [negb]. destruct Hps as [x [Hx [<- <-]]]. rewrite Hx. cbn [bind]. rewrite (push_some cap acc) by lia. cbn [bind].
        destruct (passes_iff k (sl_botDepth y) x Hx) as [_ P2]. rewrite P2.
        destruct (Next (acc ++ [mkTD p (td_time x) (td_dist x) (sl_botDepth y)]) l' ltac:(rewrite app_length; cbn; lia) Hd) as [l1 [tail [o [-> [E [R Le]]]]]].
        exists (mkTD p (td_time x) (td_dist x) (sl_botDepth y) :: l1), tail, o. rewrite E, <- app_assoc. cbn [app List.length]. split; [reflexivity|]. split; [reflexivity|]. split; [exact R|lia].
      + subst l. exists [], [mkTD p tm d z], (Some y). rewrite (app_nil_r acc). cbn [app List.length rest_bit]. split; [reflexivity|]. split; [reflexivity|]. split; [|lia]. right. split; [exact Hf|]. eauto.
      + subst l. exists [], [], (Some y). rewrite (app_nil_r acc). cbn [app List.length rest_bit]. split; [reflexivity|]. split; [reflexivity|]. split; [|lia]. left. auto.
  Qed.

  (** upwards *)
  Lemma climb_inv : forall i k l, climb m w p i (S k) l -> (i <= k)%nat ->
    exists y, nth_error ls k = Some y /\
      ((flat y /\ climb m w p i k l) \/
       (~ flat y /\ exists tm d l', passes m w p k tm d /\ climb m w p i k l' /\ l = mkTD p tm d (sl_topDepth y) :: l')).
  Proof.
    intros i k l H Hk. remember (S k) as n eqn:En. destruct H as [|k' y l Hi Hy Hf Hl|k' y l tm d Hi Hy Hf Hp Hl]; [lia|..]; injection En as ->.
    - exists y. auto.
    - exists y. split; [exact Hy|]. right. split; [exact Hf|]. exists tm, d, l. auto.
  Qed.
  Lemma climb_nil : forall i l, climb m w p i i l -> l = [].
  Proof. intros i l H. remember i as n eqn:En in H at 2. destruct H; [reflexivity|lia|lia]. Qed.
  Lemma up_sound : forall i cap k y acc r, nth_error ls (i + k) = Some y ->
    path_up m w p (Z.of_nat i) cap k y acc = Ok r ->
    exists l, r = acc ++ l /\ climb m w p i (S (i + k)) l.
  Proof.
    intros i cap k. induction k as [|k IH]; intros y acc r Hy H; cbn [path_up] in H.
    all: inv_as H as acc1 H1.
    all: assert (Own : forall l', climb m w p i (i + _) l' -> exists l, acc1 ++ l' = acc ++ l /\ climb m w p i (S (i + _)) l) by
     (intros l' Hl; destruct (hasZeroThickness y) eqn:Ez; cbn [negb] in H1;
      [injection H1 as <-; exists l'; split; [reflexivity|]; eapply cl_flat; eauto; lia
      |inv_as H1 as td Hd; apply push_ok in H1; destruct H1 as [-> _]; rewrite <- Nat2Z.inj_add in Hd;
       destruct (passes_iff _ (sl_topDepth y) td Hd) as [P1 P2]; rewrite P2;
       eexists (_ :: l'); rewrite <- app_assoc; split; [reflexivity|]; eapply cl_pass; eauto;
       [lia|unfold flat; fold (hasZeroThickness y); congruence]]).
    - injection H as <-. destruct (Own [] ltac:(rewrite Nat.add_0_r; constructor)) as [l [E Hl]]. rewrite app_nil_r in E. exists l. auto.
    - inv_as H as y' Hy'. rewrite <- Nat2Z.inj_add in Hy'. apply get_iff in Hy'.
      apply (IH y' acc1) in H; [|exact Hy']. destruct H as [l' [-> Hl]]. replace (S (i + k)) with (i + S k)%nat in Hl by lia. apply Own. exact Hl.
  Qed.
  Lemma up_complete : forall i cap k y acc l, nth_error ls (i + k) = Some y -> (List.length acc + S k <= cap)%nat ->
    climb m w p i (S (i + k)) l -> path_up m w p (Z.of_nat i) cap k y acc = Ok (acc ++ l).
  Proof.
    intros i cap k. induction k as [|k IH]; intros y acc l Hy Hc H; cbn [path_up].
    all: destruct (climb_inv _ _ _ H ltac:(lia)) as [y' [Hy' [[Hf Hl]|[Hf [tm [d [l' [Hp [Hl ->]]]]]]]]];
      rewrite Hy in Hy'; injection Hy' as <-.
    - assert (Ez : hasZeroThickness y = true) by exact Hf. rewrite Ez. cbn [negb bind].
      rewrite Nat.add_0_r in Hl. apply climb_nil in Hl. subst l. rewrite app_nil_r. reflexivity.
    - assert (Ez : hasZeroThickness y = false). { destruct (hasZeroThickness y) eqn:Ez; [|reflexivity]. exfalso. apply Hf. exact Ez. }
      rewrite Ez. cbn [negb]. destruct Hp as [x [Hx [<- <-]]]. rewrite <- Nat2Z.inj_add, Hx. cbn [bind]. rewrite (push_some cap acc) by lia. cbn [bind].
      destruct (passes_iff _ (sl_topDepth y) x Hx) as [_ ->].
      rewrite Nat.add_0_r in Hl. apply climb_nil in Hl. subst l'. reflexivity.
    - assert (Ez : hasZeroThickness y = true) by exact Hf. rewrite Ez. cbn [negb bind]. rewrite <- Nat2Z.inj_add.
      destruct (nth_error ls (i + k)) as [y'|] eqn:Ey'.
      2:{ apply nth_error_None in Ey'. assert (X : nth_error ls (i + S k) <> None) by congruence. apply nth_error_Some in X. lia. }
      rewrite (proj2 (get_iff m w (i + k) y') Ey'). cbn [bind]. apply IH; [reflexivity|lia|]. replace (S (i + k)) with (i + S k)%nat by lia. exact Hl.
    - assert (Ez : hasZeroThickness y = false). { destruct (hasZeroThickness y) eqn:Ez; [|reflexivity]. exfalso. apply Hf. exact Ez. }
      rewrite Ez. cbn [negb]. destruct Hp as [x [Hx [<- <-]]]. rewrite <- !Nat2Z.inj_add, Hx. cbn [bind]. rewrite (push_some cap acc) by lia. cbn [bind].
      destruct (passes_iff _ (sl_topDepth y) x Hx) as [_ ->].
      destruct (nth_error ls (i + k)) as [y'|] eqn:Ey'.
      2:{ apply nth_error_None in Ey'. assert (X : nth_error ls (i + S k) <> None) by congruence. apply nth_error_Some in X. lia. }
      rewrite (proj2 (get_iff m w (i + k) y') Ey'). cbn [bind]. rewrite (IH y' _ l' eq_refl); [rewrite <- app_assoc; reflexivity|rewrite app_length; cbn; lia|].
      replace (S (i + k)) with (i + S k)%nat by lia. exact Hl.
  Qed.
  Lemma skip_sound : forall i k y k' y', nth_error ls (i + k) = Some y ->
    path_up_skip m w p (Z.of_nat i) k y = Ok (k', y') ->
    (k' <= k)%nat /\ nth_error ls (i + k') = Some y' /\
    (forall n z, (i + k' < n <= i + k)%nat -> nth_error ls n = Some z -> sl_topP z <=? p = true \/ flat z) /\
    (k' = 0%nat \/ sl_topP y' <=? p = false /\ ~ flat y').
  Proof.
    intros i k. induction k as [|k IH]; intros y k' y' Hy H; cbn [path_up_skip] in H.
    - injection H as <- <-. split; [lia|]. split; [exact Hy|]. split; [intros n z Hn; lia|auto].
    - destruct ((sl_topP y <=? p) || hasZeroThickness y) eqn:E.
      + inv_as H as u Hu. rewrite <- Nat2Z.inj_add in Hu. apply get_iff in Hu.
        assert (Hu' : nth_error ls (i + k) = Some u) by exact Hu.
        apply (IH _ _ _ Hu') in H. destruct H as [A [B [C D]]]. split; [lia|]. split; [exact B|]. split; [|exact D].
        intros n z Hn Hz. destruct (Nat.eq_dec n (i + S k)) as [->|Ne]; [|apply (C n z); [lia|exact Hz]].
        rewrite Hy in Hz. injection Hz as <-. apply orb_true_iff in E. exact E.
      + injection H as <- <-. split; [lia|]. split; [exact Hy|]. split; [intros n z Hn; lia|]. right. apply orb_false_iff in E. destruct E as [E1 E2].
        split; [exact E1|]. unfold flat. fold (hasZeroThickness y). congruence.
  Qed.
  Lemma skip_complete : forall i k y k' y', nth_error ls (i + k) = Some y -> (k' <= k)%nat -> nth_error ls (i + k') = Some y' ->
    (forall n z, (i + k' < n <= i + k)%nat -> nth_error ls n = Some z -> sl_topP z <=? p = true \/ flat z) ->
    (k' = 0%nat \/ sl_topP y' <=? p = false /\ ~ flat y') ->
    path_up_skip m w p (Z.of_nat i) k y = Ok (k', y').
  Proof.
    intros i k. induction k as [|k IH]; intros y k' y' Hy Hk Hy' Hs He; cbn [path_up_skip].
    - assert (k' = 0%nat) by lia. subst. rewrite Hy in Hy'. injection Hy' as <-. reflexivity.
    - destruct (Nat.eq_dec k' (S k)) as [->|Ne].
      + rewrite Hy in Hy'. injection Hy' as <-. destruct He as [He|[E1 E2]]; [lia|].
        rewrite E1. destruct (hasZeroThickness y) eqn:Ez; [exfalso; apply E2; exact Ez|]. reflexivity.
      + replace ((sl_topP y <=? p) || hasZeroThickness y) with true.
        2:{ symmetry. apply orb_true_iff. apply (Hs (i + S k)%nat y); [lia|exact Hy]. }
        rewrite <- Nat2Z.inj_add. unfold getSlownessLayer. rewrite py_index_nat. fold ls.
        destruct (nth_error ls (i + k)) as [u|] eqn:Eu.
        2:{ apply nth_error_None in Eu. assert (X : nth_error ls (i + S k) <> None) by congruence. apply nth_error_Some in X. lia. }
        cbn [bind]. apply IH; auto; try lia. intros n z Hn. apply Hs. lia.
  Qed.
End Leg.

Section Branch.
  Context {T : Type} {N : Num T} {L : Libm T} {O : NumOrd T}.
  Local Open Scope num_scope.

  Lemma num_above_nat : forall fuel (m : smodel T) w x j, layerNumberAbove fuel m x w = Ok j -> s_meet (sm_layers m w) ->
    s_upright (sm_layers m w) -> n_ok x -> (0 <= j)%Z.
  Proof. intros fuel m w x j H Hm Hu Hx. apply above_sound in H; tauto. Qed.
  Lemma num_below_nat : forall fuel (m : smodel T) w x j, layerNumberBelow fuel m x w = Ok j -> s_meet (sm_layers m w) ->
    s_upright (sm_layers m w) -> n_ok x -> (0 <= j)%Z.
  Proof. intros fuel m w x j H Hm Hu Hx. apply below_sound in H; tauto. Qed.

  Lemma tops_below : forall (ls : list (slayer T)), s_meet ls -> s_upright ls -> forall n i y z,
    nth_error ls i = Some y -> nth_error ls (S i + n) = Some z -> sl_botDepth y <=? sl_topDepth z = true.
  Proof.
    intros ls Hm Hu n. induction n as [|n IH]; intros i y z Hy Hz.
    - replace (S i + 0)%nat with (S i) in Hz by lia. apply eqb_leb. exact (Hm i y z Hy Hz).
    - destruct (nth_error ls (S i)) as [v|] eqn:Ev.
      + eapply ord_trans; [apply eqb_leb; exact (Hm i y v Hy Ev)|]. eapply ord_trans; [apply Hu; eapply nth_error_In; exact Ev|].
        apply (IH (S i) v z Ev). replace (S (S i) + n)%nat with (S i + S n)%nat by lia. exact Hz.
      + apply nth_error_None in Ev. assert (X : nth_error ls (S i + S n) <> None) by congruence. apply nth_error_Some in X. lia.
  Qed.

  Lemma tb_path_iff : forall fuel (b : tbranch T) p down (m : smodel T),
    let w := tb_isP b in
    s_meet (sm_layers m w) -> s_upright (sm_layers m w) -> tb_top b <? tb_bot b = true ->
    (List.length (sm_layers m w) <= fuel)%nat ->
    (tb_path fuel b p down m = Ok None <-> tb_maxRP b <? p = true) /\
    forall l, (tb_path fuel b p down m = Ok (Some l) <-> tb_maxRP b <? p = false /\ leg_points m w p b down l).
  Proof.
    intros fuel b p down m w Hm Hu Hlt Hf. destruct (ord_ltb_ok _ _ Hlt) as [Ot Ob].
    unfold tb_path. fold w. destruct (tb_maxRP b <? p) eqn:Emx.
    { split; [tauto|]. intros l. split; [discriminate|intros [X _]; discriminate]. }
    assert (Some_only : forall l, (exists i j y y', deepest (sm_layers m w) (tb_top b) i /\ shallowest (sm_layers m w) (tb_bot b) j /\
       nth_error (sm_layers m w) i = Some y /\ sl_topDepth y =? tb_top b = true /\
       nth_error (sm_layers m w) j = Some y' /\ sl_botDepth y' =? tb_bot b = true /\
       (if down then descent m w p (S j) i l else ascent m w p i j l)) -> n_0 <=? p = true -> leg_points m w p b down l).
    { intros l H H0. right. auto. }
    set (body := let! _ := guard (p >=? n_0) AssertionError in _).
    assert (Main : forall o, body = Ok o -> exists l, o = Some l /\ leg_points m w p b down l).
    { intros o H. unfold body in H. clear body. inv_as H as u0 Hg. unfold guard in Hg. destruct (n_0 <=? p) eqn:E0; [|discriminate]. clear Hg u0.
      inv_as H as tn Htn. inv_as H as bn Hbn.
      assert (Pt := num_below_nat _ _ _ _ _ Htn Hm Hu Ot). assert (Pb := num_above_nat _ _ _ _ _ Hbn Hm Hu Ob).
      rewrite <- (Z2Nat.id tn Pt) in *. rewrite <- (Z2Nat.id bn Pb) in *. set (i := Z.to_nat tn) in *. set (j := Z.to_nat bn) in *. clearbody i j.
      apply below_iff_s in Htn; [|assumption..]. apply above_iff_s in Hbn; [|assumption..].
      inv_as H as ts Hts. apply get_iff in Hts.
      destruct (sl_topDepth ts =? tb_top b) eqn:Et; [|discriminate H]. cbn [negb] in H.
      inv_as H as bs Hbs. apply get_iff in Hbs.
      destruct (sl_botDepth bs =? tb_bot b) eqn:Eb; [|discriminate H]. cbn [negb] in H.
      assert (Hij : (i <= j)%nat).
      { destruct (le_lt_dec i j) as [X|X]; [exact X|exfalso].
        assert (X' : sl_botDepth bs <=? sl_topDepth ts = true).
        { apply (tops_below _ Hm Hu (i - S j) j bs ts Hbs). replace (S j + (i - S j))%nat with i by lia. exact Hts. }
        assert (Y : tb_bot b <=? tb_top b = true).
        { eapply ord_trans; [apply eqb_geb; exact Eb|]. eapply ord_trans; [exact X'|]. apply eqb_leb. exact Et. }
        assert (Z1 := ltb_not_leb _ _ Hlt). congruence. }
      assert (Com : forall l, (if down then descent m w p (S j) i l else ascent m w p i j l) -> leg_points m w p b down l).
      { intros l Hl. apply Some_only; [|reflexivity]. exists i, j, ts, bs. auto 10. }
      destruct down.
      - inv_as H as [acc turn] Hd.
        replace (Z.to_nat (Z.of_nat j + 1 - Z.of_nat i)) with (S j - i)%nat in Hd by lia.
        destruct (down_sound m w p _ _ _ _ _ _ _ Hts Hd) as [l [E Hl]]. cbn [app] in E. subst acc.
        replace (i + (S j - i))%nat with (S j) in Hl by lia.
        destruct turn as [y|].
        + destruct (hasZeroThickness y) eqn:Ez; cbn [negb] in H.
          * injection H as <-. exists l. split; [reflexivity|]. apply Com. rewrite <- (app_nil_r l). apply Hl. left. auto.
          * inv_as H as [td z] Ht. inv_as H as acc Ha. injection H as <-. apply push_ok in Ha. destruct Ha as [-> _].
            eexists. split; [reflexivity|]. apply Com. apply Hl. right. split; [unfold flat; fold (hasZeroThickness y); congruence|].
            apply turns_iff in Ht. destruct Ht as [Ht Hb]. exists z, (td_time td), (td_dist td). split; [exact Ht|]. unfold td_at. rewrite (bullen_p _ _ _ _ Hb). reflexivity.
        + injection H as <-. exists l. split; [reflexivity|]. apply Com. rewrite <- (app_nil_r l). apply Hl. reflexivity.
      - destruct (Z.ltb_spec (Z.of_nat j) (Z.of_nat i)); [lia|].
        inv_as H as [k y] Hk. replace (Z.to_nat (Z.of_nat j - Z.of_nat i)) with (j - i)%nat in Hk by lia.
        assert (Hbs' : nth_error (sm_layers m w) (i + (j - i)) = Some bs) by (replace (i + (j - i))%nat with j by lia; exact Hbs).
        apply (skip_sound m w p i _ _ _ _ Hbs') in Hk. destruct Hk as [K1 [K2 [K3 K4]]].
        assert (Com' : forall l, ((sl_botP y <? p = false /\ climb m w p i (S (i + k)) l) \/
          (sl_botP y <? p = true /\ exists z tm d l', turns m p y z tm d /\ climb m w p i (i + k) l' /\ l = mkTD p tm d (sl_topDepth y) :: l')) -> leg_points m w p b false l).
        { intros l Hl. apply Com. exists (i + k)%nat, y. split; [lia|]. split; [exact K2|]. split; [intros n z Hn; apply K3; lia|]. split; [|exact Hl].
          destruct K4 as [->|K4]; [left; lia|right; exact K4]. }
        destruct (sl_botP y <? p) eqn:Eq.
        + inv_as H as [td z] Ht. inv_as H as acc Ha. apply push_ok in Ha. destruct Ha as [-> _]. cbn [app] in H.
          apply turns_iff in Ht. destruct Ht as [Ht Hb].
          assert (Etd : td_at td (sl_topDepth y) = mkTD p (td_time td) (td_dist td) (sl_topDepth y)) by (unfold td_at; rewrite (bullen_p _ _ _ _ Hb); reflexivity).
          rewrite Etd in H.
          destruct k as [|k].
          * injection H as <-. eexists. split; [reflexivity|]. apply Com'. right. split; [reflexivity|]. exists z, (td_time td), (td_dist td), [].
            split; [exact Ht|]. rewrite Nat.add_0_r. split; [constructor|reflexivity].
          * inv_as H as y1 Hy1. inv_as H as acc Ha. injection H as <-. rewrite <- Nat2Z.inj_add in Hy1. apply get_iff in Hy1.
            assert (Hy1' := Hy1).
            apply (up_sound m w p i _ k y1 _ _ Hy1') in Ha. destruct Ha as [l [-> Hl]]. eexists. split; [reflexivity|]. apply Com'. right. split; [reflexivity|].
            exists z, (td_time td), (td_dist td), l. split; [exact Ht|]. split; [replace (i + S k)%nat with (S (i + k)) by lia; exact Hl|reflexivity].
        + inv_as H as acc Ha. injection H as <-. apply (up_sound m w p i _ k y _ _ K2) in Ha. destruct Ha as [l [-> Hl]]. exists l. split; [reflexivity|].
          apply Com'. left. auto. }
    assert (Conv : forall l, leg_points m w p b down l -> body = Ok (Some l)).
    { intros l [[X _]|[_ [E0 [i [j [ts [bs [Hi [Hj [Hts [Et [Hbs [Eb H]]]]]]]]]]]]]; [congruence|].
      unfold body. clear body Main. unfold guard. rewrite E0. cbn [bind].
      rewrite (proj2 (below_iff_s fuel m w _ i Hm Hu Ot Hf) Hi), (proj2 (above_iff_s fuel m w _ j Hm Hu Ob Hf) Hj). cbn [bind].
      unfold getSlownessLayer at 1. rewrite py_index_nat, Hts. cbn [bind]. rewrite Et. cbn [negb].
      unfold getSlownessLayer at 1. rewrite py_index_nat, Hbs. cbn [bind]. rewrite Eb. cbn [negb].
      assert (Hij : (i <= j)%nat).
      { destruct (le_lt_dec i j) as [X|X]; [exact X|exfalso].
        assert (X' : sl_botDepth bs <=? sl_topDepth ts = true).
        { apply (tops_below _ Hm Hu (i - S j) j bs ts Hbs). replace (S j + (i - S j))%nat with i by lia. exact Hts. }
        assert (Y : tb_bot b <=? tb_top b = true).
        { eapply ord_trans; [apply eqb_geb; exact Eb|]. eapply ord_trans; [exact X'|]. apply eqb_leb. exact Et. }
        assert (Z1 := ltb_not_leb _ _ Hlt). congruence. }
      assert (Hjl : (j < List.length (sm_layers m w))%nat) by (apply nth_error_Some; congruence).
      assert (Ecap : Z.to_nat (Z.of_nat j - Z.of_nat i + 1) = (S j - i)%nat) by lia. rewrite Ecap.
      destruct down.
      - replace (Z.to_nat (Z.of_nat j + 1 - Z.of_nat i)) with (S j - i)%nat by lia.
        destruct (down_complete m w p (S j - i) (S j - i) i ts [] l Hts ltac:(lia) ltac:(cbn; lia)) as [l1 [tail [o [-> [E [R Le]]]]]].
        { replace (i + (S j - i))%nat with (S j) by lia. exact H. }
        rewrite E. cbn [bind app]. destruct o as [y|].
        + destruct R as [[Fl ->]|[Fl [z [tm [d [Ht ->]]]]]].
          * assert (Ez : hasZeroThickness y = true) by exact Fl. rewrite Ez. cbn [negb]. rewrite app_nil_r. reflexivity.
          * assert (Ez : hasZeroThickness y = false). { destruct (hasZeroThickness y) eqn:Ez; [|reflexivity]. exfalso. apply Fl. exact Ez. }
            rewrite Ez. cbn [negb]. destruct (turns_td m p y z tm d Ht) as [x [-> Ex]]. cbn [bind]. rewrite push_some by lia. cbn [bind]. rewrite Ex. reflexivity.
        + cbn in R. subst tail. rewrite app_nil_r. reflexivity.
      - destruct (Z.ltb_spec (Z.of_nat j) (Z.of_nat i)); [lia|].
        destruct H as [e [y [He [Hy [Hs [Hc Hl]]]]]].
        replace (Z.to_nat (Z.of_nat j - Z.of_nat i)) with (j - i)%nat by lia.
        rewrite (skip_complete m w p i (j - i) bs (e - i) y).
        2:{ replace (i + (j - i))%nat with j by lia. exact Hbs. }
        2:{ lia. }
        2:{ replace (i + (e - i))%nat with e by lia. exact Hy. }
        2:{ intros n z Hn. apply Hs. lia. }
        2:{ destruct Hc as [->|Hc]; [left; lia|right; exact Hc]. }
        cbn [bind]. destruct Hl as [[Eq Hl]|[Eq [z [tm [d [l' [Ht [Hl ->]]]]]]]]; rewrite Eq.
        + rewrite (up_complete m w p i (S j - i) (e - i) y [] l); [reflexivity| |cbn [List.length]; lia|].
          * replace (i + (e - i))%nat with e by lia. exact Hy.
          * replace (i + (e - i))%nat with e by lia. exact Hl.
        + destruct (turns_td m p y z tm d Ht) as [x [-> Ex]]. cbn [bind]. rewrite push_some by (cbn [List.length]; lia). cbn [bind app]. rewrite Ex.
          destruct (e - i)%nat as [|k] eqn:Ek.
          * assert (Ee : e = i) by lia. rewrite Ee in Hl. apply climb_nil in Hl. subst l'. reflexivity.
          * rewrite <- Nat2Z.inj_add. unfold getSlownessLayer. rewrite py_index_nat.
            destruct (nth_error (sm_layers m w) (i + k)) as [u|] eqn:Eu; [|apply nth_error_None in Eu; lia]. cbn [bind].
            rewrite (up_complete m w p i (S j - i) k u [mkTD p tm d (sl_topDepth y)] l'); [reflexivity|exact Eu|cbn [List.length]; lia|].
            replace (S (i + k)) with e by lia. exact Hl. }
    split.
    - split; [|discriminate]. intros H. destruct (Main _ H) as [l [X _]]. discriminate.
    - intros l. split.
      + intros H. destruct (Main _ H) as [l' [X Hl]]. injection X as <-. auto.
      + intros [_ H]. apply Conv. exact H.
  Qed.
End Branch.

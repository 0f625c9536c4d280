(** Proofs for C57: layers cut in pieces. *)
From Coq Require Import ZArith Bool List String Reals Lia Lra Psatz.
From Verif Require Import Base Num PyStr VelocityModel VelSpec VelProofs SlownessLayer SlownessModel
  SlowSpec SlowProofs CritSpec CritProofs SlowRealProofs SampleProofs StackSpec StackProofs
  SplitSpec SplitProofs TauModel TauSpec TauProofs PathSpec PathLegProofs MonoSpec LimitSpec LimitProofs
  BullenSpec BullenProofs BullenProps ShellProps ErrSpec ErrProofs SourceSpec SourceProofs InsideSpec.
Import ListNotations.
Local Open Scope list_scope.
Local Open Scope R_scope.

(** ** pieces *)
Lemma tiles_nil : forall p z p' z', ~ tiles p z [] p' z'.
Proof. intros p z p' z' H. inversion H. Qed.
Lemma tiles_ends : forall p z l p' z', tiles p z l p' z' ->
  exists f r e s, l = f :: r /\ l = s ++ [e] /\ sl_topP f = p /\ sl_topDepth f = z /\ sl_botP e = p' /\ sl_botDepth e = z'.
Proof.
  intros p z l p' z' H. induction H as [y|y l p' z' H IH].
  - exists y, [], y, []. repeat (split; [reflexivity|]). reflexivity.
  - destruct IH as [f [r [e [s [E1 [E2 [E3 [E4 [E5 E6]]]]]]]]]. exists y, l, e, (y :: s).
    split; [reflexivity|]. split; [rewrite E2; reflexivity|]. auto.
Qed.
Lemma tiles_app : forall p z l p1 z1, tiles p z l p1 z1 -> forall l' p' z', tiles p1 z1 l' p' z' -> tiles p z (l ++ l') p' z'.
Proof.
  intros p z l p1 z1 H. induction H as [y|y l p1 z1 H IH]; intros l' p' z' H'; cbn [app]; apply tl_cons; auto.
Qed.
Lemma tiles_next : forall p z l p' z', tiles p z l p' z' -> forall i a b, nth_error l i = Some a -> nth_error l (S i) = Some b ->
  sl_botP a = sl_topP b /\ sl_botDepth a = sl_topDepth b.
Proof.
  intros p z l p' z' H. induction H as [y|y l p' z' H IH]; intros i a b Ha Hb.
  - destruct i; discriminate.
  - destruct i as [|i]; cbn [nth_error] in Ha, Hb; [|eapply IH; eassumption].
    inversion Ha; subst a. destruct (tiles_ends _ _ _ _ _ H) as [f [r [e [s [E1 [_ [E3 [E4 _]]]]]]]]. rewrite E1 in Hb. cbn [nth_error] in Hb.
    inversion Hb; subst. auto.
Qed.
Lemma tiles_range : forall p z l p' z', tiles p z l p' z' -> (forall y, In y l -> sl_topDepth y <= sl_botDepth y) ->
  z <= z' /\ forall y, In y l -> z <= sl_topDepth y /\ sl_botDepth y <= z'.
Proof.
  intros p z l p' z' H. induction H as [y|y l p' z' H IH]; intros Hu.
  - pose proof (Hu y (or_introl eq_refl)). split; [assumption|]. intros u [<-|[]]. lra.
  - destruct (IH (fun u Hu' => Hu u (or_intror Hu'))) as [A B]. pose proof (Hu y (or_introl eq_refl)). split; [lra|].
    intros u [<-|Hin]; [lra|]. destruct (B u Hin). lra.
Qed.

Section Pieces.
  Variables (rad : R) (y : slayer R) (l : list (slayer R)).
  Hypothesis Hp : pieces rad y l.
  Hypothesis Uy : sl_topDepth y <= sl_botDepth y.

  Lemma one_same : forall z, l = [z] -> same y z.
  Proof. intros z ->. destruct Hp as [H _]. inversion H as [u E1 E2 E3 E4 E5|u l' p' z' H' E1 E2]; [|inversion H']. repeat split; congruence. Qed.
  Lemma pieces_up : forall z, In z l -> sl_topDepth z <= sl_botDepth z.
  Proof.
    intros z Hz. destruct Hp as [_ [[u E]|[_ F]]].
    - pose proof (one_same u E) as [_ [S1 [_ S2]]]. rewrite E in Hz. destruct Hz as [<-|[]]. lra.
    - apply Rlt_le. apply (F z Hz).
  Qed.
  Lemma pieces_range : forall z, In z l -> sl_topDepth y <= sl_topDepth z /\ sl_botDepth z <= sl_botDepth y.
  Proof. exact (proj2 (tiles_range _ _ _ _ _ (proj1 Hp) pieces_up)). Qed.
  Lemma pieces_ends : exists f r e s, l = f :: r /\ l = s ++ [e] /\ sl_topP f = sl_topP y /\ sl_topDepth f = sl_topDepth y /\
    sl_botP e = sl_botP y /\ sl_botDepth e = sl_botDepth y.
  Proof. exact (tiles_ends _ _ _ _ _ (proj1 Hp)). Qed.

  (** slownesses of pieces lie between those of the layer *)
  Hypothesis Th : BullenSpec.thick y rad -> slow_pos y /\ sl_topP y <> sl_botP y.
  Hypothesis Kt : (exists z, l = [z]) \/ BullenSpec.thick y rad.
  Lemma pieces_law : forall z A B, In z l -> power_law y rad A B -> power_law z rad A B.
  Proof.
    intros z A B Hz [P1 P2]. destruct Hp as [_ [[u E]|[_ F]]]; [|apply (F z Hz); split; assumption].
    pose proof (one_same u E) as [S1 [S2 [S3 S4]]]. rewrite E in Hz. destruct Hz as [<-|[]]. split; congruence.
  Qed.
  Lemma pieces_between : forall z, In z l -> btw (sl_topP z) (sl_topP y) (sl_botP y) /\ btw (sl_botP z) (sl_topP y) (sl_botP y) /\
    (sl_topP y < sl_botP y -> sl_topP z < sl_botP z) /\ (sl_botP y < sl_topP y -> sl_botP z < sl_topP z).
  Proof.
    intros z Hz. destruct Kt as [[u E]|Hk].
    - pose proof (one_same u E) as [S1 [S2 [S3 S4]]]. rewrite E in Hz. destruct Hz as [<-|[]]. unfold btw. rewrite <- S1, <- S3.
      destruct (Rle_dec (sl_topP y) (sl_botP y)); lra.
    - destruct (Th Hk) as [Sp Ne]. destruct (thick_exists _ _ Hk Sp) as [A [B HP]].
      pose proof (pieces_law z A B Hz HP) as [Z1 Z2]. pose proof (pieces_range z Hz) as [R1 R2]. pose proof (pieces_up z Hz) as Uz.
      pose proof Hk as [K1 [K2 K3]].
      assert (Btw : forall r, rad - sl_botDepth y <= r <= rad - sl_topDepth y -> btw (A * Rpower r B) (sl_topP y) (sl_botP y)).
      { intros r Hr. destruct HP as [E1 E2] eqn:EHP. unfold btw.
        destruct (Req_dec r (rad - sl_botDepth y)) as [->|N1]; [rewrite <- E2; destruct (Rle_dec (sl_topP y) (sl_botP y)); lra|].
        destruct (Req_dec r (rad - sl_topDepth y)) as [->|N2]; [rewrite <- E1; destruct (Rle_dec (sl_topP y) (sl_botP y)); lra|].
        pose proof (power_inside _ _ _ _ r Hk Sp HP Ne ltac:(lra)) as I. unfold strictly_between in I. destruct I; [left|right]; lra. }
      rewrite Z1, Z2. split; [apply Btw; lra|]. split; [apply Btw; lra|].
      pose proof (power_A_pos _ _ _ _ Hk Sp HP) as HA. destruct (power_B_sign _ _ _ _ Hk Sp HP) as [S1 [S2 _]].
      destruct Hp as [_ [[u E]|[_ F]]].
      + pose proof (one_same u E) as [T1 [T2 [T3 T4]]]. rewrite <- Z1, <- Z2. rewrite E in Hz. destruct Hz as [<-|[]]. rewrite <- T1, <- T3. auto.
      + destruct (F z Hz) as [Fz _]. unfold fat in Fz.
        destruct (Rpower_mono (rad - sl_botDepth z) (rad - sl_topDepth z) B ltac:(lra) ltac:(lra)) as [M1 [M2 _]].
        split; intros L; apply Rmult_lt_compat_l; auto.
  Qed.
End Pieces.

(** what is needed of a layer that may be cut *)
Definition lay_ok (rad : R) (y : slayer R) : Prop :=
  sl_topDepth y = sl_botDepth y \/ (BullenSpec.thick y rad /\ slow_pos y /\ sl_topP y <> sl_botP y) \/ sl_botDepth y = rad.
Lemma ok_thick : forall rad y, lay_ok rad y -> BullenSpec.thick y rad -> slow_pos y /\ sl_topP y <> sl_botP y.
Proof. intros rad y [E|[[_ H]|E]] [K1 [K2 K3]]; [lra|exact H|lra]. Qed.
Lemma ok_pieces : forall rad y l, lay_ok rad y -> sl_topDepth y <= sl_botDepth y -> pieces rad y l -> (exists z, l = [z]) \/ BullenSpec.thick y rad.
Proof.
  intros rad y l Ho Uy Hp. pose proof Hp as [Ht [O|[Hr F]]]; [left; exact O|].
  destruct Ho as [E|[[Hk _]|E]]; [|right; exact Hk|lra].
  destruct (pieces_ends _ _ _ Hp) as [f [r [_ [_ [El _]]]]].
  destruct (pieces_range _ _ _ Hp Uy f) as [A B]; [rewrite El; left; reflexivity|].
  destruct (F f) as [Ff _]; [rewrite El; left; reflexivity|]. unfold fat in Ff. lra.
Qed.

Lemma refines_refl : forall rad l l', Forall2 same l l' -> refines rad l l'.
Proof.
  intros rad l l' H. induction H as [|y z l l' E H IH]; [constructor|].
  change (z :: l') with ([z] ++ l'). constructor; [|exact IH]. split; [|left; eauto].
  destruct E as [E1 [E2 [E3 E4]]]. rewrite E1, E2, E3, E4. constructor.
Qed.
Lemma refines_app : forall rad l1 l1', refines rad l1 l1' -> forall l2 l2', refines rad l2 l2' -> refines rad (l1 ++ l2) (l1' ++ l2').
Proof. intros rad l1 l1' H. induction H as [|y l ys l' Hp H IH]; intros l2 l2' H2; [exact H2|]. cbn [app]. rewrite <- app_assoc. constructor; auto. Qed.
Lemma refines_inv_app : forall rad l1 l2 l', refines rad (l1 ++ l2) l' -> exists l1' l2', l' = l1' ++ l2' /\ refines rad l1 l1' /\ refines rad l2 l2'.
Proof.
  intros rad l1. induction l1 as [|y l1 IH]; intros l2 l' H.
  - exists [], l'. split; [reflexivity|]. split; [constructor|exact H].
  - cbn [app] in H. inversion H as [|y0 l0 ys l0' Hp H' E1 E2]; subst. destruct (IH _ _ H') as [a [b [-> [A B]]]].
    exists (ys ++ a), b. rewrite <- app_assoc. split; [reflexivity|]. split; [constructor; assumption|exact B].
Qed.
Lemma refines_at : forall rad ls ls', refines rad ls ls' -> forall i y, nth_error ls i = Some y ->
  exists l1 l2 l1' ys l2', ls = l1 ++ y :: l2 /\ List.length l1 = i /\ ls' = l1' ++ ys ++ l2' /\ refines rad l1 l1' /\ pieces rad y ys /\ refines rad l2 l2'.
Proof.
  intros rad ls ls' H i y Hi. apply nth_error_split in Hi. destruct Hi as [l1 [l2 [-> Hl]]].
  apply refines_inv_app in H. destruct H as [l1' [l' [-> [A B]]]]. inversion B as [|y0 l0 ys l0' Hp H' E1 E2]; subst.
  exists l1, l2, l1', ys, l0'. auto 10.
Qed.
Lemma refines_in : forall rad ls ls', refines rad ls ls' -> forall z, In z ls' -> exists y ys, In y ls /\ pieces rad y ys /\ In z ys.
Proof.
  intros rad ls ls' H. induction H as [|y l ys l' Hp H IH]; intros z Hz; [destruct Hz|]. apply in_app_or in Hz. destruct Hz as [Hz|Hz].
  - exists y, ys. split; [left; reflexivity|]. auto.
  - destruct (IH z Hz) as [u [us [A B]]]. exists u, us. split; [right; exact A|exact B].
Qed.
Lemma refines_out : forall rad ls ls', refines rad ls ls' -> forall y, In y ls -> exists ys, pieces rad y ys /\ forall z, In z ys -> In z ls'.
Proof.
  intros rad ls ls' H. induction H as [|y l ys l' Hp H IH]; intros z Hz; [destruct Hz|]. destruct Hz as [<-|Hz].
  - exists ys. split; [exact Hp|]. intros z Hz. apply in_or_app. left. exact Hz.
  - destruct (IH z Hz) as [us [A B]]. exists us. split; [exact A|]. intros u Hu. apply in_or_app. right. auto.
Qed.

(** pieces of pieces *)
Lemma tiles_split : forall rad l l', refines rad l l' -> forall p z p' z', tiles p z l p' z' -> tiles p z l' p' z'.
Proof.
  intros rad l l' H. induction H as [|y l ys l' Hp H IH]; intros p z p' z' Ht; [inversion Ht|].
  inversion Ht as [u E1 E2 E3 E4 E5|u l0 p0 z0 H0 E1 E2]; subst.
  - inversion H; subst. rewrite app_nil_r. apply Hp.
  - eapply tiles_app; [apply Hp|]. apply IH. exact H0.
Qed.
Lemma pieces_trans : forall rad y l l', sl_topDepth y <= sl_botDepth y -> pieces rad y l -> refines rad l l' -> pieces rad y l'.
Proof.
  intros rad y l l' Uy Hp Hr. split; [eapply tiles_split; [exact Hr|apply Hp]|].
  pose proof Hp as [_ [[z E]|[Hb F]]].
  - subst l. inversion Hr as [|z0 l0 ys l0' Hp' H' E1 E2]; subst. inversion H'; subst. rewrite app_nil_r.
    destruct (one_same _ _ _ Hp z eq_refl) as [S1 [S2 [S3 S4]]].
    destruct Hp' as [_ [O|[Hb F]]]; [left; exact O|right]. split; [lra|]. intros u Hu. destruct (F u Hu) as [F1 F2]. split; [exact F1|].
    intros A B [P1 P2]. apply F2. split; congruence.
  - right. split; [exact Hb|]. intros u Hu. destruct (refines_in _ _ _ Hr u Hu) as [v [vs [Hv [Pv Iu]]]]. destruct (F v Hv) as [F1 F2].
    destruct Pv as [Tv [[u' E]|[Hb' G]]].
    + rewrite E in Iu. destruct Iu as [<-|[]]. destruct (one_same rad v vs (conj Tv (or_introl (ex_intro _ u' E))) u' E) as [S1 [S2 [S3 S4]]].
      split; [unfold fat in *; lra|]. intros A B HP. destruct (F2 A B HP) as [P1 P2]. split; congruence.
    + destruct (G u Iu) as [G1 G2]. split; [exact G1|]. auto.
Qed.
Lemma refines_trans : forall rad l1 l2 l3, (forall y, In y l1 -> sl_topDepth y <= sl_botDepth y) ->
  refines rad l1 l2 -> refines rad l2 l3 -> refines rad l1 l3.
Proof.
  intros rad l1 l2 l3 Hu H. revert l3. induction H as [|y l ys l' Hp H IH]; intros l3 H3; [inversion H3; constructor|].
  apply refines_inv_app in H3. destruct H3 as [a [b [-> [A B]]]]. constructor.
  - eapply pieces_trans; [apply Hu; left; reflexivity|exact Hp|exact A].
  - apply IH; [|exact B]. intros; apply Hu; right; assumption.
Qed.

Section Refine.
  Variables (rad : R) (ls ls' : list (slayer R)).
  Hypothesis Hr : refines rad ls ls'.
  Hypothesis Hm : s_meet ls.
  Hypothesis Hu : s_upright ls.
  Hypothesis Ho : forall y, In y ls -> lay_ok rad y.

  Let up : forall y, In y ls -> sl_topDepth y <= sl_botDepth y.
  Proof. intros y Hy. apply Rleb_le. apply Hu. exact Hy. Qed.
  Lemma rf_between : forall y ys z, In y ls -> pieces rad y ys -> In z ys ->
    btw (sl_topP z) (sl_topP y) (sl_botP y) /\ btw (sl_botP z) (sl_topP y) (sl_botP y) /\
    (sl_topP y < sl_botP y -> sl_topP z < sl_botP z) /\ (sl_botP y < sl_topP y -> sl_botP z < sl_topP z).
  Proof.
    intros y ys z Hy Hp Hz. eapply (pieces_between rad y ys Hp (up y Hy)); [apply ok_thick; auto|apply ok_pieces; auto|exact Hz].
  Qed.
  Lemma rf_upright : s_upright ls'.
  Proof.
    intros z Hz. apply Rleb_le. destruct (refines_in _ _ _ Hr z Hz) as [y [ys [Hy [Hp Iz]]]]. eapply pieces_up; [exact Hp|auto|exact Iz].
  Qed.
  (** a property of neighbours *)
  Lemma rf_next : forall (P : slayer R -> slayer R -> Prop),
    (forall i a b, nth_error ls i = Some a -> nth_error ls (S i) = Some b -> forall a' b', sl_botP a' = sl_botP a -> sl_botDepth a' = sl_botDepth a ->
        sl_topP b' = sl_topP b -> sl_topDepth b' = sl_topDepth b -> P a' b') ->
    (forall a b, sl_botP a = sl_topP b -> sl_botDepth a = sl_topDepth b -> P a b) ->
    forall i a b, nth_error ls' i = Some a -> nth_error ls' (S i) = Some b -> P a b.
  Proof.
    intros P H1 H2. clear Ho up Hm Hu. induction Hr as [|y l ys l' Hp H IH]; intros i a b Ha Hb; [destruct i; discriminate|].
    destruct (Nat.lt_ge_cases (S i) (List.length ys)) as [L|L].
    - rewrite nth_error_app1 in Ha, Hb by lia. destruct (tiles_next _ _ _ _ _ (proj1 Hp) i a b Ha Hb). auto.
    - destruct (Nat.lt_ge_cases i (List.length ys)) as [L'|L'].
      + rewrite nth_error_app1 in Ha by lia. rewrite nth_error_app2 in Hb by lia.
        destruct (pieces_ends _ _ _ Hp) as [f [r [e [s [_ [El [_ [_ [E1 E2]]]]]]]]].
        assert (a = e).
        { rewrite El in Ha, L, L'. rewrite app_length in L, L'. cbn [List.length] in L, L'. rewrite nth_error_app2 in Ha by lia.
          replace (i - List.length s)%nat with 0%nat in Ha by lia. cbn [nth_error] in Ha. congruence. }
        subst a. replace (S i - List.length ys)%nat with 0%nat in Hb by lia.
        inversion H as [E3 E4|u k us k' Hu Hk E3 E4]; subst l l'; [destruct (0)%nat; discriminate|].
        destruct (pieces_ends _ _ _ Hu) as [g [q [_ [_ [Eg [_ [G1 [G2 _]]]]]]]]. rewrite Eg in Hb. cbn [app nth_error] in Hb. inversion Hb; subst g.
        apply (H1 0%nat y u eq_refl eq_refl e b); assumption.
      + rewrite nth_error_app2 in Ha, Hb by lia. replace (S i - List.length ys)%nat with (S (i - List.length ys)) in Hb by lia.
        eapply IH; [exact H| |exact Ha|exact Hb]. intros j c e Hc He. apply (H1 (S j) c e); assumption.
  Qed.
  Lemma rf_meet : s_meet ls'.
  Proof.
    intros i a b Ha Hb. refine (rf_next (fun a b => n_eqb (sl_botDepth a) (sl_topDepth b) = true) _ _ i a b Ha Hb).
    - intros j c e Hc He a' b' _ E1 _ E2. cbv beta. rewrite E1, E2. exact (Hm j c e Hc He).
    - intros c e _ E. apply Reqb_eq. exact E.
  Qed.
  Lemma rf_join : s_join ls -> s_join ls'.
  Proof.
    intros Hj i a b Ha Hb. refine (rf_next (fun a b => n_eqb (sl_botP a) (sl_topP b) = true) _ _ i a b Ha Hb).
    - intros j c e Hc He a' b' E1 _ E2 _. cbv beta. rewrite E1, E2. exact (Hj j c e Hc He).
    - intros c e E _. apply Reqb_eq. exact E.
  Qed.
  (** the ends of a layer of positive thickness belong to pieces of positive thickness *)
  Lemma rf_fat_ends : forall y, In y ls -> fat y -> exists f e, In f ls' /\ In e ls' /\ fat f /\ fat e /\
    sl_topP f = sl_topP y /\ sl_topDepth f = sl_topDepth y /\ sl_botP e = sl_botP y /\ sl_botDepth e = sl_botDepth y.
  Proof.
    intros y Hy Fy. destruct (refines_out _ _ _ Hr y Hy) as [ys [Hp Hin]]. destruct (pieces_ends _ _ _ Hp) as [f [r [e [s [E1 [E2 [A1 [A2 [A3 A4]]]]]]]]].
    assert (If : In f ys) by (rewrite E1; left; reflexivity). assert (Ie : In e ys) by (rewrite E2; apply in_or_app; right; left; reflexivity).
    assert (Ft : forall z, In z ys -> fat z).
    { intros z Hz. pose proof Hp as [_ [[u E]|[_ F]]]; [|apply (F z Hz)]. pose proof (one_same _ _ _ Hp u E) as [_ [S1 [_ S2]]].
      rewrite E in Hz. destruct Hz as [<-|[]]. unfold fat in *. lra. }
    exists f, e. auto 12.
  Qed.
  Lemma rf_squeezed : squeezed ls -> squeezed ls'.
  Proof.
    intros Sq z Hz Ez. destruct (refines_in _ _ _ Hr z Hz) as [y [ys [Hy [Hp Iz]]]].
    assert (S : same y z).
    { pose proof Hp as [_ [[u E]|[_ F]]]; [|destruct (F z Iz) as [Fz _]; unfold fat in Fz; lra].
      pose proof (one_same _ _ _ Hp u E) as S. rewrite E in Iz. destruct Iz as [<-|[]]. exact S. }
    destruct S as [S1 [S2 [S3 S4]]]. destruct (Sq y Hy ltac:(lra)) as [a [b [Ha [Hb [Fa [Fb [E1 [E2 [B1 B2]]]]]]]]].
    destruct (rf_fat_ends a Ha Fa) as [_ [a' [_ [Ia [_ [Fa' [_ [_ [A1 A2]]]]]]]]].
    destruct (rf_fat_ends b Hb Fb) as [b' [_ [Ib [_ [Fb' [_ [C1 [C2 _]]]]]]]].
    exists a', b'. rewrite A1, A2, C1, C2, <- S1, <- S2, <- S3. auto 12.
  Qed.
  Lemma rf_first : forall f, nth_error ls' 0 = Some f -> exists g ys, nth_error ls 0 = Some g /\ pieces rad g ys /\ In f ys /\
    sl_topP f = sl_topP g /\ sl_topDepth f = sl_topDepth g.
  Proof.
    clear Ho up Hm Hu. intros f Hf. destruct Hr as [|y l ys l' Hp H]; [discriminate|]. exists y, ys. split; [reflexivity|]. split; [exact Hp|].
    destruct (pieces_ends _ _ _ Hp) as [g [r [_ [_ [E [_ [A1 [A2 _]]]]]]]]. rewrite E in Hf. cbn in Hf. inversion Hf; subst g.
    split; [rewrite E; left; reflexivity|]. auto.
  Qed.
  Lemma rf_bnd : forall x, bnd ls x -> bnd ls' x.
  Proof.
    intros x [y [Hy E]]. destruct (refines_out _ _ _ Hr y Hy) as [ys [Hp Hin]].
    destruct (pieces_ends _ _ _ Hp) as [f [r [e [s [E1 [E2 [A1 [A2 [A3 A4]]]]]]]]].
    destruct E as [E|E].
    - exists f. split; [apply Hin; rewrite E1; left; reflexivity|]. left. rewrite A2. exact E.
    - exists e. split; [apply Hin; rewrite E2; apply in_or_app; right; left; reflexivity|]. right. rewrite A4. exact E.
  Qed.
  Lemma rf_sampled : forall x, sampled_at ls x -> sampled_at ls' x.
  Proof.
    clear Ho up Hm Hu. intros x [k [y [z [Hy [Hz [Fy [Fz [Ey Ez]]]]]]]].
    destruct (refines_at _ _ _ Hr k y Hy) as [l1 [l2 [l1' [ys [l2' [E1 [E2 [E3 [_ [Py R2]]]]]]]]]].
    rewrite E1 in Hz. rewrite nth_error_app2 in Hz by lia. replace (S k - List.length l1)%nat with 1%nat in Hz by lia. cbn [nth_error] in Hz.
    destruct l2 as [|z0 l2]; [discriminate|]. cbn [nth_error] in Hz. inversion Hz; subst z0. clear Hz.
    inversion R2 as [|z0 l0 zs l0' Pz R3 E4 E5]; subst.
    assert (Iy : In y (l1 ++ y :: z :: l2)) by (apply in_or_app; right; left; reflexivity).
    assert (Iz : In z (l1 ++ y :: z :: l2)) by (apply in_or_app; right; right; left; reflexivity).
    destruct (pieces_ends _ _ _ Py) as [_ [_ [e [s [_ [El [_ [_ [_ B]]]]]]]]]. destruct (pieces_ends _ _ _ Pz) as [f [r [_ [_ [Ef [_ [_ [T _]]]]]]]].
    assert (Ft : forall u us v, fat u -> pieces rad u us -> In v us -> fat v).
    { intros u us v Fu Hp Hv. pose proof Hp as [_ [[q E]|[_ F]]]; [|apply (F v Hv)]. pose proof (one_same _ _ _ Hp q E) as [_ [S1 [_ S2]]].
      rewrite E in Hv. destruct Hv as [<-|[]]. unfold fat in *. lra. }
    exists (List.length l1' + List.length s)%nat, e, f.
    assert (Q : l1' ++ ys ++ zs ++ l0' = (l1' ++ s) ++ e :: f :: r ++ l0') by (rewrite El, Ef, <- !app_assoc; reflexivity).
    rewrite Q. split; [rewrite nth_error_app2, app_length by (rewrite app_length; lia);
      replace (List.length l1' + List.length s - (List.length l1' + List.length s))%nat with 0%nat by lia; reflexivity|].
    split; [rewrite nth_error_app2, app_length by (rewrite app_length; lia);
      replace (S (List.length l1' + List.length s) - (List.length l1' + List.length s))%nat with 1%nat by lia; reflexivity|].
    split; [apply (Ft y ys); [exact Fy|exact Py|rewrite El; apply in_or_app; right; left; reflexivity]|].
    split; [apply (Ft z zs); [exact Fz|exact Pz|rewrite Ef; left; reflexivity]|]. split; congruence.
  Qed.
End Refine.

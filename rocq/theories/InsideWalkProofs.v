(** Proofs for C57: time and distance of rays when layers are cut in pieces. *)
From Coq Require Import ZArith Bool List String Reals Lia Lra Psatz.
From Verif Require Import Base Num PyStr VelocityModel VelSpec VelProofs SlownessLayer SlownessModel
  SlowSpec SlowProofs CritSpec CritProofs SlowRealProofs SampleProofs StackSpec StackProofs
  SplitSpec SplitProofs TauModel TauSpec TauProofs PathSpec PathLegProofs MonoSpec LimitSpec LimitProofs
  BullenSpec BullenProofs BullenProps ShellProps ErrSpec ErrProofs SourceSpec SourceProofs InsideSpec InsideProofs InsideRayProofs.
Import ListNotations.
Local Open Scope list_scope.
Local Open Scope R_scope.

(** down through the layers before [e], from layer [k] on *)
Inductive walk (m : smodel R) (w : bool) (p : R) (e : nat) : nat -> R -> R -> Prop :=
| wk_end : walk m w p e e 0 0
| wk_stop : forall k y, (k < e)%nat -> nth_error (sm_layers m w) k = Some y -> ~ crosses p y -> ~ spans y p -> walk m w p e k 0 0
| wk_go : forall k y td d t, (k < e)%nat -> nth_error (sm_layers m w) k = Some y -> crosses p y ->
    layerTimeDist m p (Z.of_nat k) w = Ok td -> walk m w p e (S k) d t -> walk m w p e k (td_dist td + d) (td_time td + t).

Lemma descends_walk : forall m w p j incs i, (j < List.length (sm_layers m w))%nat -> descends m w p i j incs ->
  walk m w p (S j) i (total td_dist incs) (total td_time incs).
Proof.
  intros m w p j incs. induction incs as [|td incs IH]; intros i Hj [Hl [Hc [Hi He]]]; cbn [List.length] in *.
  - rewrite !total_nil. destruct He as [E|[y [Hy [H1 H2]]]]; [replace i with (S j) by lia; constructor|].
    destruct (Nat.eq_dec i (S j)) as [->|N]; [constructor|]. replace (i + 0)%nat with i in Hy by lia. eapply wk_stop; try eassumption. lia.
  - rewrite !total_cons. destruct (nth_error (sm_layers m w) i) as [y|] eqn:Ey.
    2:{ apply nth_error_None in Ey. lia. }
    eapply wk_go; [lia|exact Ey| | |].
    + apply (Hc 0%nat y); [lia|]. replace (i + 0)%nat with i by lia. exact Ey.
    + specialize (Hi 0%nat td eq_refl). replace (i + 0)%nat with i in Hi by lia. exact Hi.
    + apply IH; [exact Hj|]. split; [lia|]. split; [|split].
      * intros k z Hk Hz. apply (Hc (S k) z); [lia|]. replace (i + S k)%nat with (S i + k)%nat by lia. exact Hz.
      * intros k z Hz. specialize (Hi (S k) z Hz). replace (i + S k)%nat with (S i + k)%nat in Hi by lia. exact Hi.
      * replace (S i + List.length incs)%nat with (i + S (List.length incs))%nat by lia. exact He.
Qed.
Lemma walk_descends : forall m w p j i d t, walk m w p (S j) i d t -> exists incs, descends m w p i j incs /\ d = total td_dist incs /\ t = total td_time incs.
Proof.
  intros m w p j i d t H. induction H as [|k y Hk Hy H1 H2|k y td d t Hk Hy H1 H2 H IH].
  - exists []. split; [|rewrite !total_nil; auto]. split; [cbn; lia|]. split; [intros q y Hq; cbn in Hq; lia|].
    split; [intros [|q] x Hx; discriminate|]. left. cbn. lia.
  - exists []. split; [|rewrite !total_nil; auto]. split; [cbn; lia|]. split; [intros q u Hq; cbn in Hq; lia|].
    split; [intros [|q] x Hx; discriminate|]. right. exists y. cbn [List.length]. replace (k + 0)%nat with k by lia. auto.
  - destruct IH as [incs [[Hl [Hc [Hi He]]] [-> ->]]]. exists (td :: incs). rewrite !total_cons. split; [|auto].
    unfold descends. cbv zeta. cbn [List.length]. split; [lia|]. split; [|split].
    + intros [|q] u Hq Hu; [replace (k + 0)%nat with k in Hu by lia; assert (u = y) by congruence; subst; exact H1|].
      apply (Hc q u); [lia|]. replace (S k + q)%nat with (k + S q)%nat by lia. exact Hu.
    + intros [|q] u Hu; [cbn [nth_error] in Hu; inversion Hu; subst; replace (k + 0)%nat with k by lia; exact H2|].
      cbn [nth_error] in Hu. specialize (Hi q u Hu). replace (k + S q)%nat with (S k + q)%nat by lia. exact Hi.
    + cbn [List.length]. replace (k + S (List.length incs))%nat with (S k + List.length incs)%nat by lia. exact He.
Qed.

(** what the code computes for a plain layer *)
Lemma plain_exists : forall (m : smodel R) p k w y A B, getSlownessLayer m k w = Ok y -> plain_layer m y -> power_law y (sm_radius m) A B ->
  0 <= p -> p <= sl_topP y -> p <= sl_botP y ->
  exists td, layerTimeDist m p k w = Ok td /\ td_time td = bullen_time y B p /\ td_dist td = bullen_dist y B p.
Proof.
  intros m p k w y A B Hy Hpl HP P0 P1 P2.
  assert (G : exists td, layerTimeDist m p k w = Ok td).
  { pose proof Hpl as [[K1 [K2 K3]] [[S1 S2] [Ne Tol]]].
    destruct (Rlt_dec (Rabs ((sm_radius m - sl_topDepth y) / sl_topP y - (sm_radius m - sl_botDepth y) / sl_botP y)) (sm_tolerance m)) as [Hc|Hc].
    - destruct (Tol Hc) as [E T]. destruct (C19_straight_ray m k w y p Hy (conj S1 S2)) as [A1 _]; [lra|exact Hc|exact T|].
      destruct A1 as [td [Q _]]; [lra|]. eauto.
    - unfold layerTimeDist. rewrite Hy. cbn [bind].
      unfold py_max, py_min. cbn [n_ltb n_eqb n_sub n_abs Num_R]. rewrite n_0_R.
      assert (Q : forall c, Rltb c p = false \/ c < p) by (intros c; destruct (Rltb_spec c p); auto).
      rewrite (proj2 (Rltb_false p 0)) by lra.
      assert (M1 : Rltb (if Rltb (sl_topP y) (sl_botP y) then sl_botP y else sl_topP y) p = false) by (destruct (Rltb (sl_topP y) (sl_botP y)); apply Rltb_false; lra).
      assert (M2 : Rltb (if Rltb (sl_botP y) (sl_topP y) then sl_botP y else sl_topP y) p = false) by (destruct (Rltb (sl_botP y) (sl_topP y)); apply Rltb_false; lra).
      rewrite M1, M2. destruct (Reqb_spec (sl_topDepth y) (sl_botDepth y)); [lra|]. destruct (Reqb_spec (sl_botDepth y) (sm_radius m)); [lra|].
      rewrite andb_false_r. rewrite py_div_R by lra. cbn [bind]. rewrite py_div_R by lra. cbn [bind].
      rewrite (proj2 (Rltb_false _ _)) by lra. eexists. apply (bullen_run y (sm_radius m) A B p); [split; [|split]; assumption|split; assumption|exact HP|exact Ne|split; assumption|exact P2]. }
  destruct G as [td Q]. exists td. split; [exact Q|]. eapply plain_values; eassumption.
Qed.

Section Walk.
  Variables (m m' : smodel R) (w : bool).
  Let rad := sm_radius m.
  Let ls := sm_layers m w.
  Let ls' := sm_layers m' w.
  Hypothesis Er : sm_radius m' = sm_radius m.
  Hypothesis Et : sm_tolerance m' = sm_tolerance m.
  Hypothesis Hr : refines rad ls ls'.
  Hypothesis Hm : s_meet ls.
  Hypothesis Hu : s_upright ls.
  Hypothesis Rg : forall y, In y ls -> sl_topDepth y = sl_botDepth y \/ plain_layer m y \/ centre_layer m y.
  Hypothesis Rg' : forall y, In y ls' -> sl_topDepth y = sl_botDepth y \/ plain_layer m' y \/ centre_layer m' y.
  Variable p : R.

  Lemma rg_ok : forall y, In y ls -> lay_ok rad y.
  Proof. intros y Hy. destruct (Rg y Hy) as [E|[[A [B [C _]]]|[_ [E _]]]]; [left; exact E|right; left; auto|right; right; exact E]. Qed.
  Lemma layer_at : forall (n : smodel R) k y, nth_error (sm_layers n w) k = Some y -> getSlownessLayer n (Z.of_nat k) w = Ok y.
  Proof.
    intros n k y H. unfold getSlownessLayer. rewrite py_index_nat. rewrite H. reflexivity.
  Qed.
  (** the same layer at another place *)
  Lemma same_value : forall k k' y z, nth_error ls k = Some y -> nth_error ls' k' = Some z -> same y z ->
    (S k = List.length ls <-> S k' = List.length ls') -> layerTimeDist m' p (Z.of_nat k') w = layerTimeDist m p (Z.of_nat k) w.
  Proof.
    intros k k' y z Hy Hz [E1 [E2 [E3 E4]]] Last. unfold layerTimeDist. rewrite (layer_at m k y Hy), (layer_at m' k' z Hz). cbn [bind].
    rewrite <- E1, <- E2, <- E3, <- E4, Er, Et.
    assert (Lk : (Z.of_nat k' =? sm_numLayers m' w - 1)%Z = (Z.of_nat k =? sm_numLayers m w - 1)%Z).
    { unfold sm_numLayers. unfold ls, ls' in Last.
      assert (k < List.length (sm_layers m w))%nat by (apply nth_error_Some; unfold ls in Hy; congruence).
      assert (k' < List.length (sm_layers m' w))%nat by (apply nth_error_Some; unfold ls' in Hz; congruence).
      apply eq_true_iff_eq. rewrite !Z.eqb_eq. lia. }
    rewrite Lk.
    assert (B : forall q, bullenRadialSlowness z q (sm_radius m) = bullenRadialSlowness y q (sm_radius m)).
    { intros q. unfold bullenRadialSlowness. rewrite <- E1, <- E2, <- E3, <- E4. reflexivity. }
    rewrite B. reflexivity.
  Qed.
  (** down through pieces that follow one power law *)
  Lemma walk_tiles : forall A B e s z l s' z', tiles s z l s' z' -> (forall y, In y l -> plain_layer m' y /\ power_law y rad A B /\ p <= sl_topP y /\ p <= sl_botP y) -> 0 <= p -> B <> 0 ->
    forall l1 l2 d t, ls' = l1 ++ l ++ l2 -> (List.length l1 + List.length l <= e)%nat -> walk m' w p e (List.length l1 + List.length l) d t ->
    walk m' w p e (List.length l1)
      ((Ratan2 p (sqrt (s' * s' - p * p)) - Ratan2 p (sqrt (s * s - p * p))) / B + d)
      ((sqrt (s * s - p * p) - sqrt (s' * s' - p * p)) / B + t).
  Proof.
    intros A B e s z l s' z' Ht. induction Ht as [y|y l s' z' Ht IH]; intros Hp P0 B0 l1 l2 d t El Le Hw.
    - destruct (Hp y (or_introl eq_refl)) as [Pl [HP [P1 P2]]]. cbn [List.length] in *.
      assert (Hy : nth_error ls' (List.length l1) = Some y) by (rewrite El, nth_error_app2, Nat.sub_diag by lia; reflexivity).
      rewrite <- Er in HP || idtac. unfold rad in HP. rewrite <- Er in HP.
      destruct (plain_exists m' p (Z.of_nat (List.length l1)) w y A B (layer_at m' _ _ Hy) Pl HP P0 P1 P2) as [td [Q [Q1 Q2]]].
      unfold bullen_time in Q1. unfold bullen_dist in Q2. rewrite <- Q1, <- Q2.
      eapply wk_go; [lia|exact Hy|split; apply Rleb_le; assumption|exact Q|]. replace (S (List.length l1)) with (List.length l1 + 1)%nat by lia. exact Hw.
    - destruct (Hp y (or_introl eq_refl)) as [Pl [HP [P1 P2]]]. cbn [List.length] in *.
      assert (Hy : nth_error ls' (List.length l1) = Some y) by (rewrite El, nth_error_app2, Nat.sub_diag by lia; reflexivity).
      unfold rad in HP. rewrite <- Er in HP.
      destruct (plain_exists m' p (Z.of_nat (List.length l1)) w y A B (layer_at m' _ _ Hy) Pl HP P0 P1 P2) as [td [Q [Q1 Q2]]].
      unfold bullen_time in Q1. unfold bullen_dist in Q2.
      assert (W : walk m' w p e (S (List.length l1))
        ((Ratan2 p (sqrt (s' * s' - p * p)) - Ratan2 p (sqrt (sl_botP y * sl_botP y - p * p))) / B + d)
        ((sqrt (sl_botP y * sl_botP y - p * p) - sqrt (s' * s' - p * p)) / B + t)).
      { assert (L1 : List.length (l1 ++ [y]) = S (List.length l1)) by (rewrite app_length; cbn; lia). rewrite <- L1.
        apply (IH (fun u Hu' => Hp u (or_intror Hu')) P0 B0 (l1 ++ [y]) l2); [rewrite El, <- app_assoc; reflexivity|lia|].
        rewrite L1. replace (S (List.length l1) + List.length l)%nat with (List.length l1 + S (List.length l))%nat by lia. exact Hw. }
      match goal with |- walk _ _ _ _ _ ?a ?b => assert (Ea : a = td_dist td + ((Ratan2 p (sqrt (s' * s' - p * p)) - Ratan2 p (sqrt (sl_botP y * sl_botP y - p * p))) / B + d)) by (rewrite Q2; field; exact B0);
        assert (Eb : b = td_time td + ((sqrt (sl_botP y * sl_botP y - p * p) - sqrt (s' * s' - p * p)) / B + t)) by (rewrite Q1; field; exact B0); rewrite Ea, Eb end.
      eapply wk_go; [lia|exact Hy|split; apply Rleb_le; assumption|exact Q|exact W].
  Qed.
  (** down through the pieces of one layer *)
  Lemma walk_pieces : forall e k y ys l1 l2 l1' l2' d t, ls = l1 ++ y :: l2 -> List.length l1 = k -> pieces rad y ys -> ls' = l1' ++ ys ++ l2' -> refines rad l2 l2' ->
    (List.length l1' + List.length ys <= e)%nat -> forall td, layerTimeDist m p (Z.of_nat k) w = Ok td ->
    walk m' w p e (List.length l1' + List.length ys) d t -> walk m' w p e (List.length l1') (td_dist td + d) (td_time td + t).
  Proof.
    intros e k y ys l1 l2 l1' l2' d t El Lk Hp El' R2 Le td Htd Hw.
    assert (Hy : nth_error ls k = Some y) by (rewrite El, nth_error_app2, <- Lk, Nat.sub_diag by lia; reflexivity).
    assert (Iy : In y ls) by (eapply nth_error_In; exact Hy). assert (Uy := upr ls Hu y Iy).
    destruct (layer_range m p _ w y td (layer_at m k y Hy) Htd) as [P0 [P1 P2]].
    destruct (ok_pieces rad y ys (rg_ok y Iy) Uy Hp) as [[z Ez]|Hk].
    - pose proof (one_same _ _ _ Hp z Ez) as Sm. subst ys. cbn [List.length app] in *.
      assert (Hz : nth_error ls' (List.length l1') = Some z) by (rewrite El', nth_error_app2, Nat.sub_diag by lia; reflexivity).
      assert (Lst : S k = List.length ls <-> S (List.length l1') = List.length ls').
      { rewrite El, El', !app_length. cbn [List.length]. inversion R2 as [|u l0 us l0' Pu R3 E1 E2]; subst l2 l2'; cbn [List.length]; [lia|].
        destruct (pieces_ends _ _ _ Pu) as [f [r [_ [_ [Ef _]]]]]. rewrite Ef. cbn [app List.length]. lia. }
      rewrite <- (same_value k (List.length l1') y z Hy Hz Sm Lst) in Htd.
      eapply wk_go; [lia|exact Hz| |exact Htd|]. { destruct Sm as [S1 [S2 [S3 S4]]]. split; apply Rleb_le; lra. }
      replace (S (List.length l1')) with (List.length l1' + 1)%nat by lia. exact Hw.
    - destruct (ok_thick rad y (rg_ok y Iy) Hk) as [Sp Ne].
      destruct (Rg y Iy) as [E|[Pl|[_ [E _]]]]; [destruct Hk as [_ [Hk _]]; lra| |destruct Hk as [Hk _]; unfold rad in Hk; lra].
      destruct (thick_exists _ _ Hk Sp) as [A [B HP]].
      destruct (plain_values m p _ w y A B td (layer_at m k y Hy) Pl HP Htd) as [Q1 Q2]. unfold bullen_time in Q1. unfold bullen_dist in Q2. rewrite Q1, Q2.
      assert (B0 : B <> 0).
      { intros ->. destruct HP as [E1 E2]. apply Ne. rewrite E1, E2. destruct Hk as [K1 [K2 K3]]. rewrite !Rpower_O by lra. reflexivity. }
      apply (walk_tiles A B e (sl_topP y) (sl_topDepth y) ys (sl_botP y) (sl_botDepth y) (proj1 Hp)) with (l2 := l2'); [|exact P0|exact B0|exact El'|exact Le|exact Hw].
      intros z Hz. pose proof (pieces_law rad y ys Hp z A B Hz HP) as HPz.
      destruct (rf_between rad ls Hu rg_ok y ys z Iy Hp Hz) as [B1 [B2 _]].
      assert (Iz : In z ls') by (rewrite El'; apply in_or_app; right; apply in_or_app; left; exact Hz).
      split; [|split; [exact HPz|unfold btw in *; split; lra]].
      destruct (Rg' z Iz) as [E|[Plz|[_ [E _]]]]; [|exact Plz|].
      + exfalso. pose proof Hp as [_ [[u Eu]|[_ F]]].
        * pose proof (one_same _ _ _ Hp u Eu) as [_ [S2 [_ S4]]]. rewrite Eu in Hz. destruct Hz as [<-|[]]. destruct Hk as [_ [Hk _]]. lra.
        * destruct (F z Hz) as [Fz _]. unfold fat in Fz. lra.
      + exfalso. pose proof (pieces_range rad y ys Hp Uy z Hz) as [_ X]. destruct Hk as [Hk _]. unfold rad in Hk. lra.
  Qed.
  (** a layer that is not crossed: its first piece is not crossed either *)
  Lemma first_stops : forall y ys f r, In y ls -> pieces rad y ys -> ys = f :: r -> ~ crosses p y -> ~ spans y p -> ~ crosses p f /\ ~ spans f p.
  Proof.
    intros y ys f r Iy Hp Ef Nc Ns. destruct (rf_between rad ls Hu rg_ok y ys f Iy Hp ltac:(rewrite Ef; left; reflexivity)) as [B1 [B2 [B3 B4]]].
    destruct (pieces_ends _ _ _ Hp) as [f' [r' [_ [_ [Ef' [_ [T1 _]]]]]]]. assert (f' = f) by congruence. subst f'.
    assert (Sm : sl_topP y = sl_botP y -> sl_botP f = sl_botP y) by (intros E; unfold btw in B2; lra).
    unfold crosses, spans in *. cbn [n_leb n_ltb n_sub n_mul Num_R] in *. rewrite n_0_R in *.
    assert (C : ~ (p <= sl_topP y /\ p <= sl_botP y)) by (intros [X Y]; apply Nc; split; apply Rleb_le; assumption).
    assert (D : ~ 0 < (sl_topP y - p) * (p - sl_botP y)) by (intros X; apply Ns; apply Rltb_lt; exact X).
    unfold btw in B2. rewrite T1 in *.
    assert (Mx : sl_topP y <= p /\ sl_botP y <= p).
    { split; apply Rnot_lt_le; intros X; [destruct (Rle_dec p (sl_botP y)); [apply C; lra|]|destruct (Rle_dec p (sl_topP y)); [apply C; lra|]]; apply D; nra. }
    split.
    - intros [X Y]. apply Rleb_le in X, Y. apply C.
      destruct (Rtotal_order (sl_topP y) (sl_botP y)) as [L|[E|L]]; [lra|lra|]. specialize (B4 L). lra.
    - intros X. apply Rltb_lt in X. nra.
  Qed.
  Lemma walk_refines : forall a a', refines rad a a' -> forall l1 l1' b b' d t, ls = l1 ++ a ++ b -> ls' = l1' ++ a' ++ b' -> refines rad b b' ->
    walk m w p (List.length l1 + List.length a) (List.length l1) d t -> walk m' w p (List.length l1' + List.length a') (List.length l1') d t.
  Proof.
    intros a a' Ra. induction Ra as [|y l ys l' Hp Rl IH]; intros l1 l1' b b' d t El El' Rb Hw.
    - cbn [List.length] in *. rewrite Nat.add_0_r in *. inversion Hw; subst; [constructor|lia|lia].
    - assert (Hy : nth_error ls (List.length l1) = Some y) by (rewrite El, nth_error_app2, Nat.sub_diag by lia; reflexivity).
      assert (Iy : In y ls) by (eapply nth_error_In; exact Hy).
      destruct (pieces_ends _ _ _ Hp) as [f [r [_ [_ [Ef _]]]]].
      assert (Hf : nth_error ls' (List.length l1') = Some f) by (rewrite El', Ef, nth_error_app2, Nat.sub_diag by lia; reflexivity).
      cbn [List.length] in Hw. remember (List.length l1 + S (List.length l))%nat as e eqn:Ee.
      inversion Hw as [Eq Ed|k z Lk Hz Nc Ns Eq Ed|k z td d0 t0 Lk Hz Cr Htd Hw' Eq Ed]; [exfalso; lia| |].
      + assert (z = y) by (unfold ls in Hy; congruence). subst z. destruct (first_stops y ys f r Iy Hp Ef Nc Ns) as [N1 N2].
        eapply wk_stop; [rewrite app_length, Ef; cbn [List.length]; lia|exact Hf|exact N1|exact N2].
      + assert (z = y) by (unfold ls in Hy; congruence). subst z.
        apply (walk_pieces _ (List.length l1) y ys l1 (l ++ b) l1' (l' ++ b') d0 t0); [exact El|reflexivity|exact Hp|rewrite El', <- app_assoc; reflexivity|apply refines_app; assumption|rewrite app_length; lia|exact Htd|].
        assert (X : walk m' w p (List.length (l1' ++ ys) + List.length l') (List.length (l1' ++ ys)) d0 t0).
        { apply (IH (l1 ++ [y]) (l1' ++ ys) b b'); [rewrite El, <- !app_assoc; reflexivity|rewrite El', <- !app_assoc; reflexivity|exact Rb|].
          rewrite app_length. cbn [List.length]. replace (List.length l1 + 1 + List.length l)%nat with e by lia. replace (List.length l1 + 1)%nat with (S (List.length l1)) by lia. exact Hw'. }
        rewrite app_length in X |- *. replace (List.length l1' + (List.length ys + List.length l'))%nat with (List.length l1' + List.length ys + List.length l')%nat by lia. exact X.
  Qed.

End Walk.

(** ** branches *)
Section Branches.
  Variables (m m' : smodel R) (w : bool).
  Let rad := sm_radius m.
  Let ls := sm_layers m w.
  Let ls' := sm_layers m' w.
  Hypothesis Er : sm_radius m' = sm_radius m.
  Hypothesis Et : sm_tolerance m' = sm_tolerance m.
  Hypothesis Hr : refines rad ls ls'.
  Hypothesis Hm : s_meet ls.
  Hypothesis Hu : s_upright ls.
  Hypothesis Rg : forall y, In y ls -> sl_topDepth y = sl_botDepth y \/ plain_layer m y \/ centre_layer m y.
  Hypothesis Rg' : forall y, In y ls' -> sl_topDepth y = sl_botDepth y \/ plain_layer m' y \/ centre_layer m' y.
  Variable b : tbranch R.
  Hypothesis Lt : tb_top b < tb_bot b.
  Hypothesis Bt : bnd ls (tb_top b).
  Hypothesis Bb : bnd ls (tb_bot b).

  Let Hm' : s_meet ls'.
  Proof. eapply rf_meet; eassumption. Qed.
  Let Hu' : s_upright ls'.
  Proof. eapply rf_upright; eassumption. Qed.

  Lemma kept_rays : forall rp, all_rays m w rp b -> all_rays m' w rp b.
  Proof.
    intros rp [L1 [L2 [L3 Ra]]]. split; [exact L1|]. split; [exact L2|]. split; [exact L3|].
    intros k p d t u Hp Hd Ht Hta. destruct (Ra k p d t u Hp Hd Ht Hta) as [Eu C]. split; [exact Eu|].
    destruct C as [C|[Le [i [j [incs [Di [Sj [De [-> ->]]]]]]]]]; [left; exact C|right]. split; [exact Le|].
    destruct (deep_fat ls _ _ i j Hm Hu Bt Bb Lt Di Sj) as [yi [yj [Hi [Hj [Fi [Fj [Ti [Tj Lij]]]]]]]].
    destruct De as [De|[De _]]; [|lia].
    destruct (segment_exists rad ls ls' Hr i j yi yj Hi Hj Fi Fj Lij) as [l1 [a [c [l1' [a' [c' Sg]]]]]].
    pose proof Sg as [E [E' [_ [Rra [Rrb [Le1 [Le2 [[f [Hf [Ff [Tf _]]]] [e [n [Ln [_ [He [Fe Be]]]]]]]]]]]]]].
    assert (Lj : (j < List.length ls)%nat) by (apply nth_error_Some; congruence).
    apply descends_walk in De; [|exact Lj]. rewrite <- Le1, <- Le2 in De.
    apply (walk_refines m m' w Er Et Hu Rg Rg' p a a' Rra l1 l1' c c') in De; [|exact E|exact E'|exact Rrb].
    rewrite Ln in De. apply walk_descends in De. destruct De as [incs' [De [X1 X2]]].
    exists (List.length l1'), n, incs'. split; [eapply fat_deep; [exact Hm'|exact Hu'|exact Hf|exact Ff|congruence]|].
    split; [eapply fat_shallow; [exact Hm'|exact Hu'|exact He|exact Fe|congruence]|]. split; [left; exact De|].
    destruct (sum_total incs) as [-> ->], (sum_total incs') as [-> ->]. auto.
  Qed.
  Lemma kept_steady : tb_isP b = w -> steady m b -> steady m' b.
  Proof.
    intros Ew St i' j' Di' Sj'. unfold steady in St. rewrite Ew in *.
    destruct (has_deepest ls (tb_top b) Hu Bt) as [i Di], (has_shallowest ls (tb_bot b) Hu Bb) as [j Sj].
    destruct (deep_fat ls _ _ i j Hm Hu Bt Bb Lt Di Sj) as [yi [yj [Hi [Hj [Fi [Fj [Ti [Tj Lij]]]]]]]].
    destruct (segment_exists rad ls ls' Hr i j yi yj Hi Hj Fi Fj Lij) as [l1 [a [c [l1' [a' [c' Sg]]]]]].
    pose proof Sg as [E [E' [_ [Rra [Rrb [Le1 [Le2 [[f [Hf [Ff [Tf _]]]] [e [n [Ln [_ [He [Fe Be]]]]]]]]]]]]]].
    assert (i' = List.length l1').
    { eapply (deep_u m' w); [exact Di'|]. eapply fat_deep; [exact Hm'|exact Hu'|exact Hf|exact Ff|congruence]. }
    assert (j' = n).
    { eapply (shallow_u m' w); [exact Sj'|]. eapply fat_shallow; [exact Hm'|exact Hu'|exact He|exact Fe|congruence]. }
    subst i' j'. destruct (rf_falls rad ls ls' Hu (rg_ok m w Rg) i j yi yj Lij l1 a c l1' a' c' n Sg Ln) as [F1 F2].
    destruct (St i j Di Sj) as [F|F]; [left; apply F1; exact F|right; apply F2; exact F].
  Qed.
End Branches.

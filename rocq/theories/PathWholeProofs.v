(** Proofs for PathProps.v: the whole path. *)
From Coq Require Import ZArith Bool List String Reals Lra Lia.
From Verif Require Import Base Num PyStr VelocityModel SlownessLayer SlownessModel SlowSpec SlowProofs TauModel SeismicPhase Pierce
  TauSpec TauProofs CurveSpec CurveProofs PierceSpec PierceProofs SlowRealProofs PathSpec PathProofs.
Import ListNotations.
Local Open Scope list_scope.
Local Open Scope R_scope.

(** ** no piece is negative *)
Lemma checked : forall (a b : R) (x r : timedist R),
  (if (a <? n_0)%num || (b <? n_0)%num || n_isnan a || n_isnan b then Raise SlownessModelError else Ok x) = Ok r ->
  0 <= a /\ 0 <= b /\ r = x.
Proof.
  intros a b x r H. cbn [n_ltb n_isnan Num_R] in H. rewrite !n_0_R in H.
  destruct (Rltb_spec a 0); [discriminate|]. destruct (Rltb_spec b 0); [discriminate|]. cbn in H. injection H as <-. split; [lra|]. split; [lra|reflexivity].
Qed.
Lemma bullen_nonneg : forall (y : slayer R) q x rad, bullenRadialSlowness y q rad = Ok x -> 0 <= td_time x /\ 0 <= td_dist x.
Proof.
  intros y q x rad H. unfold bullenRadialSlowness in H.
  assert (Z0 : 0 <= td_time (td_new q) /\ 0 <= td_dist (td_new q)) by (unfold td_new; cbn [td_time td_dist]; rewrite n_0_R; lra).
  destruct (_ =? _)%num; [injection H as <-; exact Z0|]. destruct (_ <? _)%num; [injection H as <-; exact Z0|].
  do 11 (inv_bind H). apply checked in H. destruct H as [A [B ->]]. cbn. auto.
Qed.
Lemma layer_nonneg : forall (m : smodel R) w p k x, layerTimeDist m p k w = Ok x -> 0 <= td_time x /\ 0 <= td_dist x.
Proof.
  intros m w p k x H. unfold layerTimeDist in H. inv_as H as y Hy.
  assert (Z0 : 0 <= td_time (td_new p) /\ 0 <= td_dist (td_new p)) by (unfold td_new; cbn [td_time td_dist]; rewrite n_0_R; lra).
  destruct (_ >? _)%num; [discriminate|]. destruct (_ <? _)%num; [discriminate|].
  destruct (_ >? _)%num; [discriminate|]. destruct (_ =? _)%num; [injection H as <-; exact Z0|].
  destruct (_ && _)%bool.
  - destruct (negb _); [discriminate|]. inv_as H as dd Hd. rewrite <- orb_assoc, (orb_comm (n_isnan (sl_topP y))), orb_assoc in H. apply checked in H.
    destruct H as [A [B ->]]. cbn. auto.
  - inv_as H as v1 H1. inv_as H as v2 H2. destruct (_ <? _)%num.
    + unfold constVelTimeDist in H. do 6 (inv_bind H). rewrite <- orb_assoc, (orb_comm (n_isnan _)), orb_assoc in H. apply checked in H. destruct H as [A [B ->]]. cbn. auto.
    + eapply bullen_nonneg. exact H.
Qed.
Definition piece_pos (x : timedist R) : Prop := 0 <= td_time x /\ 0 <= td_dist x.
Lemma passes_pos : forall m w p k tm d z, passes m w p k tm d -> piece_pos (mkTD p tm d z).
Proof. intros m w p k tm d z [x [H [<- <-]]]. apply layer_nonneg in H. exact H. Qed.
Lemma turns_pos : forall (m : smodel R) p y z tm d z', turns m p y z tm d -> piece_pos (mkTD p tm d z').
Proof. intros m p y z tm d z' [_ [_ [_ [x [H [<- <-]]]]]]. apply bullen_nonneg in H. exact H. Qed.
Lemma descent_pos : forall m w p e k l, descent m w p e k l -> Forall piece_pos l.
Proof.
  intros m w p e k l H. induction H; auto.
  - constructor; [eapply passes_pos; eassumption|assumption].
  - constructor; [eapply turns_pos; eassumption|constructor].
Qed.
Lemma climb_pos : forall m w p i k l, climb m w p i k l -> Forall piece_pos l.
Proof.
  intros m w p i k l H. induction H; auto. constructor; [eapply passes_pos; eassumption|assumption].
Qed.
Lemma leg_pos : forall m w p b down l, leg_points m w p b down l -> Forall piece_pos l.
Proof.
  intros m w p b down l [[_ ->]|[_ [_ [i [j [y [y' [_ [_ [_ [_ [_ [_ H]]]]]]]]]]]]]; [constructor|].
  destruct down; [eapply descent_pos; exact H|].
  destruct H as [e [u [_ [_ [_ [_ [[_ H]|[_ [z [tm [d [l' [Ht [H ->]]]]]]]]]]]]]]; [eapply climb_pos; exact H|].
  constructor; [eapply turns_pos; exact Ht|eapply climb_pos; exact H].
Qed.
Lemma forward : forall x : timedist R, piece_pos x ->
  (let! y := td_distDeg x in guard (negb (y <? n_0)%num) RuntimeError) = Ok tt.
Proof.
  intros x Hx. unfold td_distDeg. cbn [m_pi Libm_R]. pose proof PI_RGT_0. rewrite py_div_R by lra. cbn [bind n_mul n_ltb Num_R].
  assert (E : (n_lit 180 0 : R) = 180) by (cbn; unfold Rlit; cbn; ring). rewrite E, n_0_R.
  assert (0 <= td_dist x * 180 / PI). { destruct Hx. apply Rmult_le_pos; [lra|]. apply Rlt_le, Rinv_0_lt_compat. lra. }
  destruct (Rltb_spec (td_dist x * 180 / PI) 0); [lra|]. reflexivity.
Qed.
Lemma all_forward : forall l : list (timedist R), Forall piece_pos l ->
  exists r, mapM (fun td => let! x := td_distDeg td in guard (negb (x <? n_0)%num) RuntimeError) l = Ok r.
Proof.
  intros l H. induction H as [|x l Hx Hl [r IH]]; cbn [mapM]; [eauto|].
  rewrite (forward x Hx). cbn [bind]. rewrite IH. cbn. eauto.
Qed.

(** ** the pieces *)
Lemma both_iff : forall k s nxt,
  (sg_branch s =? k)%Z && match nxt with Some n => (sg_branch n =? k)%Z | None => false end = true <-> both_in k s nxt.
Proof.
  intros k s nxt. unfold both_in. rewrite andb_true_iff, Z.eqb_eq. destruct nxt as [n|].
  - rewrite Z.eqb_eq. split; [intros [A B]; eauto|intros [A [s' [E B]]]; injection E as ->; auto].
  - split; [intros [_ X]; discriminate|intros [_ [s' [X _]]]; discriminate].
Qed.
Lemma diff_iff : forall name, str_in "Pdiff" name || str_in "Sdiff" name = true <-> diffracted name.
Proof. intros name. unfold diffracted. rewrite orb_true_iff, !str_in_iff. tauto. Qed.
Lemma head_iff : forall name, str_in "Pn" name || str_in "Sn" name = true <-> head_wave name.
Proof. intros name. unfold head_wave. rewrite orb_true_iff, !str_in_iff. tauto. Qed.
Lemma head_count : forall name, head_wave name ->
  (0 < Z.max (Z.of_nat (str_count "Pn" name)) (Z.of_nat (str_count "Sn" name)))%Z.
Proof.
  intros name [H|H].
  - pose proof (count_pos "Pn" name H ltac:(discriminate)). lia.
  - pose proof (count_pos "Sn" name H ltac:(discriminate)). lia.
Qed.
Lemma extra_iff : forall (ph : phase R) a s nxt l, path_extra ph a s nxt = Ok l <-> boundary_piece ph a s nxt l.
Proof.
  intros ph a s nxt l. unfold path_extra, boundary_piece. cbv zeta.
  rewrite <- !both_iff. rewrite <- diff_iff, <- head_iff.
  set (bc := (sg_branch s =? tm_cmbBranch (ph_tMod ph) - 1)%Z && _).
  set (bm := (sg_branch s =? tm_mohoBranch (ph_tMod ph) - 1)%Z && _).
  set (df := str_in "Pdiff" (ph_name ph) || _). set (hd := str_in "Pn" (ph_name ph) || _).
  assert (Hn := head_count (ph_name ph)). rewrite <- head_iff in Hn. fold hd in Hn. clearbody bc bm df hd.
  assert (E1 : bc && df = true <-> bc = true /\ df = true) by apply andb_true_iff.
  assert (E2 : bm && hd = true <-> bm = true /\ hd = true) by apply andb_true_iff.
  destruct (bc && df) eqn:Ec.
  - split.
    + intros H. inv_as H as d0 H0. apply py_index_iff in H0. injection H as <-. left. split; [tauto|]. exists d0. auto.
    + intros [[_ [d0 [H0 ->]]]|[[X _]|[X _]]]; [|tauto|tauto]. apply py_index_iff in H0. rewrite H0. reflexivity.
  - assert (N1 : ~ (bc = true /\ df = true)) by (rewrite <- E1; discriminate).
    destruct (bm && hd) eqn:Em.
    + assert (P := Hn ltac:(tauto)). rewrite n_int_R.
      assert (Nz : IZR (Z.max (Z.of_nat (str_count "Pn" (ph_name ph))) (Z.of_nat (str_count "Sn" (ph_name ph)))) <> 0) by (apply not_0_IZR; lia).
      split.
      * intros H. inv_as H as d0 H0. apply py_index_iff in H0. rewrite py_div_R in H by exact Nz. cbn [bind] in H. injection H as <-.
        right. left. split; [exact N1|]. split; [tauto|]. eexists _, _. split; [exact H0|]. split; reflexivity.
      * intros [[X _]|[[_ [_ [d0 [n [H0 [-> ->]]]]]]|[_ [X _]]]]; [tauto| |tauto]. apply py_index_iff in H0. rewrite H0. cbn [bind].
        rewrite py_div_R by exact Nz. reflexivity.
    + assert (N2 : ~ (bm = true /\ hd = true)) by (rewrite <- E2; discriminate). split.
      * intros H. injection H as <-. right. right. auto.
      * intros [[X _]|[[_ [X _]]|[_ [_ ->]]]]; [tauto|tauto|reflexivity].
Qed.

Lemma leg_upright : forall t s b, path_ready t -> leg_branch t s b -> tb_top b < tb_bot b.
Proof.
  intros t s b [_ [UP US]] H. apply at_index_pos in H. apply nth_error_In in H. apply Rltb_lt. destruct (sg_isP s); [apply UP|apply US]; exact H.
Qed.
Lemma pieces_iff : forall fuel (ph : phase R) a, path_ready (ph_tMod ph) ->
  (forall w, List.length (sm_layers (tm_sMod (ph_tMod ph)) w) <= fuel)%nat ->
  forall seq l, path_pieces fuel ph a seq = Ok l <-> way ph a seq l.
Proof.
  intros fuel ph a Hr Hf seq. induction seq as [|s seq IH]; intros l; cbn [path_pieces].
  - split; [intros H; injection H as <-; constructor|intros H; inversion H; reflexivity].
  - assert (Main : forall b, leg_branch (ph_tMod ph) s b -> forall own,
      (exists o, tb_path fuel b (ar_rayParam a) (sg_down s) (tm_sMod (ph_tMod ph)) = Ok o /\ own = match o with Some p => p | None => [] end) <->
      leg_points (tm_sMod (ph_tMod ph)) (tb_isP b) (ar_rayParam a) b (sg_down s) own).
    { intros b Hb own. assert (Up := leg_upright _ _ _ Hr Hb). destruct Hr as [Hg _]. destruct (Hg (tb_isP b)) as [Hm Hu].
      destruct (tb_path_iff fuel b (ar_rayParam a) (sg_down s) (tm_sMod (ph_tMod ph)) Hm Hu (proj2 (Rltb_true _ _) Up) (Hf _)) as [I1 I2].
      split.
      - intros [[l0|] [Ho ->]]; [apply I2 in Ho; tauto|]. apply I1 in Ho. left. auto.
      - intros H. destruct (tb_maxRP b <? ar_rayParam a)%num eqn:E.
        + exists None. split; [apply I1; reflexivity|]. destruct H as [[_ H]|[X _]]; [exact H|congruence].
        + exists (Some own). split; [|reflexivity]. apply I2. auto. }
    split.
    + intros H. inv_as H as b Hb. unfold getTauBranch in Hb. apply py_index_iff in Hb. inv_as H as o Ho. inv_as H as ck Hc. inv_as H as ex He. inv_as H as rest Hrest.
      injection H as <-. apply extra_iff in He. apply IH in Hrest. apply (way_cons ph a s seq b _ ex rest); [exact Hb| |destruct seq; exact He|exact Hrest].
      apply (Main b Hb). exists o. auto.
    + intros H. inversion H as [|s' l' b own ex rest Hb Hl He Hrest]; subst s' l'. subst l. assert (Hb' := Hb). apply py_index_iff in Hb'. unfold getTauBranch. rewrite Hb'. cbn [bind].
      assert (Pos := leg_pos _ _ _ _ _ _ Hl). apply (Main b Hb) in Hl. destruct Hl as [o [-> E]]. cbn [bind]. rewrite <- E.
      destruct (all_forward own Pos) as [ck ->]. cbn [bind]. apply extra_iff in He.
      replace (match seq with [] => None | n :: _ => Some n end) with (hd_error seq) by (destruct seq; reflexivity). rewrite He. cbn [bind].
      apply IH in Hrest. rewrite Hrest. reflexivity.
Qed.

(** ** running sums *)
Lemma total_app : forall {A} (f : A -> R) l l', total f (l ++ l') = total f l + total f l'.
Proof.
  intros A f l l'. induction l as [|x l IH]; [cbn [app]; change (total f l' = 0 + total f l'); ring|].
  change (f x + total f (l ++ l') = f x + total f l + total f l'). rewrite IH. ring.
Qed.
Lemma cumulate_spec : forall p l c, td_p c = p ->
  List.length (cumulate c l) = List.length l /\
  forall n x, nth_error (cumulate c l) n = Some x -> exists y, nth_error l n = Some y /\
    x = mkTD p (td_time c + total td_time (firstn (S n) l)) (td_dist c + total td_dist (firstn (S n) l)) (td_depth y).
Proof.
  intros p l. induction l as [|z l IH]; intros c Hc; cbn [cumulate].
  - split; [reflexivity|]. intros n x H. destruct n; discriminate.
  - destruct (IH (td_at (td_add c z) (td_depth z)) Hc) as [E1 E2]. split; [cbn; rewrite E1; reflexivity|].
    intros [|n] x H; cbn [nth_error] in H.
    + injection H as <-. exists z. split; [reflexivity|]. unfold td_at, td_add. cbn [td_p td_time td_dist td_depth firstn n_add Num_R]. unfold total. cbn [fold_right]. rewrite Hc. f_equal; ring.
    + destruct (E2 n x H) as [y [Hy ->]]. exists y. split; [exact Hy|]. unfold td_at, td_add. cbn [td_time td_dist td_p td_depth n_add Num_R].
      change (firstn (S (S n)) (z :: l)) with (z :: firstn (S n) l). cbn [total fold_right].
      fold (total td_time (firstn (S n) l)) (total td_dist (firstn (S n) l)). f_equal; ring.
Qed.
Lemma nth_same : forall {A} (x y : list A), (forall n, nth_error x n = nth_error y n) -> x = y.
Proof.
  intros A x. induction x as [|u x IH]; intros [|v y] H; [reflexivity|specialize (H 0%nat); discriminate|specialize (H 0%nat); discriminate|].
  assert (E := H 0%nat). cbn in E. injection E as ->. f_equal. apply IH. intros n. exact (H (S n)).
Qed.
Lemma running_fun : forall p l x y, running p l x -> running p l y -> x = y.
Proof.
  intros p l x y [A1 A2] [B1 B2]. apply nth_same. intros n.
  destruct (nth_error x n) as [u|] eqn:Eu; destruct (nth_error y n) as [v|] eqn:Ev.
  - destruct (A2 n u Eu) as [a [Ha ->]]. destruct (B2 n v Ev) as [b [Hb ->]]. congruence.
  - assert (n < List.length x)%nat by (apply nth_error_Some; congruence). apply nth_error_None in Ev. lia.
  - assert (n < List.length y)%nat by (apply nth_error_Some; congruence). apply nth_error_None in Eu. lia.
  - reflexivity.
Qed.
Lemma cumulate_running : forall p z l, running p l (cumulate (mkTD p n_0 n_0 z) l).
Proof.
  intros p z l. destruct (cumulate_spec p l (mkTD p n_0 n_0 z) eq_refl) as [A B]. split; [exact A|].
  intros n x H. destruct (B n x H) as [y [Hy ->]]. exists y. split; [exact Hy|]. cbn [td_time td_dist]. rewrite n_0_R. f_equal; ring.
Qed.
Lemma path_iff : forall fuel (ph : phase R) a a', path_ready (ph_tMod ph) ->
  (forall w, List.length (sm_layers (tm_sMod (ph_tMod ph)) w) <= fuel)%nat ->
  calcPathFromArrival fuel ph a = Ok a' <->
  exists pieces last path, way ph a (ph_seq ph) pieces /\
    ((contains "kmps" (ph_name ph) /\ last = [mkTD (ar_rayParam a) (ar_dist a * ar_rayParam a) (ar_dist a) 0]) \/
     (~ contains "kmps" (ph_name ph) /\ last = [])) /\
    running (ar_rayParam a) (mkTD (ar_rayParam a) 0 0 (tm_sourceDepth (ph_tMod ph)) :: pieces ++ last) path /\
    a' = mkArr (ar_time a) (ar_dist a) (ar_rayParam a) (ar_index a) (ar_name a) (ar_purist a)
           (ar_sourceDepth a) (ar_takeoff a) (ar_incident a) (ar_pierce a) path.
Proof.
  intros fuel ph a a' Hr Hf. unfold calcPathFromArrival. cbv zeta. rewrite !n_0_R.
  assert (Last : forall last, ((contains "kmps" (ph_name ph) /\ last = [mkTD (ar_rayParam a) (ar_dist a * ar_rayParam a) (ar_dist a) 0]) \/
     (~ contains "kmps" (ph_name ph) /\ last = [])) <->
     last = if str_in "kmps" (ph_name ph) then [mkTD (ar_rayParam a) (ar_dist a * ar_rayParam a) (ar_dist a) 0] else []).
  { intros last. pose proof (str_in_iff "kmps" (ph_name ph)) as I. destruct (str_in "kmps" (ph_name ph)).
    - split; [intros [[_ H]|[X _]]; [exact H|tauto]|intros H; left; tauto].
    - split; [intros [[X _]|[_ H]]; [assert (false = true) by tauto; discriminate|exact H]|intros H; right; split; [intros X; assert (false = true) by tauto; discriminate|exact H]]. }
  split.
  - intros H. inv_as H as l Hl. apply (pieces_iff fuel ph a Hr Hf) in Hl.
    match type of H with Ok ?v = Ok _ => assert (E : a' = v) by congruence end. clear H. subst a'.
    exists l. eexists. eexists. split; [exact Hl|]. split; [apply Last; reflexivity|]. split; [|reflexivity].
    pose proof (cumulate_running (ar_rayParam a) (ar_sourceDepth a)) as C. rewrite n_0_R in C. apply C.
  - intros [l [last [path [Hl [Hk [Hp ->]]]]]]. apply (pieces_iff fuel ph a Hr Hf) in Hl. rewrite Hl. cbn [bind]. apply Last in Hk. subst last. do 2 f_equal.
    eapply running_fun; [|exact Hp]. pose proof (cumulate_running (ar_rayParam a) (ar_sourceDepth a)) as C. rewrite n_0_R in C. apply C.
Qed.

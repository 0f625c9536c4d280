(** Property C59: printed output. *)
From Coq Require Import ZArith NArith Bool List String Ascii Reals SpecFloat Lia Lra.
From Verif Require Import Base Num PyStr VelocityModel SlownessModel TauModel Legs SeismicPhase TauPTime
  VelSpec VelProofs NameSpec TimeSpec TimeProofs CalcTimeProofs TimeProps Toy Printing PrintSpec PrintProofs.
Import ListNotations.
Local Open Scope string_scope.

(** ** C59: numbers *)
Theorem C59_number : forall dp (x : R), shows dp x (fixed dp x).
Proof. exact fixed_R. Qed.
Theorem C59_number_double : forall dp (x : b64) neg mag, magnitude x mag -> signed x neg ->
  shows_signed dp neg mag (fixed dp x).
Proof. exact fixed_b64. Qed.
(** halves go to the even digit, the sign of a number rounded to zero is kept *)
Example C59_number_ex :
  fixed 2 (d 125 (-3)) = "0.12" /\ fixed 2 (d 375 (-3)) = "0.38" /\ fixed 1 (d (-4) (-2)) = "-0.0" /\
  fixed 3 (d 123456789 (-5)) = "1234.568" /\ fixed 2 (d 5 (-3)) = "0.01" /\ fixed 2 (d 15 (-3)) = "0.01" /\
  (exists m, magnitude (d 125 (-3)) m /\ signed (d 125 (-3)) false).
Proof. repeat (split; [vm_compute; reflexivity|]). eexists. split; vm_compute; reflexivity. Qed.

(** ** C59: printing and returning *)

(** What is returned does not depend on what is printed, and the query with output fails exactly
    when the one without fails. *)
Theorem C59_quiet : forall {T} {N : Num T} {L : Libm T} {D : Dec T} (show : T -> string)
  fuel order w (t : tmodel T) depth degrees names coords,
  snd (get_travel_times_out show fuel order w t depth degrees names coords false) =
  match get_travel_times show fuel order w t depth degrees names coords with
  | Ok (w', t', arrs) => Ok (w', t', Some arrs)
  | Raise e => Raise e
  | Diverge => Diverge
  end.
Proof.
  intros. unfold get_travel_times_out, get_travel_times, tt_run. cbv zeta.
  rewrite snd_obind, run_snd. destruct (tt_rerun _ _ _ _ _ _ _ _ _) as [[w' s']| |]; reflexivity.
Qed.

Theorem C59_fails : forall {T} {N : Num T} {L : Libm T} {D : Dec T} (show : T -> string)
  fuel order w (t : tmodel T) depth degrees names coords,
  (forall e, get_travel_times show fuel order w t depth degrees names coords = Raise e ->
     snd (get_travel_times_out show fuel order w t depth degrees names coords true) = Raise e) /\
  (get_travel_times show fuel order w t depth degrees names coords = Diverge ->
     snd (get_travel_times_out show fuel order w t depth degrees names coords true) = Diverge).
Proof.
  intros. unfold get_travel_times_out, get_travel_times, tt_run, run_out, tt_rerun. cbv zeta.
  rewrite !snd_obind. cbn [quiet snd].
  destruct (query_degrees degrees coords) as [deg|e|]; cbn [bind]; [|split; congruence..].
  rewrite snd_obind, depthCorrect_snd.
  destruct (tt_depthCorrect _ _ _ _ _) as [[w1 s1]|e|]; cbn [bind]; [|split; congruence..].
  rewrite snd_obind, calculate_snd.
  destruct (calculate show fuel w1 s1 deg) as [[w2 s2]|e|]; cbn [bind]; split; congruence.
Qed.
Example C59_fails_ex :
  get_travel_times no_show 50 (nodup string_dec) [] toy_tMod (d 100 0) None (Some ["P"]) None = Raise ValueError.
Proof. reflexivity. Qed.

(** The lines printed by a query without output: the names that are refused, once if the model is
    already for this depth and twice otherwise. *)
Theorem C59_announced : forall {T} {N : Num T} {L : Libm T} {D : Dec T} (show : T -> string)
  fuel order w (t : tmodel T) depth degrees names coords w' t' arrs,
  set_order_ok order -> n_ok depth ->
  get_travel_times show fuel order w t depth degrees names coords = Ok (w', t', arrs) ->
  exists td id bad,
    ((n_eqb (tm_sourceDepth t) depth = true /\ w' = w /\ t' = t /\ td = t) \/
     (n_eqb (tm_sourceDepth t) depth = false /\ tm_depthCorrect fuel w t depth = Ok (w', t', td))) /\
    refused (newPhase show w' td id)
            (parsePhaseList order (match names with Some l => l | None => ["ttall"] end)) bad /\
    fst (get_travel_times_out show fuel order w t depth degrees names coords false) =
    map (fun n => "Error with this phase, skipping it: " ++ n)
        (if n_eqb (tm_sourceDepth t) depth then bad else (bad ++ bad)%list).
Proof.
  intros T N L D show fuel order w t depth degrees names coords w' t' arrs Ho Hd H.
  unfold get_travel_times, tt_run in H. inv_as H as [w1 s1] H1. injection H as <- <- <-.
  destruct (run_lines show fuel order w t (vm_name (sm_vMod (tm_sMod t))) _ depth degrees coords w1 s1 Ho Hd H1)
    as [td [id [Hs [_ E]]]].
  exists td, id, (filter (refuses (newPhase show w1 td id))
                    (parsePhaseList order (match names with Some l => l | None => ["ttall"] end))).
  split; [exact Hs|]. split; [apply refused_filter|].
  unfold get_travel_times_out. cbv zeta.
  rewrite fst_obind with (a := (w1, s1)) by (rewrite run_snd; exact H1).
  cbn [quiet fst]. rewrite app_nil_r, E. unfold said.
  destruct (n_eqb (tm_sourceDepth t) depth); [apply app_nil_r|rewrite map_app; reflexivity].
Qed.

Local Open Scope R_scope.

(** lengths *)
Lemma spells_low : forall s c, all_chars is_dec_digit (String c s) -> c <> "0"%char ->
  (10 ^ Z.of_nat (String.length s) <= spells 0 (String c s))%Z.
Proof.
  intros s c H Hc. inversion H as [|c' l Hd Hl]; subst. cbn [spells]. rewrite spells_acc.
  assert (H1 : (1 <= Z.of_nat (nat_of_ascii c) - 48)%Z).
  { unfold is_dec_digit in Hd. assert (nat_of_ascii c <> 48%nat); [|lia]. intros F.
    apply Hc. rewrite <- (ascii_nat_embedding c), F. reflexivity. }
  assert (H2 : (0 <= spells 0 s)%Z).
  { clear - Hl. fold (all_chars is_dec_digit s) in Hl.
    assert (G : forall s a, (0 <= a)%Z -> all_chars is_dec_digit s -> (0 <= spells a s)%Z); [|apply G; [lia|exact Hl]].
    clear. induction s as [|c s IH]; intros a Ha H; cbn [spells]; [assumption|].
    inversion H as [|c' l Hd Hl]; subst. apply IH; [unfold is_dec_digit in Hd; lia|exact Hl]. }
  assert (0 < 10 ^ Z.of_nat (String.length s))%Z by (apply Z.pow_pos_nonneg; lia). nia.
Qed.
Lemma shows_length : forall dp x j s, shows dp x s -> 0 <= x -> x <= 10 ^ j - 1 -> (1 <= j)%nat -> (1 <= dp)%nat ->
  (String.length s <= j + 1 + dp)%nat.
Proof.
  intros dp x j s [neg [Hn [ip [fp [-> [[P1 [P2 P3]] [F [Lf [V _]]]]]]]]] H0 Hx Hj Hdp.
  assert (neg = false) by (destruct neg; [exfalso; assert (x < 0) by (apply Hn; reflexivity); lra|reflexivity]). subst neg.
  cbn [append]. rewrite !str_length_app. cbn [String.length]. rewrite Lf.
  enough (String.length ip <= j)%nat by lia.
  destruct P3 as [->|P3]; [cbn; lia|]. destruct ip as [|c ip]; [congruence|].
  destruct (Nat.le_gt_cases (String.length (String c ip)) j) as [|G]; [assumption|exfalso].
  cbn [String.length] in G.
  assert (A : (10 ^ Z.of_nat (String.length ip) <= spells 0 (String c ip))%Z).
  { apply spells_low; [assumption|]. intros ->. exact (P3 ip eq_refl). }
  assert (B : (10 ^ Z.of_nat j <= 10 ^ Z.of_nat (String.length ip))%Z) by (apply Z.pow_le_mono_r; lia).
  rewrite spells_app, spells_acc, Lf in V.
  assert (C : (0 <= spells 0 fp)%Z).
  { clear - F. assert (G : forall s a, (0 <= a)%Z -> all_chars is_dec_digit s -> (0 <= spells a s)%Z); [|apply G; [lia|exact F]].
    clear. induction s as [|c s IH]; intros a Ha H; cbn [spells]; [assumption|].
    inversion H as [|c' l Hd Hl]; subst. apply IH; [unfold is_dec_digit in Hd; lia|exact Hl]. }
  assert (E : IZR (10 ^ Z.of_nat j * 10 ^ Z.of_nat dp) <= x * 10 ^ dp + 1 / 2).
  { rewrite (Rabs_right x) in V by lra.
    pose proof (Rle_abs (- (x * 10 ^ dp - IZR (spells 0 (String c ip) * 10 ^ Z.of_nat dp + spells 0 fp)))) as Q.
    rewrite Rabs_Ropp in Q.
    assert (IZR (10 ^ Z.of_nat j * 10 ^ Z.of_nat dp) <= IZR (spells 0 (String c ip) * 10 ^ Z.of_nat dp + spells 0 fp)); [|lra].
    apply IZR_le. assert (0 < 10 ^ Z.of_nat dp)%Z by (apply Z.pow_pos_nonneg; lia). nia. }
  rewrite mult_IZR, !pow10_IZR in E.
  assert (10 <= 10 ^ dp).
  { replace dp with (S (dp - 1)) by lia. cbn [pow]. assert (1 <= 10 ^ (dp - 1)) by (apply pow_R1_Rle; lra). lra. }
  assert (x * 10 ^ dp <= (10 ^ j - 1) * 10 ^ dp) by (apply Rmult_le_compat_r; lra). lra.
Qed.

Lemma row_R : forall nsw depth (a : arrival R), exists s, row nsw depth a = Ok s.
Proof.
  intros nsw depth a. unfold row. destruct (modulo_spec a) as [x [-> _]]. cbn [bind].
  rewrite !n_int_R. change (@m_pi R Libm_R) with PI. rewrite py_div_R by lra. cbn [bind].
  rewrite py_div_R by (pose proof PI_RGT_0; lra). cbn [bind]. eexists. reflexivity.
Qed.
Lemma Forall2_choose : forall {A B} (P : A -> B -> Prop) l, (forall a, In a l -> exists b, P a b) -> exists m, Forall2 P l m.
Proof.
  intros A B P. induction l as [|a l IH]; intros H; [exists []; constructor|].
  destruct (H a (or_introl eq_refl)) as [b Hb]. destruct IH as [m Hm]; [intros; apply H; right; assumption|].
  exists (b :: m). constructor; assumption.
Qed.

Lemma line_R : forall deg depth nsw k (a : arrival R) s, cos (ar_dist a) = cos (rad deg) ->
  (nsw + 2 = Z.of_nat k)%Z -> (String.length (ar_name a) <= k)%nat -> row nsw depth a = Ok s ->
  table_line deg depth k a s.
Proof.
  intros deg depth nsw k a s Hc Ek Hk H.
  destruct (row_columns _ _ _ _ _ H Ek Hk) as [x [p [q [Ex [Ep [Eq C]]]]]].
  assert (Hf : folded deg x).
  { destruct (modulo_spec a) as [y [Ey [B E]]]. assert (x = y) by congruence. subst y. split; [assumption|]. congruence. }
  assert (Hp : p = ar_rayParam a * (PI / 180)).
  { unfold rayParam_sec_degree in Ep. rewrite n_int_R, py_div_R in Ep by lra. injection Ep as <-.
    change (@m_pi R Libm_R) with PI. change (@n_mul R Num_R) with Rmult. field. }
  assert (Hq : q = ar_dist a * (180 / PI)).
  { unfold purist_distance in Eq. change (@m_pi R Libm_R) with PI in Eq. pose proof PI_RGT_0.
    rewrite n_int_R, py_div_R in Eq by lra. injection Eq as <-. change (@n_mul R Num_R) with Rmult. field. lra. }
  set (tk := if n_eqb (ar_takeoff a) (n_opp n_0) then n_0 else ar_takeoff a) in C.
  assert (Ht : tk = ar_takeoff a).
  { unfold tk. change (n_eqb (ar_takeoff a) (n_opp n_0)) with (Reqb (ar_takeoff a) (- n_0)). rewrite n_0_R.
    destruct (Reqb_spec (ar_takeoff a) (- 0)) as [E|_]; [lra|reflexivity]. }
  clearbody tk. subst tk p q.
  exists x, (fixed 2 x), (fixed 1 depth), (fixed 2 (ar_time a)), (fixed 3 (ar_rayParam a * (PI / 180))),
    (fixed 2 (ar_takeoff a)), (fixed 2 (ar_incident a)), (fixed 2 (ar_dist a * (180 / PI))).
  split; [assumption|]. repeat (split; [apply fixed_R|]). split.
  - intros Hn Hpu. destruct (row_words _ _ _ _ Hn Hpu H) as [x' [p' [q' [E1 [E2 [E3 W]]]]]].
    exists (if String.eqb (ar_purist a) (ar_name a) then "=" else "*")%string. split.
    + destruct (String.eqb_spec (ar_purist a) (ar_name a)); [left|right]; auto.
    + rewrite Ex in E1. injection E1 as <-. rewrite Ep in E2. injection E2 as <-. rewrite Eq in E3. injection E3 as <-.
      replace (if n_eqb (ar_takeoff a) (n_opp n_0) then n_0 else ar_takeoff a) with (ar_takeoff a) in W; [exact W|].
      change (n_eqb (ar_takeoff a) (n_opp n_0)) with (Reqb (ar_takeoff a) (- n_0)). rewrite n_0_R.
      destruct (Reqb_spec (ar_takeoff a) (- 0)) as [E|_]; [lra|reflexivity].
  - intros B1 B2 B3 B4 B5 B6. destruct Hf as [Hf _].
    apply C.
    + apply (Nat.le_trans _ (3 + 1 + 2)); [|lia]. eapply shows_length; [apply fixed_R| | | |]; try lia; cbn; lra.
    + apply (shows_length 1 _ 3 _ (fixed_R _ _)); try lia; cbn; lra.
    + apply (shows_length 2 _ 5 _ (fixed_R _ _)); try lia; cbn; lra.
    + apply (shows_length 3 _ 4 _ (fixed_R _ _)); try lia; cbn; lra.
    + apply (shows_length 2 _ 3 _ (fixed_R _ _)); try lia; cbn; lra.
    + apply (Nat.le_trans _ (3 + 1 + 2)); [|lia]. apply (shows_length 2 _ 3 _ (fixed_R _ _)); try lia; cbn; lra.
    + apply (shows_length 2 _ 4 _ (fixed_R _ _)); try lia; cbn; lra.
Qed.

(** ** C59: the table *)
Theorem C59_table : forall (show : R -> string) fuel order w t depth degrees names coords deg w' t' arrs,
  set_order_ok order -> query_degrees degrees coords = Ok deg ->
  get_travel_times show fuel order w t depth degrees names coords = Ok (w', t', arrs) ->
  exists skipped l1 l2 rule rows,
    get_travel_times_out show fuel order w t depth degrees names coords false = (skipped, Ok (w', t', Some arrs)) /\
    get_travel_times_out show fuel order w t depth degrees names coords true =
      ((skipped ++ [String (ascii_of_nat 10) ("Model: " ++ vm_name (sm_vMod (tm_sMod t)))%string; l1; l2; rule] ++ rows)%list, Ok (w', t', None)) /\
    rule = rep "-" (String.length l1 - 2) /\
    (arrs = [] -> rows = [] /\ headings 7 l1 l2) /\
    (forall k, longest arrs k -> Forall2 (table_line deg depth k) arrs rows /\ ((2 <= k)%nat -> headings k l1 l2)).
Proof.
  intros show fuel order w t depth degrees names coords deg w' t' arrs Ho Hq H.
  assert (Hd : n_ok depth) by (apply Reqb_true; reflexivity).
  pose proof (C59_quiet show fuel order w t depth degrees names coords) as E0. rewrite H in E0.
  assert (Hdist : forall a, In a arrs -> cos (ar_dist a) = cos (rad deg)).
  { intros a Ha. apply travel_times_spec in H; [|assumption|assumption].
    destruct H as [dg [td [id [phs [ls [Hq' [_ [_ [F [P _]]]]]]]]]].
    assert (dg = deg) by congruence. subst dg.
    apply (Permutation.Permutation_in _ P) in Ha. apply in_concat in Ha. destruct Ha as [l [Hl Ha]].
    destruct (Forall2_In_r _ _ _ _ F Hl) as [ph [_ Hc]].
    destruct (C06_arrival_distance _ _ _ _ _ Hc Ha) as [_ [E _]]. exact E. }
  unfold get_travel_times, tt_run in H. inv_as H as [w1 s1] H1. injection H as <- <- <-.
  set (nm := vm_name (sm_vMod (tm_sMod t))) in *.
  set (pl := match names with Some l => l | None => ["ttall"] end) in *.
  destruct (run_lines show fuel order w t nm _ depth degrees coords w1 s1 Ho Hd H1)
    as [td [id [_ [Hdep _]]]].
  set (nsw := namespacewidth (tt_arrivals s1)).
  destruct (Forall2_choose (fun a x => row nsw depth a = Ok x) (tt_arrivals s1)) as [rows F].
  { intros a _. apply row_R. }
  set (q := get_travel_times_out show fuel order w t depth degrees names coords false) in *.
  exists (fst q), (lineOne nsw), (lineTwo nsw), (rep "-" (String.length (lineOne nsw) - 2)), rows.
  split; [rewrite <- E0; destruct q; reflexivity|]. split.
  - assert (E1 : run_out show fuel order w (tt_new t depth) nm pl depth degrees coords true =
       ((fst q ++ heading nm nsw ++ rows)%list, Ok (w1, s1))).
    { rewrite (run_true show fuel order w _ nm pl depth degrees coords w1 s1 H1).
      assert (Eq : run_out show fuel order w (tt_new t depth) nm pl depth degrees coords false = (fst q, Ok (w1, s1))).
      { pose proof (run_snd show fuel order w (tt_new t depth) nm pl depth degrees coords) as R. rewrite H1 in R.
        unfold q, get_travel_times_out. fold nm pl. cbv zeta.
        rewrite fst_obind with (a := (w1, s1)) by exact R. cbn [quiet fst]. rewrite app_nil_r.
        rewrite <- R. destruct (run_out _ _ _ _ _ _ _ _ _ _ _); reflexivity. }
      rewrite Eq. unfold obind at 1. cbn [fst snd].
      rewrite (printResult_spec nm s1 rows).
      2:{ rewrite Hdep. exact F. }
      cbn [obind quiet fst snd]. rewrite app_nil_r. reflexivity. }
    unfold get_travel_times_out. fold nm pl. cbv zeta. rewrite E1. cbn [obind quiet fst snd]. rewrite app_nil_r. reflexivity.
  - split; [reflexivity|]. split.
    + intros E. rewrite E in F. inversion F. split; [reflexivity|].
      subst nsw. rewrite E. apply (head_columns 5 5 eq_refl).
    + intros k [K1 [b [Hb K2]]].
      assert (Hne : tt_arrivals s1 <> []) by (intros E; rewrite E in Hb; destruct Hb).
      destruct (width_spec _ Hne) as [k' [Ek [M1 [c [Hc M2]]]]]. fold nsw in Ek.
      assert (k' = k).
      { specialize (K1 c Hc). specialize (M1 b Hb). lia. }
      rewrite H in Ek. split.
      * assert (G : forall l rows, Forall2 (fun a x => row nsw depth a = Ok x) l rows ->
                  (forall a, In a l -> In a (tt_arrivals s1)) -> Forall2 (table_line deg depth k) l rows).
        { induction 1 as [|a s l rws Er Fr IH]; intros Hi; constructor.
          - eapply line_R; [|exact Ek| |exact Er].
            + apply Hdist. apply Hi. left. reflexivity.
            + apply K1. apply Hi. left. reflexivity.
          - apply IH. intros; apply Hi; right; assumption. }
        apply G; [exact F|auto].
      * intros Hk. pose proof (head_columns nsw (k - 2)) as HC. unfold headings.
        replace (30 + k)%nat with (32 + (k - 2))%nat by lia. replace (41 + k)%nat with (43 + (k - 2))%nat by lia.
        replace (51 + k)%nat with (53 + (k - 2))%nat by lia. replace (61 + k)%nat with (63 + (k - 2))%nat by lia.
        replace (71 + k)%nat with (73 + (k - 2))%nat by lia. replace (74 + k)%nat with (76 + (k - 2))%nat by lia.
        apply HC. lia.
Qed.

(** ** C59: doubles.  A takeoff angle of either zero is printed without a sign. *)
Definition shows64 (dp : nat) (x : b64) (s : string) : Prop :=
  forall neg mag, magnitude x mag -> signed x neg -> shows_signed dp neg mag s.
Theorem C59_line_double : forall {L : Libm b64} nsw depth (a : arrival b64) s,
  one_word (ar_name a) -> one_word (ar_purist a) -> row nsw depth a = Ok s ->
  exists x p q wd wz wt wp wo wi wq mark,
    ar_moduloDistDeg a = Ok x /\ rayParam_sec_degree a = Ok p /\ purist_distance a = Ok q /\
    shows64 2 x wd /\ shows64 1 depth wz /\ shows64 2 (ar_time a) wt /\ shows64 3 p wp /\
    (forall b, ar_takeoff a = S754_zero b -> wo = "0.00"%string) /\
    ((forall b, ar_takeoff a <> S754_zero b) -> shows64 2 (ar_takeoff a) wo) /\
    shows64 2 (ar_incident a) wi /\ shows64 2 q wq /\
    (mark = "="%string /\ ar_purist a = ar_name a \/ mark = "*"%string /\ ar_purist a <> ar_name a) /\
    words s [wd; wz; ar_name a; wt; wp; wo; wi; wq; mark; ar_purist a].
Proof.
  intros L nsw depth a s Hn Hp H. destruct (row_words _ _ _ _ Hn Hp H) as [x [p [q [E1 [E2 [E3 W]]]]]].
  assert (Z : forall dp y, shows64 dp y (fixed dp y)) by (intros dp y neg mag H1 H2; apply fixed_b64; assumption).
  exists x, p, q, (fixed 2 x), (fixed 1 depth), (fixed 2 (ar_time a)), (fixed 3 p),
    (fixed 2 (if n_eqb (ar_takeoff a) (n_opp n_0) then n_0 else ar_takeoff a)), (fixed 2 (ar_incident a)), (fixed 2 q),
    (if String.eqb (ar_purist a) (ar_name a) then "=" else "*")%string.
  do 3 (split; [assumption|]). do 4 (split; [apply Z|]).
  split; [intros b Eb; rewrite Eb; destruct b; vm_compute; reflexivity|].
  split.
  { intros Hz. destruct (ar_takeoff a) as [b|b| |b m e] eqn:Et.
    - exfalso. apply (Hz b). reflexivity.
    - replace (n_eqb (S754_infinity b) (n_opp n_0)) with false by (destruct b; reflexivity). apply Z.
    - replace (n_eqb S754_nan (n_opp n_0)) with false by reflexivity. apply Z.
    - replace (n_eqb (S754_finite b m e) (n_opp n_0)) with false by (destruct b; reflexivity). apply Z. }
  do 2 (split; [apply Z|]). split; [|exact W].
  destruct (String.eqb_spec (ar_purist a) (ar_name a)); [left|right]; auto.
Qed.

(** a whole output *)
Definition printed (x : out (list b64 * tmodel b64 * option (list (arrival b64)))) : option (list string) :=
  match snd x with Ok (_, _, None) => Some (fst x) | _ => None end.
Example C59_ex :
  set_order_ok (nodup string_dec) /\ n_ok (d 100 0) /\
  printed (get_travel_times_out no_show 50 (nodup string_dec) [] toy_tMod (d 100 0) (Some (d 40 0))
             (Some ["P"; "Pp"; "PcP"; "S"]) None true) =
  Some ["Error with this phase, skipping it: Pp";
        "Error with this phase, skipping it: Pp";
        String (ascii_of_nat 10) "Model: toy";
        "Distance   Depth   Phase Travel    Ray Param   Takeoff  Incident  Purist     Purist";
        "   (deg)    (km)   Name  Time (s)  p (s/deg)     (deg)     (deg)  Distance   Name ";
        "---------------------------------------------------------------------------------";
        "   40.00   100.0   P       483.27      9.577    45.23     31.12     40.00  = P       ";
        "   40.00   100.0   PcP     652.36      2.892    12.38      8.98     40.00  = PcP     ";
        "   40.00   100.0   S       898.28     18.422    50.08     35.44     40.00  = S       "]%string.
Proof.
  split; [intros l; split; [apply NoDup_nodup|intros; apply nodup_In]|].
  split; [reflexivity|]. vm_compute. reflexivity.
Qed.

(** ** C59: with names of one letter the headings do not stand over their columns *)
Definition ends_atb (line : string) (w : string) (k : nat) : bool :=
  (String.length w <=? k)%nat && (k <=? String.length line)%nat &&
  String.eqb (substring (k - String.length w) (String.length w) line) w.
Lemma ends_at_b : forall line k w, ends_at line k w -> ends_atb line w k = true.
Proof.
  intros line k w [a [b [-> <-]]]. unfold ends_atb. rewrite !str_length_app.
  replace (String.length a + String.length w - String.length w)%nat with (String.length a) by lia.
  assert (E : forall a, substring (String.length a) (String.length w) (a ++ w ++ b) = w).
  { clear. induction a as [|c a IH]; [|exact IH]. cbn. induction w as [|c w IH]; cbn; [destruct b; reflexivity|congruence]. }
  rewrite E, String.eqb_refl. rewrite !(proj2 (Nat.leb_le _ _)) by lia. reflexivity.
Qed.
Theorem C59_heading_refuted :
  ~ (forall (nsw : Z) (depth : b64) (arrs : list (arrival b64)) a s, nsw = namespacewidth arrs -> In a arrs ->
       one_word (ar_name a) -> row nsw depth a = Ok s -> (String.length (fixed 2 (ar_time a)) <= 8)%nat ->
       exists k, ends_at (lineTwo nsw) k "Time (s)" /\ ends_at s k (fixed 2 (ar_time a))).
Proof.
  intros F.
  set (a := mkArr (d 52392 (-2)) (d 5 (-1)) (d 433 0) 0 "P" "P" (d 100 0) (d 33 0) (d 23 0) [] []).
  destruct (F (-1)%Z (d 100 0) [a] a
    "   28.65   100.0   P     523.92      7.557    33.00     23.00     28.65  = P       "%string) as [k [E1 E2]].
  - reflexivity.
  - left. reflexivity.
  - apply literal_word; [discriminate|reflexivity].
  - vm_compute. reflexivity.
  - apply Nat.leb_le. vm_compute. reflexivity.
  - apply ends_at_b in E1, E2.
    assert (Hk : (k < 200)%nat).
    { unfold ends_atb in E1. apply andb_prop in E1. destruct E1 as [E1 _]. apply andb_prop in E1. destruct E1 as [_ E1].
      apply Nat.leb_le in E1. eapply Nat.le_lt_trans; [exact E1|]. apply Nat.ltb_lt. vm_compute. reflexivity. }
    set (f := ends_atb (lineTwo (-1)) "Time (s)") in E1. set (g := ends_atb _ _) in E2.
    assert (C : forallb (fun k => negb (f k && g k)) (seq 0 200) = true) by (vm_compute; reflexivity).
    clearbody f g. rewrite forallb_forall in C. specialize (C k ltac:(apply in_seq; lia)). rewrite E1, E2 in C. discriminate.
Qed.

(** ** C59: textual form of a list of arrivals *)
Theorem C59_str : forall (arrs : list (arrival R)), exists count items,
  plain_digits count /\ spells 0 count = Z.of_nat (List.length arrs) /\
  Forall2 (fun a s => exists w, shows 3 (ar_time a) w /\
             s = (ar_name a ++ " phase arrival at " ++ w ++ " seconds")%string) arrs items /\
  let sep := String (ascii_of_nat 10) (String (ascii_of_nat 9) "") in
  arrivals_str arrs = (count ++ " arrivals" ++
    match items with [] => sep | _ => str_concat (map (fun s => sep ++ s) items) end)%string.
Proof.
  intros arrs. exists (str_of_N (N.of_nat (List.length arrs))), (map ar_str arrs).
  destruct (str_of_N_spec (N.of_nat (List.length arrs))) as [P V].
  split; [exact P|]. split; [rewrite V; lia|]. split.
  - clear. induction arrs as [|a l IH]; cbn [map]; constructor; [|exact IH].
    exists (fixed 3 (ar_time a)). split; [apply fixed_R|reflexivity].
  - cbv zeta. unfold arrivals_str. f_equal. f_equal.
    generalize (map ar_str arrs). clear. intros l. destruct l as [|s l]; [reflexivity|].
    revert s. induction l as [|x l IH]; intros s.
    + cbn [join map str_concat]. rewrite str_app_nil_r. reflexivity.
    + specialize (IH x). cbn [map str_concat] in IH |- *. cbn [map str_concat join] in *.
      rewrite <- IH. unfold nl, tab. rewrite !str_app_assoc. reflexivity.
Qed.
Example C59_str_ex :
  arrivals_str [mkArr (d 4832735 (-4)) (d 5 (-1)) (d 433 0) 0 "PcP" "PcP" (d 100 0) (d 33 0) (d 23 0) [] [];
                mkArr (d 8 0) (d 5 (-1)) (d 433 0) 0 "s" "s" (d 100 0) (d 33 0) (d 23 0) [] []]
  = ("2 arrivals" ++ nl ++ tab ++ "PcP phase arrival at 483.274 seconds" ++ nl ++ tab ++ "s phase arrival at 8.000 seconds")%string.
Proof. vm_compute. reflexivity. Qed.

Print Assumptions C59_number.
Print Assumptions C59_number_double.
Print Assumptions C59_quiet.
Print Assumptions C59_fails.
Print Assumptions C59_announced.
Print Assumptions C59_table.
Print Assumptions C59_line_double.
Print Assumptions C59_heading_refuted.
Print Assumptions C59_str.

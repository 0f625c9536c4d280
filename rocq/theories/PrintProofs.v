(** Proofs about printed numbers and tables. *)
From Coq Require Import ZArith NArith Bool List String Ascii Reals SpecFloat Lia Lra.
From Verif Require Import Base Num PyStr VelocityModel SlownessModel TauModel Legs SeismicPhase TauPTime
  VelSpec VelProofs NameSpec NameProofs NamePhaseProofs TimeSpec TimeProofs Printing PrintSpec.
Import ListNotations.

(** ** digits *)

Lemma digit_char_val : forall n, nat_of_ascii (digit_char n) = (48 + N.to_nat (n mod 10))%nat.
Proof.
  intros n. unfold digit_char, nat_of_ascii.
  assert (H : (n mod 10 < 10)%N) by (apply N.mod_lt; discriminate).
  revert H. generalize (n mod 10)%N. intros m H. rewrite N_ascii_embedding by lia. lia.
Qed.
Lemma digit_char_digit : forall n, is_dec_digit (digit_char n).
Proof.
  intros n. unfold is_dec_digit. rewrite digit_char_val.
  assert (H : (n mod 10 < 10)%N) by (apply N.mod_lt; discriminate).
  revert H. generalize (n mod 10)%N. intros m H. lia.
Qed.

Lemma spells_app : forall a acc b, spells acc (a ++ b) = spells (spells acc a) b.
Proof. induction a as [|c a IH]; intros acc b; simpl; [reflexivity|]. apply IH. Qed.
Lemma spells_acc : forall s acc, spells acc s = (acc * 10 ^ Z.of_nat (String.length s) + spells 0 s)%Z.
Proof.
  induction s as [|c s IH]; intros acc.
  - simpl. lia.
  - cbn [spells String.length]. rewrite IH. rewrite (IH (10 * 0 + _)%Z).
    rewrite Nat2Z.inj_succ, Z.pow_succ_r by lia. ring.
Qed.

Lemma str_length_app : forall a b, String.length (a ++ b) = (String.length a + String.length b)%nat.
Proof. induction a as [|c a IH]; intros b; simpl; [reflexivity|]. rewrite IH. reflexivity. Qed.

Lemma last_digits_acc : forall k n acc, last_digits k n acc = (last_digits k n "" ++ acc)%string.
Proof.
  induction k as [|k IH]; intros n acc; simpl; [reflexivity|].
  rewrite IH, (IH _ (String _ "")). rewrite str_app_assoc. reflexivity.
Qed.
Lemma last_digits_len : forall k n, String.length (last_digits k n "") = k.
Proof.
  induction k as [|k IH]; intros n; simpl; [reflexivity|].
  rewrite last_digits_acc, str_length_app, IH. simpl. lia.
Qed.
Lemma last_digits_digits : forall k n, all_chars is_dec_digit (last_digits k n "").
Proof.
  induction k as [|k IH]; intros n; simpl; [constructor|].
  rewrite last_digits_acc. apply all_chars_app. split; [apply IH|].
  constructor; [apply digit_char_digit|constructor].
Qed.
Lemma last_digits_spell : forall k n,
  spells 0 (last_digits k n "") = Z.of_N (n mod 10 ^ N.of_nat k).
Proof.
  induction k as [|k IH]; intros n.
  - simpl. rewrite N.mod_1_r. reflexivity.
  - cbn [last_digits]. rewrite last_digits_acc, spells_app, IH. cbn [spells]. rewrite digit_char_val.
    replace (Z.of_nat (48 + N.to_nat (n mod 10)) - 48)%Z with (Z.of_N (n mod 10)) by lia.
    rewrite Nat2N.inj_succ, N.pow_succ_r by lia.
    rewrite N.mod_mul_r; [lia|discriminate|]. apply N.pow_nonzero. discriminate.
Qed.

Lemma all_digits_acc : forall k n acc, all_digits k n acc = (all_digits k n "" ++ acc)%string.
Proof.
  induction k as [|k IH]; intros n acc; simpl; [reflexivity|].
  destruct (n <? 10)%N; [reflexivity|].
  rewrite IH, (IH _ (String _ "")). rewrite str_app_assoc. reflexivity.
Qed.
Lemma all_digits_spec : forall k n, (N.to_nat (N.log2 n) <= k)%nat ->
  plain_digits (all_digits k n "") /\ spells 0 (all_digits k n "") = Z.of_N n.
Proof.
  induction k as [|k IH]; intros n Hk; cbn [all_digits].
  - assert (n < 10)%N.
    { destruct (N.lt_ge_cases n 2) as [H|H]; [lia|].
      assert (1 <= N.log2 n)%N by (apply (N.log2_le_mono 2); assumption). lia. }
    assert (En : (n mod 10 = n)%N) by (apply N.mod_small; assumption).
    split; [split; [discriminate|split]|].
    + constructor; [apply digit_char_digit|constructor].
    + destruct (N.eq_dec n 0) as [->|Hn]; [left; reflexivity|right]. intros s' F.
      injection F as F _. apply (f_equal nat_of_ascii) in F. rewrite digit_char_val, En in F. cbn in F. lia.
    + cbn [spells]. rewrite digit_char_val, En. lia.
  - destruct (N.ltb_spec n 10) as [H|H].
    + assert (En : (n mod 10 = n)%N) by (apply N.mod_small; assumption).
      split; [split; [discriminate|split]|].
      * constructor; [apply digit_char_digit|constructor].
      * destruct (N.eq_dec n 0) as [->|Hn]; [left; reflexivity|right]. intros s' F.
        injection F as F _. apply (f_equal nat_of_ascii) in F. rewrite digit_char_val, En in F. cbn in F. lia.
      * cbn [spells]. rewrite digit_char_val, En. lia.
    + assert (Hd : (1 <= n / 10)%N) by (apply N.div_le_lower_bound; lia).
      destruct (IH (n / 10)%N) as [[P1 [P2 P3]] P4].
      { assert (N.log2 (n / 10) < N.log2 n)%N; [|lia].
        assert (A : (2 * (n / 10) <= n)%N).
        { pose proof (N.mul_div_le n 10 ltac:(discriminate)). lia. }
        pose proof (N.log2_le_mono _ _ A) as B. rewrite N.log2_double in B by lia. lia. }
      rewrite all_digits_acc. split; [split; [|split]|].
      * destruct (all_digits k (n / 10) ""); [congruence|discriminate].
      * apply all_chars_app. split; [assumption|]. constructor; [apply digit_char_digit|constructor].
      * right. intros s' F. destruct P3 as [P3|P3].
        -- rewrite P3 in P4. cbn in P4. lia.
        -- destruct (all_digits k (n / 10) "") as [|c s] eqn:E; [congruence|].
           injection F as -> _. exact (P3 s eq_refl).
      * rewrite spells_app, P4. cbn [spells]. rewrite digit_char_val.
        pose proof (N.div_mod n 10 ltac:(discriminate)). lia.
Qed.
Lemma str_of_N_spec : forall n, plain_digits (str_of_N n) /\ spells 0 (str_of_N n) = Z.of_N n.
Proof.
  intros n. apply all_digits_spec. destruct n as [|p]; [simpl; lia|].
  unfold N.size_nat.
  assert (H : forall p, (N.to_nat (N.log2 (N.pos p)) <= Pos.size_nat p)%nat); [|apply H].
  clear. intros p. destruct p as [p|p|]; cbn [N.log2 Pos.size_nat]; [| |lia].
  - assert (Pos.size_nat p = Pos.to_nat (Pos.size p)) by (induction p; simpl; rewrite ?IHp, ?Pos2Nat.inj_succ; reflexivity). lia.
  - assert (Pos.size_nat p = Pos.to_nat (Pos.size p)) by (induction p; simpl; rewrite ?IHp, ?Pos2Nat.inj_succ; reflexivity). lia.
Qed.

(** a rounded number, written down *)
Lemma digits_split : forall dp n,
  let ip := str_of_N (n / 10 ^ N.of_nat dp) in
  let fp := last_digits dp n "" in
  plain_digits ip /\ all_chars is_dec_digit fp /\ String.length fp = dp /\
  spells 0 (ip ++ fp) = Z.of_N n.
Proof.
  intros dp n ip fp. destruct (str_of_N_spec (n / 10 ^ N.of_nat dp)) as [P V].
  split; [exact P|]. split; [apply last_digits_digits|]. split; [apply last_digits_len|].
  rewrite spells_app. unfold ip. rewrite V, spells_acc. unfold fp. rewrite last_digits_len, last_digits_spell.
  assert (Hp : (10 ^ N.of_nat dp <> 0)%N) by (apply N.pow_nonzero; discriminate).
  pose proof (N.div_mod n _ Hp) as E.
  assert (E10 : (10 ^ Z.of_nat dp)%Z = Z.of_N (10 ^ N.of_nat dp)) by (rewrite N2Z.inj_pow, nat_N_Z; reflexivity).
  rewrite E10. rewrite E at 3. lia.
Qed.

(** ** rounding *)
Local Open Scope R_scope.

Lemma R_half_even_spec : forall y, 0 <= y -> nearest_even y (R_half_even y) /\ (0 <= R_half_even y)%Z.
Proof.
  intros y Hy. unfold R_half_even, nearest_even. destruct (base_Int_part y) as [H1 H2].
  set (k := Int_part y) in *.
  assert (Hk : (0 <= k)%Z).
  { assert (-1 < k)%Z; [|lia]. apply lt_IZR. lra. }
  destruct (Rltb_spec (y - IZR k) (1 / 2)) as [A|A]; [|destruct (Rltb_spec (1 / 2) (y - IZR k)) as [B|B]].
  - rewrite Rabs_right by lra. split; [split; [lra|intros; lra]|assumption].
  - rewrite plus_IZR. rewrite Rabs_left by lra. split; [split; [lra|intros; lra]|lia].
  - destruct (Z.even k) eqn:E.
    + rewrite Rabs_right by lra. split; [split; [lra|intros _; apply Z.even_spec; assumption]|assumption].
    + rewrite plus_IZR. rewrite Rabs_left by lra. split; [split; [lra|]|lia].
      intros _. apply Z.even_spec. rewrite Z.even_add, E. reflexivity.
Qed.
Lemma Z_half_even_spec : forall a b, (0 <= a)%Z -> (0 < b)%Z ->
  nearest_even (IZR a / IZR b) (Z_half_even a b) /\ (0 <= Z_half_even a b)%Z.
Proof.
  intros a b Ha Hb. unfold Z_half_even, nearest_even. cbv zeta.
  pose proof (Z.div_mod a b ltac:(lia)) as E. pose proof (Z.mod_pos_bound a b Hb) as M.
  assert (Hq : (0 <= a / b)%Z) by (apply Z.div_pos; lia).
  set (q := (a / b)%Z) in *. set (m := (a mod b)%Z) in *.
  assert (Hb' : 0 < IZR b) by (apply IZR_lt; assumption).
  assert (Ex : IZR a / IZR b = IZR q + IZR m / IZR b).
  { rewrite E, plus_IZR, mult_IZR. field. lra. }
  rewrite Ex. set (f := IZR m / IZR b).
  assert (F : IZR m = f * IZR b) by (unfold f; field; lra).
  assert (F0 : 0 <= f).
  { unfold f. apply Rle_mult_inv_pos; [apply IZR_le; lia|assumption]. }
  assert (L : forall x, (IZR m * 2 < IZR b * x)%R -> f * 2 < x).
  { intros x H. apply (Rmult_lt_reg_r (IZR b)); [assumption|]. rewrite F in H. lra. }
  assert (G : forall x, (IZR b * x < IZR m * 2)%R -> x < f * 2).
  { intros x H. apply (Rmult_lt_reg_r (IZR b)); [assumption|]. rewrite F in H. lra. }
  destruct (Z.ltb_spec (2 * m) b) as [A|A]; [|destruct (Z.ltb_spec b (2 * m)) as [B|B]].
  - assert (f * 2 < 1). { apply L. apply IZR_lt in A. rewrite mult_IZR in A. lra. }
    replace (IZR q + f - IZR q) with f by ring.
    rewrite Rabs_right by lra. split; [split; [lra|intros; lra]|assumption].
  - assert (1 < f * 2). { apply G. apply IZR_lt in B. rewrite mult_IZR in B. lra. }
    assert (f * 2 < 2). { apply L. assert (Hm : IZR m < IZR b) by (apply IZR_lt; lia). lra. }
    rewrite plus_IZR. replace (IZR q + f - (IZR q + 1)) with (f - 1) by ring.
    rewrite Rabs_left by lra. split; [split; [lra|intros; lra]|lia].
  - assert (Ef : f = 1 / 2).
    { assert (Em : (2 * m = b)%Z) by lia. unfold f. rewrite <- Em, mult_IZR.
      field. apply not_0_IZR. lia. }
    destruct (Z.even q) eqn:Ev.
    + replace (IZR q + f - IZR q) with f by ring.
      rewrite Rabs_right by lra. split; [split; [lra|intros _; apply Z.even_spec; assumption]|assumption].
    + rewrite plus_IZR. replace (IZR q + f - (IZR q + 1)) with (f - 1) by ring.
      rewrite Rabs_left by lra. split; [split; [lra|]|lia].
      intros _. apply Z.even_spec. rewrite Z.even_add, Ev. reflexivity.
Qed.

Lemma shows_dec : forall dp (neg : bool) mag k s, (0 <= k)%Z -> nearest_even (mag * 10 ^ dp) k ->
  s = ((if neg then "-" else "") ++ str_of_N (Z.to_N k / 10 ^ N.of_nat dp) ++ "." ++ last_digits dp (Z.to_N k) "")%string ->
  shows_signed dp neg mag s.
Proof.
  intros dp neg mag k s Hk Hn ->. destruct (digits_split dp (Z.to_N k)) as [A [B [C E]]].
  do 2 eexists. split; [reflexivity|]. split; [exact A|]. split; [exact B|]. split; [exact C|].
  rewrite E, Z2N.id by assumption. exact Hn.
Qed.

Lemma fixed_R : forall dp x, shows dp x (fixed dp x).
Proof.
  intros dp x. exists (Rltb x 0). split.
  - destruct (Rltb_spec x 0); split; intros; try lra; congruence.
  - destruct (R_half_even_spec (Rabs x * 10 ^ dp)) as [H1 H2].
    { apply Rmult_le_pos; [apply Rabs_pos|apply pow_le; lra]. }
    apply (shows_dec _ _ _ _ _ H2 H1). reflexivity.
Qed.

Lemma pow10_IZR : forall dp, IZR (10 ^ Z.of_nat dp) = 10 ^ dp.
Proof. intros dp. rewrite <- pow_IZR. reflexivity. Qed.

Lemma fixed_b64 : forall dp (x : b64) neg mag, magnitude x mag -> signed x neg ->
  shows_signed dp neg mag (fixed dp x).
Proof.
  intros dp [s|s| |s m e] neg mag Hm Hs; cbn [magnitude signed] in *; try contradiction; subst.
  - apply (shows_dec dp s 0 0%Z); [lia| |reflexivity].
    split; rewrite Rmult_0_l, Rminus_0_r, Rabs_R0; [lra|]. intros. exists 0%Z. reflexivity.
  - assert (P10 : (0 < 10 ^ Z.of_nat dp)%Z) by (apply Z.pow_pos_nonneg; lia).
    assert (Z0 : forall y k, y = IZR k -> nearest_even y k).
    { intros y k ->. split; rewrite Rminus_diag_eq by reflexivity; rewrite Rabs_R0; lra. }
    destruct e as [|p|p].
    + apply (shows_dec dp s _ (Z.pos m * 10 ^ Z.of_nat dp * 2 ^ 0)%Z); [lia| |reflexivity].
      apply Z0. rewrite !mult_IZR, pow10_IZR. simpl. ring.
    + apply (shows_dec dp s _ (Z.pos m * 10 ^ Z.of_nat dp * 2 ^ Z.pos p)%Z); [lia| |reflexivity].
      apply Z0. rewrite !mult_IZR, pow10_IZR. rewrite <- (positive_nat_Z p), <- pow_IZR, <- pow_powerRZ. ring.
    + assert (P2 : (0 < 2 ^ Z.pos p)%Z) by (apply Z.pow_pos_nonneg; lia).
      destruct (Z_half_even_spec (Z.pos m * 10 ^ Z.of_nat dp) (2 ^ Z.pos p)) as [H1 H2]; [lia|assumption|].
      apply (shows_dec dp s _ (Z_half_even (Z.pos m * 10 ^ Z.of_nat dp) (2 ^ Z.pos p))); [assumption| |reflexivity].
      replace (IZR (Z.pos m) * powerRZ 2 (Z.neg p) * 10 ^ dp)
        with (IZR (Z.pos m * 10 ^ Z.of_nat dp) / IZR (2 ^ Z.pos p)); [exact H1|].
      rewrite mult_IZR, pow10_IZR. rewrite <- (positive_nat_Z p), <- pow_IZR.
      unfold powerRZ. field. apply pow_nonzero. lra.
Qed.

(** ** words and columns *)
Local Open Scope string_scope.

Lemma blank_space : space " ".
Proof. right. cbn. lia. Qed.
Lemma spaces_words : forall k s l, words s l -> words (spaces k ++ s) l.
Proof. induction k as [|k IH]; intros s l H; simpl; [assumption|]. apply words_space; [apply blank_space|auto]. Qed.
Lemma word_blank : forall w s l, one_word w -> words s l -> words (w ++ String " " s) (w :: l).
Proof. intros w s l [H1 H2] H. apply words_word; try assumption. apply blank_space. Qed.

Lemma spaces_len : forall k, String.length (spaces k) = k.
Proof. induction k; simpl; congruence. Qed.
Lemma rjust_len : forall k s, (String.length s <= k)%nat -> String.length (rjust k s) = k.
Proof. intros k s H. unfold rjust. rewrite str_length_app, spaces_len. lia. Qed.
Lemma ljust_len : forall k s, (String.length s <= k)%nat -> String.length (ljust k s) = k.
Proof. intros k s H. unfold ljust. rewrite str_length_app, spaces_len. lia. Qed.

Lemma digit_not_space : forall c, is_dec_digit c -> ~ space c.
Proof. unfold is_dec_digit, space. intros c H F. lia. Qed.
Lemma digits_not_space : forall s, all_chars is_dec_digit s -> all_chars (fun c => ~ space c) s.
Proof. intros s H. unfold all_chars in *. eapply Forall_impl; [|exact H]. exact digit_not_space. Qed.
Lemma literal_word : forall s, s <> "" -> forallb (fun c => negb (is_space c)) (list_ascii_of_string s) = true -> one_word s.
Proof.
  intros s H E. split; [assumption|]. unfold all_chars. apply Forall_forall. intros c Hc.
  rewrite forallb_forall in E. specialize (E c Hc). intros F.
  assert (is_space c = true); [|rewrite H0 in E; discriminate].
  unfold is_space. destruct F as [F|F]; apply orb_true_iff; [left|right]; apply andb_true_iff; split; apply Nat.leb_le; lia.
Qed.

Section Rows.
  Context {T : Type} {N : Num T} {L : Libm T} {D : Dec T}.

  Lemma fixed_word : forall dp (x : T), one_word (fixed dp x).
  Proof.
    intros dp x. unfold fixed. destruct (dec_round dp x) as [neg n|neg|].
    - destruct (digits_split dp n) as [[A1 [A2 _]] [B _]]. split.
      + destruct neg; [discriminate|]. destruct (str_of_N (n / 10 ^ N.of_nat dp)); [congruence|discriminate].
      + apply all_chars_app. split.
        * destruct neg; repeat constructor. unfold space. cbn. lia.
        * apply all_chars_app. split; [apply digits_not_space; assumption|].
          apply all_chars_app. split; [|apply digits_not_space; assumption].
          constructor; [unfold space; cbn; lia|constructor].
    - destruct neg; apply literal_word; (discriminate || reflexivity).
    - apply literal_word; (discriminate || reflexivity).
  Qed.

  (** the cells of a line *)
  Lemma row_words : forall nsw depth (a : arrival T) s, one_word (ar_name a) -> one_word (ar_purist a) ->
    row nsw depth a = Ok s ->
    exists dist p pdist, ar_moduloDistDeg a = Ok dist /\ rayParam_sec_degree a = Ok p /\ purist_distance a = Ok pdist /\
      words s [fixed 2 dist; fixed 1 depth; ar_name a; fixed 2 (ar_time a); fixed 3 p;
               fixed 2 (if n_eqb (ar_takeoff a) (n_opp n_0) then n_0 else ar_takeoff a);
               fixed 2 (ar_incident a); fixed 2 pdist;
               if String.eqb (ar_purist a) (ar_name a) then "=" else "*"; ar_purist a].
  Proof.
    intros nsw depth a s Hn Hp H. unfold row in H.
    inv_as H as dist Hd. inv_as H as p Hr. inv_as H as pdist Hq. injection H as <-.
    exists dist, p, pdist. split; [assumption|]. split; [assumption|]. split; [assumption|].
    unfold rjust, ljust. rewrite !str_app_assoc.
    assert (S3 : forall w s l, one_word w -> words s l -> words (w ++ "   " ++ s) (w :: l)).
    { intros w s l Hw Hs. apply word_blank; [assumption|].
      apply words_space; [apply blank_space|]. apply words_space; [apply blank_space|assumption]. }
    apply spaces_words, S3; [apply fixed_word|].
    apply spaces_words, S3; [apply fixed_word|].
    assert (SN : forall w k s l, one_word w -> words s l -> words (w ++ spaces k ++ "   " ++ s) (w :: l)).
    { intros w k s l Hw Hs.
      assert (E : exists j, spaces k ++ "   " ++ s = String " " (spaces j ++ s)).
      { exists (k + 2)%nat. clear. induction k as [|k IH]; [reflexivity|].
        change (String " " (spaces k ++ "   " ++ s) = String " " (spaces (S k + 2) ++ s)). rewrite IH. reflexivity. }
      destruct E as [j ->]. apply word_blank; [assumption|]. apply spaces_words. assumption. }
    apply SN; [assumption|].
    apply spaces_words, S3; [apply fixed_word|].
    apply spaces_words, S3; [apply fixed_word|].
    apply spaces_words, S3; [apply fixed_word|].
    apply spaces_words, S3; [apply fixed_word|].
    apply spaces_words.
    assert (M : forall m s l, one_word m -> words s l -> words ("  " ++ m ++ " " ++ s) (m :: l)).
    { intros m s l Hm Hs. apply words_space; [apply blank_space|]. apply words_space; [apply blank_space|].
      apply word_blank; assumption. }
    assert (E : words (ar_purist a ++ spaces (5 - String.length (ar_purist a)) ++ "   ") [ar_purist a]).
    { apply (SN _ _ "" []); [assumption|constructor]. }
    change seq_ with String.eqb. destruct (String.eqb (ar_purist a) (ar_name a)).
    - apply (word_blank _ (" = " ++ _)); [apply fixed_word|]. apply words_space; [apply blank_space|].
      apply (word_blank "=" _ _); [apply literal_word; [discriminate|reflexivity]|exact E].
    - apply (word_blank _ (" * " ++ _)); [apply fixed_word|]. apply words_space; [apply blank_space|].
      apply (word_blank "*" _ _); [apply literal_word; [discriminate|reflexivity]|exact E].
  Qed.

  (** where the cells of a line are *)
  Lemma row_columns : forall nsw depth (a : arrival T) s k,
    row nsw depth a = Ok s -> (nsw + 2 = Z.of_nat k)%Z -> (String.length (ar_name a) <= k)%nat ->
    exists dist p pdist, ar_moduloDistDeg a = Ok dist /\ rayParam_sec_degree a = Ok p /\ purist_distance a = Ok pdist /\
    let takeoff := if n_eqb (ar_takeoff a) (n_opp n_0) then n_0 else ar_takeoff a in
    ((String.length (fixed 2 dist) <= 8)%nat -> (String.length (fixed 1 depth) <= 5)%nat ->
     (String.length (fixed 2 (ar_time a)) <= 8)%nat -> (String.length (fixed 3 p) <= 8)%nat ->
     (String.length (fixed 2 takeoff) <= 6)%nat -> (String.length (fixed 2 (ar_incident a)) <= 7)%nat ->
     (String.length (fixed 2 pdist) <= 7)%nat ->
     ends_at s 8 (fixed 2 dist) /\ ends_at s 16 (fixed 1 depth) /\ starts_at s 19 (ar_name a) /\
     ends_at s (30 + k) (fixed 2 (ar_time a)) /\ ends_at s (41 + k) (fixed 3 p) /\
     ends_at s (50 + k) (fixed 2 takeoff) /\ ends_at s (60 + k) (fixed 2 (ar_incident a)) /\
     ends_at s (70 + k) (fixed 2 pdist) /\ starts_at s (74 + k) (ar_purist a)).
  Proof.
    intros nsw depth a s k H Ek Hk. unfold row in H.
    inv_as H as dist Hd. inv_as H as p Hr. inv_as H as pdist Hq. injection H as <-.
    exists dist, p, pdist. split; [assumption|]. split; [assumption|]. split; [assumption|].
    rewrite Ek, Nat2Z.id. cbv zeta.
    set (takeoff := if n_eqb (ar_takeoff a) (n_opp n_0) then n_0 else ar_takeoff a).
    intros L1 L2 L4 L5 L6 L7 L8.
    apply rjust_len in L1, L2, L4, L5, L6, L7, L8. apply ljust_len in Hk.
    assert (EA : forall pre j w post n, (String.length pre + String.length (rjust j w))%nat = n ->
                 ends_at (pre ++ rjust j w ++ post) n w).
    { intros pre j w post n E. exists (pre ++ spaces (j - String.length w)), post.
      unfold rjust. rewrite !str_app_assoc. split; [reflexivity|].
      rewrite <- E. unfold rjust. rewrite !str_length_app. lia. }
    assert (SA : forall pre j w post n, String.length pre = n -> starts_at (pre ++ ljust j w ++ post) n w).
    { intros pre j w post n E. exists pre, (spaces (j - String.length w) ++ post).
      unfold ljust. rewrite !str_app_assoc. split; [reflexivity|assumption]. }
    assert (EM : exists m, String.length m = 4%nat /\ (if seq_ (ar_purist a) (ar_name a) then "  = " else "  * ") = m).
    { eexists. split; [|reflexivity]. destruct (seq_ (ar_purist a) (ar_name a)); reflexivity. }
    destruct EM as [m [Lm ->]].
    set (c1 := rjust 8 (fixed 2 dist)) in *. set (c2 := rjust 5 (fixed 1 depth)) in *.
    set (c3 := ljust k (ar_name a)) in *. set (c4 := rjust 8 (fixed 2 (ar_time a))) in *.
    set (c5 := rjust 8 (fixed 3 p)) in *. set (c6 := rjust 6 (fixed 2 takeoff)) in *.
    set (c7 := rjust 7 (fixed 2 (ar_incident a))) in *. set (c8 := rjust 7 (fixed 2 pdist)) in *.
    set (c9 := ljust 5 (ar_purist a)) in *.
    assert (EB : forall s pre j w post n, s = pre ++ rjust j w ++ post ->
                 (String.length pre + String.length (rjust j w))%nat = n -> ends_at s n w)
      by (intros s0 pre j w post n ->; apply EA).
    assert (SB : forall s pre j w post n, s = pre ++ ljust j w ++ post ->
                 String.length pre = n -> starts_at s n w)
      by (intros s0 pre j w post n ->; apply SA).
    split; [apply (EA "" _ _ _ 8%nat); simpl; assumption|].
    split. { eapply (EB _ (c1 ++ "   ") 5%nat); [rewrite !str_app_assoc; reflexivity|fold c2; rewrite !str_length_app; simpl; lia]. }
    split. { eapply (SB _ (c1 ++ "   " ++ c2 ++ "   ") k); [rewrite !str_app_assoc; reflexivity|rewrite !str_length_app; simpl; lia]. }
    split. { eapply (EB _ (c1 ++ "   " ++ c2 ++ "   " ++ c3 ++ "   ") 8%nat); [rewrite !str_app_assoc; reflexivity|fold c4; rewrite !str_length_app; simpl; lia]. }
    split. { eapply (EB _ (c1 ++ "   " ++ c2 ++ "   " ++ c3 ++ "   " ++ c4 ++ "   ") 8%nat); [rewrite !str_app_assoc; reflexivity|fold c5; rewrite !str_length_app; simpl; lia]. }
    split. { eapply (EB _ (c1 ++ "   " ++ c2 ++ "   " ++ c3 ++ "   " ++ c4 ++ "   " ++ c5 ++ "   ") 6%nat); [rewrite !str_app_assoc; reflexivity|fold c6; rewrite !str_length_app; simpl; lia]. }
    split. { eapply (EB _ (c1 ++ "   " ++ c2 ++ "   " ++ c3 ++ "   " ++ c4 ++ "   " ++ c5 ++ "   " ++ c6 ++ "   ") 7%nat); [rewrite !str_app_assoc; reflexivity|fold c7; rewrite !str_length_app; simpl; lia]. }
    split. { eapply (EB _ (c1 ++ "   " ++ c2 ++ "   " ++ c3 ++ "   " ++ c4 ++ "   " ++ c5 ++ "   " ++ c6 ++ "   " ++ c7 ++ "   ") 7%nat); [rewrite !str_app_assoc; reflexivity|fold c8; rewrite !str_length_app; simpl; lia]. }
    eapply (SB _ (c1 ++ "   " ++ c2 ++ "   " ++ c3 ++ "   " ++ c4 ++ "   " ++ c5 ++ "   " ++ c6 ++ "   " ++ c7 ++ "   " ++ c8 ++ m) 5%nat); [rewrite !str_app_assoc; reflexivity|rewrite !str_length_app; simpl; lia].
  Qed.

  (** where the headings are *)
  Lemma head_columns : forall nsw j, Z.to_nat nsw = j ->
    ends_at (lineOne nsw) 8 "Distance" /\ ends_at (lineOne nsw) 16 "Depth" /\ starts_at (lineOne nsw) 19 "Phase" /\
    ends_at (lineTwo nsw) (32 + j) "Time (s)" /\ ends_at (lineTwo nsw) (43 + j) "p (s/deg)" /\
    ends_at (lineOne nsw) (53 + j) "Takeoff" /\ ends_at (lineOne nsw) (63 + j) "Incident" /\
    ends_at (lineTwo nsw) (73 + j) "Distance" /\ starts_at (lineTwo nsw) (76 + j) "Name".
  Proof.
    intros nsw j E. unfold lineOne, lineTwo. rewrite E.
    assert (A : forall pre mid w post, ends_at (pre ++ spaces j ++ mid ++ w ++ post) (String.length pre + String.length mid + String.length w + j) w).
    { intros pre mid w post. exists (pre ++ spaces j ++ mid), post. rewrite !str_app_assoc. split; [reflexivity|].
      rewrite !str_length_app, spaces_len. lia. }
    assert (B : forall pre mid w post, starts_at (pre ++ spaces j ++ mid ++ w ++ post) (String.length pre + String.length mid + j) w).
    { intros pre mid w post. exists (pre ++ spaces j ++ mid), post. rewrite !str_app_assoc. split; [reflexivity|].
      rewrite !str_length_app, spaces_len. lia. }
    split; [exists "", ("   Depth   Phase" ++ spaces j ++ "Travel    Ray Param   Takeoff  Incident  Purist     Purist"); split; reflexivity|].
    split; [exists "Distance   ", ("   Phase" ++ spaces j ++ "Travel    Ray Param   Takeoff  Incident  Purist     Purist"); split; reflexivity|].
    split; [exists "Distance   Depth   ", (spaces j ++ "Travel    Ray Param   Takeoff  Incident  Purist     Purist"); split; reflexivity|].
    split; [exact (A "   (deg)    (km)   Name " "" "Time (s)" "  p (s/deg)     (deg)     (deg)  Distance   Name ")|].
    split; [exact (A "   (deg)    (km)   Name " "Time (s)  " "p (s/deg)" "     (deg)     (deg)  Distance   Name ")|].
    split; [exact (A "Distance   Depth   Phase" "Travel    Ray Param   " "Takeoff" "  Incident  Purist     Purist")|].
    split; [exact (A "Distance   Depth   Phase" "Travel    Ray Param   Takeoff  " "Incident" "  Purist     Purist")|].
    split; [exact (A "   (deg)    (km)   Name " "Time (s)  p (s/deg)     (deg)     (deg)  " "Distance" "   Name ")|].
    exact (B "   (deg)    (km)   Name " "Time (s)  p (s/deg)     (deg)     (deg)  Distance   " "Name" " ").
  Qed.

  Lemma width_spec : forall (l : list (arrival T)), l <> [] ->
    exists k, (namespacewidth l + 2 = Z.of_nat k)%Z /\
      (forall a, In a l -> (String.length (ar_name a) <= k)%nat) /\ (exists a, In a l /\ String.length (ar_name a) = k).
  Proof.
    intros l Hl. exists (fold_right Nat.max O (map (fun a => String.length (ar_name a)) l)).
    split; [destruct l; [congruence|]; unfold namespacewidth; lia|]. split.
    - clear. induction l as [|b l IH]; intros a Ha; [destruct Ha|]. simpl. destruct Ha as [->|Ha]; [lia|].
      specialize (IH a Ha). lia.
    - clear - Hl. induction l as [|b l IH]; [congruence|]. destruct l as [|c l].
      + exists b. split; [left; reflexivity|]. simpl. lia.
      + destruct IH as [a [Ha E]]; [discriminate|]. set (rest := c :: l) in *. cbn [map fold_right].
        destruct (Nat.max_spec (String.length (ar_name b)) (fold_right Nat.max O (map (fun a => String.length (ar_name a)) rest))) as [[_ ->]|[_ ->]].
        * exists a. split; [right; assumption|assumption].
        * exists b. split; [left; reflexivity|reflexivity].
  Qed.
End Rows.

(** ** what is printed *)
Section Lines.
  Context {T : Type} {N : Num T} {L : Libm T} {D : Dec T}.
  Variable show : T -> string.

  Lemma snd_obind : forall {A B} (m : out A) (k : A -> out B), snd (obind m k) = bind (snd m) (fun a => snd (k a)).
  Proof. intros A B [l [a|e|]] k; reflexivity. Qed.
  Lemma fst_obind : forall {A B} (m : out A) (k : A -> out B) a, snd m = Ok a -> fst (obind m k) = (fst m ++ fst (k a))%list.
  Proof. intros A B [l r] k a E. cbn in *. subst r. reflexivity. Qed.

  Lemma recalc_out_snd : forall w (t : tmodel T) id depth names first phases,
    snd (recalc_out show w t id depth first names phases) = recalc_go show w t id depth first names phases.
  Proof.
    intros w t id depth. induction names as [|n ns IH]; intros first phases; cbn [recalc_out recalc_go]; [reflexivity|].
    rewrite snd_obind. cbn [quiet snd].
    destruct (cache_scan _ n depth id 0 phases) as [[kept found]|e|]; cbn [bind]; [|reflexivity|reflexivity].
    rewrite snd_obind.
    destruct found as [ph|]; [cbn; apply IH|].
    destruct (newPhase show w t id n) as [ph|e|]; [cbn; apply IH| |reflexivity].
    destruct e; try reflexivity. cbn. apply IH.
  Qed.
  Lemma recalcPhases_snd : forall w (s : ttime T), snd (recalcPhases_out show w s) = recalcPhases show w s.
  Proof. intros. unfold recalcPhases_out, recalcPhases. rewrite snd_obind, recalc_out_snd. reflexivity. Qed.
  Lemma bind_ext : forall {A B} (r : result A) (f g : A -> result B), (forall a, f a = g a) -> bind r f = bind r g.
  Proof. intros A B [a| |] f g H; cbn; auto. Qed.
  Lemma depthCorrect_snd : forall fuel w (s : ttime T) depth,
    snd (tt_depthCorrect_out show fuel w s depth) = tt_depthCorrect show fuel w s depth.
  Proof.
    intros. unfold tt_depthCorrect_out, tt_depthCorrect. rewrite snd_obind.
    destruct (negb _); [|reflexivity]. rewrite snd_obind. cbn [quiet snd].
    destruct (tm_depthCorrect fuel w (tt_tMod s) depth) as [[[w1 self] d1]|e|]; cbn [bind]; [|reflexivity|reflexivity].
    rewrite snd_obind, recalcPhases_snd. destruct (recalcPhases _ _ _); reflexivity.
  Qed.
  Lemma calculate_snd : forall fuel w (s : ttime T) deg,
    snd (calculate_out show fuel w s deg) = calculate show fuel w s deg.
  Proof.
    intros. unfold calculate_out, calculate. rewrite snd_obind, depthCorrect_snd.
    apply bind_ext. intros [w1 s1]. rewrite snd_obind, recalcPhases_snd. apply bind_ext. intros s2.
    rewrite snd_obind. reflexivity.
  Qed.
  Lemma run_snd : forall fuel order w (s : ttime T) name pl depth degrees coords,
    snd (run_out show fuel order w s name pl depth degrees coords false) = tt_rerun show fuel order w s pl depth degrees coords.
  Proof.
    intros. unfold run_out, tt_rerun. rewrite snd_obind. cbn [quiet snd]. apply bind_ext. intros deg.
    rewrite snd_obind, depthCorrect_snd. apply bind_ext. intros [w1 s1].
    rewrite snd_obind, calculate_snd. destruct (calculate show fuel w1 s1 deg) as [[w2 s2]| |]; reflexivity.
  Qed.

  Definition refuses (mk : string -> result (phase T)) (n : string) : bool :=
    match mk n with Raise TauModelError => true | _ => false end.
  Lemma refused_filter : forall (mk : string -> result (phase T)) names, refused mk names (filter (refuses mk) names).
  Proof.
    intros mk. induction names as [|n ns IH]; cbn [filter]; [constructor|].
    unfold refuses at 1. destruct (mk n) as [a|e|] eqn:E; [apply refused_no; congruence || assumption| |].
    - destruct e; try (apply refused_no; [congruence|assumption]). apply refused_yes; assumption.
    - apply refused_no; [congruence|assumption].
  Qed.

  Lemma recalc_rest_lines : forall w (t : tmodel T) id depth names acc l, NoDup names ->
    (forall p, In p acc -> ~ In (ph_name p) names) ->
    build_all (newPhase show w t id) names = Ok l ->
    fst (recalc_out show w t id depth false names acc) = map skip_message (filter (refuses (newPhase show w t id)) names).
  Proof.
    intros w t id depth. induction names as [|n ns IH]; intros acc l Hn Ha Hb; [reflexivity|].
    inversion Hn; subst. cbn [recalc_out].
    destruct (cache_scan_spec show n depth id (S (List.length acc)) 0 acc ltac:(lia) ltac:(lia))
      as [kept [found [E1 [E2 _]]]].
    destruct E2 as [-> ->]. { intros p Hp F. apply (Ha p Hp). left. symmetry. assumption. }
    cbn [build_all filter] in *. rewrite E1. rewrite fst_obind with (a := (acc, None)) by reflexivity. cbn [quiet fst app].
    unfold refuses at 1. destruct (newPhase show w t id n) as [ph|e|] eqn:En; [| |discriminate].
    - inv_as Hb as l' Hl. rewrite fst_obind with (a := (acc ++ [ph])%list) by reflexivity. cbn [quiet fst app].
      eapply IH; [assumption| |exact Hl].
      intros p Hp. apply in_app_iff in Hp. destruct Hp as [Hp|[<-|[]]].
      + intros F. apply (Ha p Hp). right. assumption.
      + rewrite (newPhase_name _ _ _ _ _ _ En). assumption.
    - destruct e; try discriminate. rewrite fst_obind with (a := acc) by reflexivity. cbn [obind say quiet fst snd app map]. f_equal.
      eapply IH; [assumption| |exact Hb]. intros p Hp F. apply (Ha p Hp). right. assumption.
  Qed.

  Lemma recalc_first_lines : forall w (t : tmodel T) id depth names l phs, NoDup names ->
    cache_ok show w t id depth l -> build_all (newPhase show w t id) names = Ok phs ->
    fst (recalc_out show w t id depth true names l) = map skip_message (filter (refuses (newPhase show w t id)) names).
  Proof.
    intros w t id depth [|n ns] l phs Hn Hc Hb; [reflexivity|].
    inversion Hn; subst. cbn [recalc_out].
    destruct (cache_scan_spec show n depth id (S (List.length l)) 0 l ltac:(lia) ltac:(lia))
      as [kept [found [E1 [_ E3]]]].
    rewrite E1. rewrite fst_obind with (a := (kept, found)) by reflexivity. cbn [quiet fst app].
    cbn [build_all filter] in *. unfold refuses at 1.
    assert (R : forall ph l', newPhase show w t id n = Ok ph -> build_all (newPhase show w t id) ns = Ok l' ->
               fst (recalc_out show w t id depth false ns [ph]) = map skip_message (filter (refuses (newPhase show w t id)) ns)).
    { intros ph l' En Hl. eapply recalc_rest_lines; [assumption| |exact Hl].
      intros p [<-|[]]. rewrite (newPhase_name _ _ _ _ _ _ En). assumption. }
    destruct found as [ph|].
    - destruct (E3 ph eq_refl) as [Hin [Hnm [Hd Hi]]].
      assert (En : newPhase show w t id n = Ok ph) by (rewrite <- Hnm; apply Hc; assumption).
      rewrite En in Hb |- *. inv_as Hb as l' Hl.
      rewrite fst_obind with (a := [ph]) by reflexivity. cbn [quiet fst app]. eapply R; [exact En|exact Hl].
    - destruct (newPhase show w t id n) as [ph|e|] eqn:En; [| |discriminate].
      + inv_as Hb as l' Hl. rewrite fst_obind with (a := [ph]) by reflexivity. cbn [quiet fst app]. eapply R; [reflexivity|exact Hl].
      + destruct e; try discriminate. rewrite fst_obind with (a := []) by reflexivity. cbn [obind say quiet fst snd app map]. f_equal.
        eapply recalc_rest_lines; [assumption|intros p []|exact Hb].
  Qed.

  Definition said (w : list T) (tD : tmodel T) (id : Z) (names : list string) : list string :=
    map skip_message (filter (refuses (newPhase show w tD id)) names).

  Lemma recalcPhases_lines : forall w (s : ttime T) phs, NoDup (tt_names s) ->
    cache_ok show w (tt_tModDepth s) (tt_depthId s) (tt_depth s) (tt_phases s) ->
    build_all (newPhase show w (tt_tModDepth s) (tt_depthId s)) (tt_names s) = Ok phs ->
    fst (recalcPhases_out show w s) = said w (tt_tModDepth s) (tt_depthId s) (tt_names s).
  Proof.
    intros w s phs Hn Hc Hb. unfold recalcPhases_out.
    assert (E : fst (obind (recalc_out show w (tt_tModDepth s) (tt_depthId s) (tt_depth s) true (tt_names s) (tt_phases s))
      (fun l => quiet (Ok (mkTT (tt_tMod s) (tt_tModDepth s) (tt_depthId s) (tt_nextId s) (tt_names s) l
                                (tt_depth s) (tt_sourceDepth s) (tt_arrivals s)))))
      = fst (recalc_out show w (tt_tModDepth s) (tt_depthId s) (tt_depth s) true (tt_names s) (tt_phases s))).
    { unfold obind. destruct (snd (recalc_out _ _ _ _ _ _ _ _)); cbn; [apply app_nil_r|reflexivity|reflexivity]. }
    rewrite E. eapply recalc_first_lines; eassumption.
  Qed.

  (** the lines printed by a run that succeeds on a fresh object *)
  Lemma run_lines : forall fuel order w (t : tmodel T) name pl depth degrees coords w' s',
    set_order_ok order -> n_ok depth ->
    tt_rerun show fuel order w (tt_new t depth) pl depth degrees coords = Ok (w', s') ->
    exists tD id,
      ((n_eqb (tm_sourceDepth t) depth = true /\ w' = w /\ tt_tMod s' = t /\ tD = t) \/
       (n_eqb (tm_sourceDepth t) depth = false /\ tm_depthCorrect fuel w t depth = Ok (w', tt_tMod s', tD))) /\
      tt_depth s' = depth /\
      fst (run_out show fuel order w (tt_new t depth) name pl depth degrees coords false) =
        (said w' tD id (parsePhaseList order pl) ++
         if n_eqb (tm_sourceDepth t) depth then [] else said w' tD id (parsePhaseList order pl))%list.
  Proof.
    intros fuel order w t name pl depth degrees coords w' s' Ho Hd H.
    pose proof H as H0. rewrite rerun_flat in H0; [|assumption|assumption|reflexivity|intros p []|intros p []].
    inv_as H0 as deg Hdeg. inv_as H0 as [[[[w2 tM] tD] id] nid] Hs. inv_as H0 as phs Hb. inv_as H0 as ls Hl.
    injection H0 as <- <-. cbn [tt_tMod tt_depth].
    destruct (parsePhaseList_spec order Ho pl) as [Hn _].
    unfold run_out. rewrite fst_obind with (a := deg) by assumption. cbn [quiet fst app].
    unfold tt_rerun in H. rewrite Hdeg in H. cbn [bind] in H.
    set (names := parsePhaseList order pl) in *. unfold tt_new in *.
    cbn [tt_tModDepth tt_sourceDepth tt_tMod tt_depthId tt_nextId tt_names tt_phases tt_depth tt_arrivals] in *.
    inv_as H as [w3 s3] H3.
    match goal with |- context [obind (tt_depthCorrect_out ?sh ?f ?a ?b ?c) _] =>
      assert (E3 : snd (tt_depthCorrect_out sh f a b c) = Ok (w3, s3)) by (rewrite depthCorrect_snd; exact H3) end.
    exists tD, id.
    unfold source_of in Hs. cbn [tt_tModDepth tt_tMod tt_depthId tt_nextId] in Hs.
    (* the second part: calculate *)
    assert (C : tt_tModDepth s3 = tD -> tt_depthId s3 = id -> tt_names s3 = names -> tt_depth s3 = depth ->
                tt_sourceDepth s3 = depth -> w3 = w2 -> n_eqb (tm_sourceDepth tD) depth = true ->
                cache_ok show w2 tD id depth (tt_phases s3) -> forall w4 s4,
                calculate show fuel w3 s3 deg = Ok (w4, s4) ->
                fst (calculate_out show fuel w3 s3 deg) = said w2 tD id names).
    { intros E1 E2 E4 E5 E6 -> E8 Hc w4 s4 Hcalc. unfold calculate_out.
      unfold tt_depthCorrect_out. rewrite E1, E6, E8. cbn [negb bind obind quiet fst snd app].
      match goal with |- context [recalcPhases_out show w2 ?x] => set (s5 := x) end.
      assert (L5 : fst (recalcPhases_out show w2 s5) = said w2 tD id names).
      { rewrite (recalcPhases_lines w2 s5 phs); unfold s5;
          cbn [tt_tModDepth tt_sourceDepth tt_tMod tt_depthId tt_nextId tt_names tt_phases tt_depth tt_arrivals];
          rewrite ?E1, ?E2, ?E4, ?E5; try assumption.
      reflexivity. }
      destruct (recalcPhases_out show w2 s5) as [l6 [s6| |]]; cbn [fst snd] in L5 |- *; subst l6; cbn; try reflexivity.
      destruct (tt_calcTime fuel s6 deg); cbn; rewrite ?app_nil_r; reflexivity. }
    destruct (n_eqb (tm_sourceDepth t) depth) eqn:E; cbn [negb] in Hs.
    - injection Hs as <- <- <- <- <-. split; [left; auto|]. split; [reflexivity|].
      unfold tt_depthCorrect in H3. cbn [tt_tModDepth tt_sourceDepth tt_tMod tt_depthId tt_nextId tt_names tt_phases tt_depth tt_arrivals] in H3.
      rewrite E in H3. cbn [negb bind] in H3. injection H3 as <- <-.
      rewrite fst_obind with (a := (w, mkTT t t 0 1 names [] depth depth [])) by exact E3.
      rewrite app_nil_r.
      assert (F : forall (m : out (list T * ttime T)) x, snd m = Ok x ->
                  fst (obind m (fun x => let (w, s) := x in obind (quiet (Ok tt)) (fun _ => quiet (Ok (w, s))))) = fst m).
      { intros m [a b] Em. rewrite fst_obind with (a := (a, b)) by assumption. cbn. apply app_nil_r. }
      rewrite (F _ _ (eq_trans (calculate_snd _ _ _ _) H)).
      rewrite (C eq_refl eq_refl eq_refl eq_refl eq_refl eq_refl E ltac:(intros p []) _ _ H).
      unfold tt_depthCorrect_out. cbn [tt_tModDepth]. rewrite E. reflexivity.
    - inv_as Hs as [[w5 self] d5] Hdc. injection Hs as <- <- <- <- <-.
      split; [right; auto|]. split; [reflexivity|].
      unfold tt_depthCorrect in H3. cbn [tt_tModDepth tt_sourceDepth tt_tMod tt_depthId tt_nextId tt_names tt_phases tt_depth tt_arrivals] in H3.
      rewrite E in H3. cbn [negb] in H3. rewrite Hdc in H3. cbn [bind] in H3.
      unfold recalcPhases in H3. cbn [tt_tModDepth tt_sourceDepth tt_tMod tt_depthId tt_nextId tt_names tt_phases tt_depth tt_arrivals] in H3.
      rewrite recalc_first in H3; [|assumption|reflexivity|intros p []].
      rewrite Hb in H3. cbn [bind] in H3. injection H3 as <- <-.
      rewrite fst_obind with (a := (w5, mkTT self d5 1 2 names phs depth depth [])) by exact E3.
      assert (F : forall (m : out (list T * ttime T)) x, snd m = Ok x ->
                  fst (obind m (fun x => let (w, s) := x in obind (quiet (Ok tt)) (fun _ => quiet (Ok (w, s))))) = fst m).
      { intros m [a b] Em. rewrite fst_obind with (a := (a, b)) by assumption. cbn. apply app_nil_r. }
      rewrite (F _ _ (eq_trans (calculate_snd _ _ _ _) H)).
      assert (Ed : n_eqb (tm_sourceDepth d5) depth = true).
      { rewrite (depthCorrect_depth _ _ _ _ _ _ _ Hdc). exact Hd. }
      rewrite (C eq_refl eq_refl eq_refl eq_refl eq_refl eq_refl Ed (built_cache_ok show _ _ _ _ _ _ Hb) _ _ H).
      f_equal. unfold tt_depthCorrect_out. cbn [tt_tModDepth tt_tMod tt_nextId tt_names tt_phases tt_depth tt_sourceDepth].
      rewrite E. cbn [negb]. rewrite Hdc.
      cbn [obind quiet fst snd app]. match goal with |- context [recalcPhases_out show w5 ?x] => set (s5 := x) end.
      assert (L5 : fst (recalcPhases_out show w5 s5) = said w5 d5 1 names).
      { rewrite (recalcPhases_lines w5 s5 phs); unfold s5;
          cbn [tt_tModDepth tt_sourceDepth tt_tMod tt_depthId tt_nextId tt_names tt_phases tt_depth tt_arrivals];
          try assumption; [reflexivity|intros p []]. }
      rewrite <- L5. unfold obind at 2. cbn [quiet snd fst app].
      destruct (recalcPhases_out show w5 s5) as [ls5 [s6| |]]; cbn; rewrite ?app_nil_r; reflexivity.
  Qed.

  (** the table *)
  Lemma print_rows_spec : forall nsw depth (l : list (arrival T)) rows,
    Forall2 (fun a s => row nsw depth a = Ok s) l rows ->
    print_rows nsw depth l = (rows, Ok tt).
  Proof.
    intros nsw depth l rows F. induction F as [|a s l rows E F IH]; [reflexivity|].
    cbn [print_rows]. rewrite E, IH. reflexivity.
  Qed.
  Definition heading (name : string) (nsw : Z) : list string :=
    [nl ++ "Model: " ++ name; lineOne nsw; lineTwo nsw; rep "-" (String.length (lineOne nsw) - 2)].
  Lemma printResult_spec : forall name (s : ttime T) rows,
    Forall2 (fun a x => row (namespacewidth (tt_arrivals s)) (tt_depth s) a = Ok x) (tt_arrivals s) rows ->
    printResult name s = ((heading name (namespacewidth (tt_arrivals s)) ++ rows)%list, Ok tt).
  Proof.
    intros name s rows F. unfold printResult. cbv zeta. rewrite (print_rows_spec _ _ _ _ F). reflexivity.
  Qed.
  Lemma run_true : forall fuel order w (s : ttime T) name pl depth degrees coords w' s',
    tt_rerun show fuel order w s pl depth degrees coords = Ok (w', s') ->
    run_out show fuel order w s name pl depth degrees coords true =
    obind (run_out show fuel order w s name pl depth degrees coords false)
      (fun x => obind (printResult name (snd x)) (fun _ => quiet (Ok x))).
  Proof.
    intros fuel order w s name pl depth degrees coords w' s' H. unfold run_out.
    unfold tt_rerun in H. inv_as H as deg Hdeg. inv_as H as [w1 s1] H1.
    rewrite Hdeg. unfold quiet at 1 6. unfold obind at 1 6. cbn [fst snd app].
    rewrite <- depthCorrect_snd in H1. rewrite <- calculate_snd in H.
    match goal with |- context [tt_depthCorrect_out ?sh ?f ?a ?b ?c] =>
      destruct (tt_depthCorrect_out sh f a b c) as [la ra]; cbn [snd] in H1; subst ra end.
    destruct (calculate_out show fuel w1 s1 deg) as [lb rb] eqn:Ec. cbn [snd] in H. subst rb.
    unfold obind at 1 2 3. cbn [fst snd]. rewrite Ec. unfold obind, quiet. cbn [fst snd app].
    rewrite Ec. cbn [fst snd app].
    destruct (printResult name s') as [lp [[]| |]]; cbn [fst snd app]; rewrite ?app_nil_r, ?app_assoc; reflexivity.
  Qed.
End Lines.

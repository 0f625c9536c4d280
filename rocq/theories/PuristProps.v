(** Property C77: the purist name is the name with the depths that are used. *)
From Coq Require Import ZArith Bool List String Ascii Reals Lia.
From Verif Require Import Base Num PyStr VelocityModel SlownessLayer SlownessModel TauModel Legs SeismicPhase NameSpec NameProofs NamePhaseProofs NameProps
  SplitSpec TauSpec QuerySpec QueryProofs QueryProps TimeSpec TimeProofs CalcTimeProofs Toy PuristSpec.
Import ListNotations.
Local Open Scope string_scope.
Local Open Scope list_scope.
Local Open Scope num_scope.

Section Any.
  Context {T : Type} {N : Num T} {L : Libm T}.
  Variable show : T -> string.

  Lemma concat_join : forall l, str_concat l = join l.
  Proof. induction l as [|a l IH]; [reflexivity|]. cbn. rewrite IH. reflexivity. Qed.
  Lemma mapM_pairs : forall {A B} (f : A -> result B) l y, mapM f l = Ok y -> Forall2 (fun a b => f a = Ok b) l y.
  Proof.
    induction l as [|a l IH]; intros y H; cbn [mapM] in H; [injection H as <-; constructor|].
    inv_as H as b Hb. inv_as H as ys Hy. injection H as <-. constructor; [exact Hb|apply IH; exact Hy].
  Qed.
  Lemma parts : forall w (t : tmodel T) tid name ph, newPhase show w t tid name = Ok ph ->
    exists l words, Tokens name l /\ Forall2 (fun x y => purist_leg show w t x = Ok y) l words /\ ph_purist ph = join words /\ ph_name ph = name /\
    (forall x c, In x l -> c = "^"%char \/ c = "v"%char -> sw x (str1 c) = false).
  Proof.
    intros w t tid name ph H.
    assert (K : ~ is_kmps name) by (intros K; rewrite (newPhase_kmps show w t tid name K) in H; discriminate).
    unfold newPhase in H. inv_as H as legs Hl. inv_as H as pur Hp. inv_as H as o Ho.
    destruct (proj1 (legPuller_iff name legs) Hl) as [[K' _]|[_ [l [Tl El]]]]; [contradiction|]. exists l.
    assert (Ep : ph_purist ph = pur /\ ph_name ph = name).
    { destruct o as [s|]; [|discriminate]. match type of H with (if ?b then _ else _) = _ => destruct b end; [injection H as <-; split; reflexivity|].
      inv_as H as nP HnP. inv_as H as nS HnS. inv_as H as d0 Hd0. inv_as H as t0 Ht0. inv_as H as sp Hsp.
      destruct sp as [[? ?]|]; [|injection H as <-; split; reflexivity].
      inv_as H as mi Hmi. inv_as H as ma Hma. inv_as H as s1 Hs1. inv_as H as s2 Hs2. injection H as <-. split; reflexivity. }
    destruct Ep as [Ep En].
    unfold createPuristName in Hp. inv_as Hp as f Hf. subst legs.
    assert (Ek : (List.length (l ++ ["END"]) =? 2)%nat && str_endswith "kmps" f = false).
    { destruct (str_endswith "kmps" f) eqn:Ef; [|apply andb_false_r]. destruct l as [|a [|b l]].
      - discriminate Hf || (cbn in Hf; injection Hf as <-; discriminate Ef).
      - exfalso. unfold py_index in Hf. simpl in Hf. injection Hf as <-.
        apply Tokens_join in Tl. simpl in Tl. rewrite str_app_nil_r in Tl. subst a. apply K. apply is_kmps_iff. assumption.
      - simpl. rewrite app_length. simpl. destruct (List.length l); reflexivity. }
    rewrite Ek, removelast_last in Hp. inv_as Hp as words Hw. injection Hp as <-. exists words.
    apply mapM_pairs in Hw. rewrite concat_join in Ep. split; [exact Tl|]. split; [exact Hw|]. split; [exact Ep|]. split; [exact En|].
    intros x c Ix Hc. destruct (sw x (str1 c)) eqn:Es; [|reflexivity]. exfalso.
    assert (Sx : x <> "END" /\ exists r, x = String c r).
    { unfold sw, str_startswith in Es. destruct x as [|d r]; [destruct Hc as [->| ->]; discriminate Es|].
      split; [intros E; injection E as -> ->; destruct Hc as [->| ->]; discriminate Es|].
      exists r. f_equal. destruct Hc as [->| ->]; unfold str1 in Es; cbn [prefix] in Es; destruct (ascii_dec _ d) as [E|E]; [symmetry; exact E|discriminate Es|symmetry; exact E|discriminate Es]. }
    destruct Sx as [Ne [r ->]].
    assert (Hb : exists e, purist_leg show w t (String c r) = Raise e).
    { apply (purist_leg_caret show w t c); [exact Hc|].
      destruct (C02_leg_shapes name _ Hl K (String c r) ltac:(apply in_or_app; left; exact Ix) Ne) as [[c' E]|[[c' [d [_ [Hd E]]]]|[E|E]]].
      - injection E as <- ->. left. reflexivity.
      - injection E as <- ->. right. eauto.
      - injection E as -> _. destruct Hc; discriminate.
      - injection E as -> _. destruct Hc; discriminate. }
    destruct Hb as [e Hb]. clear -Hw Ix Hb. induction Hw as [|x y l words Hxy Hw IH]; [contradiction|].
    destruct Ix as [->|Ix]; [congruence|exact (IH Ix)].
  Qed.
End Any.

Lemma shown_leg : forall {T} {N : Num T} {O : NumOrd T} {L : Libm T} (show : T -> string) w (t : tmodel T) x y,
  (forall k b, In b (tm_P t) -> n_ok (n_abs (n_int k - tb_top b))) -> sw x "v" = false -> sw x "^" = false ->
  purist_leg show w t x = Ok y -> shown show w t x y.
Proof.
  intros T N O L show w t x y Hok Hv Hc H. unfold purist_leg in H. rewrite Hv, Hc in H. cbn [orb] in H.
  destruct (leg_float x) as [z|] eqn:Ef.
  - destruct (float_digit x z Ef) as [k Hk]. left. inv_as H as i Hi. inv_as H as b Hb. injection H as <-. exists k, b.
    split; [exact Hk|]. split; [reflexivity|].
    destruct (C31_discontinuities w t x) as [_ [_ [_ [D _]]]]. destruct (D k Hk (Hok k)) as [D1 [D2 [i' [Ei Li]]]].
    assert (i' = i) by congruence. subst i'. destruct (Z.eq_dec i (-1)) as [->|Ni].
    + right. split; [apply D2; exact Ei|]. unfold py_index in Hb. cbn [Z.ltb Z.compare] in Hb.
      destruct (tm_P t) as [|c0 l0] eqn:El; [discriminate Hb|].
      destruct (exists_last (l := c0 :: l0) ltac:(discriminate)) as [l [c Ec]]. rewrite Ec in Hb |- *.
      rewrite app_length in Hb. cbn [List.length] in Hb. replace (-1 + Z.of_nat (List.length l + 1))%Z with (Z.of_nat (List.length l)) in Hb by lia.
      destruct (Z.ltb_spec (Z.of_nat (List.length l)) 0); [lia|]. rewrite Nat2Z.id, nth_error_app2, Nat.sub_diag in Hb by lia. injection Hb as ->. eauto.
    + left. replace i with (Z.of_nat (Z.to_nat i)) in Ei, Hb by lia. exists (Z.to_nat i). split; [apply (D1 (Z.to_nat i)); exact Ei|].
      unfold py_index in Hb. destruct (Z.ltb_spec (Z.of_nat (Z.to_nat i)) 0); [lia|]. destruct (Z.ltb_spec (Z.of_nat (Z.to_nat i)) 0); [lia|].
      rewrite Nat2Z.id in Hb. destruct (nth_error (tm_P t) (Z.to_nat i)); [injection Hb as <-; reflexivity|discriminate].
  - right. injection H as <-. split; [|reflexivity]. intros k Hk. rewrite (digit_float x k Hk) in Ef. discriminate.
Qed.

(** The purist name of a phase consists of its legs, each digit replaced by the depth of the discontinuity it stands for. *)
Theorem C77_purist : forall {T} {N : Num T} {O : NumOrd T} {L : Libm T} (show : T -> string) w (t : tmodel T) tid name ph,
  newPhase show w t tid name = Ok ph -> (forall k b, In b (tm_P t) -> n_ok (n_abs (n_int k - tb_top b))) ->
  exists legs words, Tokens name legs /\ Forall2 (shown show w t) legs words /\ ph_purist ph = join words.
Proof.
  intros T N O L show w t tid name ph H Hok. destruct (parts show w t tid name ph H) as [l [words [Tl [F [Ep [_ Nc]]]]]].
  exists l, words. split; [exact Tl|]. split; [|exact Ep]. clear Tl Ep.
  induction F as [|x y l words Hxy F IH]; constructor.
  - apply shown_leg; [exact Hok|apply (Nc x "v"%char); [left; reflexivity|right; reflexivity]|apply (Nc x "^"%char); [left; reflexivity|left; reflexivity]|exact Hxy].
  - apply IH. intros z c Iz. apply Nc. right. exact Iz.
Qed.
Print Assumptions C77_purist.

(** If the name has no digit, it is the purist name. *)
Theorem C77_plain : forall {T} {N : Num T} {L : Libm T} (show : T -> string) w (t : tmodel T) tid name ph,
  newPhase show w t tid name = Ok ph -> (forall c, In c number_chars -> ~ has_char c name) -> ph_purist ph = name /\ ph_name ph = name.
Proof.
  intros T N L show w t tid name ph H Nn. destruct (parts show w t tid name ph H) as [l [words [Tl [F [Ep [En Nc]]]]]].
  split; [|exact En]. rewrite Ep. pose proof (Tokens_join _ _ Tl) as J. rewrite <- J.
  assert (Q : forall x, In x l -> forall k, ~ is_digit_of x k).
  { intros x Ix k Hk. apply in_split in Ix. destruct Ix as [l1 [l2 ->]].
    assert (exists c, In c number_chars /\ x = String c "") as [c [Ic ->]].
    { unfold is_digit_of in Hk. cbn [In] in Hk.
      repeat (destruct Hk as [Hk|Hk]; [injection Hk as <- _; eexists; split; [|reflexivity]; unfold number_chars; cbn [In]; tauto|]). contradiction. }
    apply (Nn c Ic). exists (join l1), (join l2). rewrite <- J. clear.
    induction l1 as [|a l1 IH]; [reflexivity|].
    change (join ((a :: l1) ++ String c "" :: l2)) with (a ++ join (l1 ++ String c "" :: l2))%string.
    change (join (a :: l1)) with (a ++ join l1)%string. rewrite IH, str_app_assoc. reflexivity. }
  clear Tl Ep J Nn En H. induction F as [|x y l words Hxy F IH]; [reflexivity|]. cbn. f_equal.
  - unfold purist_leg in Hxy.
    rewrite (Nc x "v"%char (or_introl eq_refl) (or_intror eq_refl) : sw x "v" = false), (Nc x "^"%char (or_introl eq_refl) (or_introl eq_refl) : sw x "^" = false) in Hxy.
    cbn [orb] in Hxy. destruct (leg_float x) as [z|] eqn:Ef; [|injection Hxy as <-; reflexivity].
    destruct (float_digit x z Ef) as [k Hk]. exfalso. exact (Q x (or_introl eq_refl) k Hk).
  - apply IH; [intros z c Iz; apply Nc; right; exact Iz|intros z Iz; apply Q; right; exact Iz].
Qed.
Print Assumptions C77_plain.

(** Arrivals carry both names of their phase. *)
Theorem C77_arrivals : forall fuel (ph : phase R) deg l a, ph_calcTime fuel ph deg = Ok l -> In a l ->
  ar_name a = ph_name ph /\ ar_purist a = ph_purist ph.
Proof.
  intros fuel ph deg l a H Ha. destruct (calcTime_sound fuel ph deg l a H Ha) as [_ [_ [i [_ [_ E]]]]].
  apply interp_fields in E. tauto.
Qed.
Print Assumptions C77_arrivals.

(** ** Hypotheses met: a conversion at the discontinuity nearest to 4 km, the surface; and an ordinary phase *)
Definition p_show (x : b64) : string := if x =? d 0 0 then "0.0" else "?".
Example C77_ex : match newPhase p_show [] toy_tMod 0 "P4S" with
  | Ok ph => ph_purist ph = "P0.0S" /\ ph_name ph = "P4S" /\
      forallb (fun b => let e := n_abs (n_int 4 - tb_top b) in e =? e) (tm_P toy_tMod) = true
  | _ => False end.
Proof. vm_compute. repeat split. Qed.
Example C77_ex_plain : match newPhase p_show [] toy_tMod 0 "PcP" with Ok ph => ph_purist ph = "PcP" /\ ph_rayParams ph <> [] | _ => False end.
Proof. vm_compute. split; [reflexivity|discriminate]. Qed.

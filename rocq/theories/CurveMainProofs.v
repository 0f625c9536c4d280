(** Proofs about whole phase curves (C33, C34): assembly of the parts, and the ray parameter range of
    diffracted and head waves. *)
From Coq Require Import ZArith Bool List String Ascii Lia Reals Lra Sorted.
From Verif Require Import Base Num PyStr VelocityModel SlownessLayer SlownessModel TauModel Legs SeismicPhase
  NameSpec NameProofs SlowRealProofs SlowBuildProofs TauSpec CurveSpec CurveProofs.
Import ListNotations.
Local Open Scope string_scope.
Local Open Scope list_scope.
Local Open Scope R_scope.

Section Main.
  Variable show : R -> string.

  Lemma last_sample_le : forall l p q i j, q <= p -> last_sample l p i -> last_sample l q j -> (i <= j)%Z.
  Proof.
    intros l p q i j Hq [Hi [[r [Hr Hpr]] _]] [Hj [_ Hm]].
    destruct (Z_le_gt_dec i j) as [|G]; [assumption|]. specialize (Hm (Z.to_nat i) r ltac:(lia) Hr). lra.
  Qed.
  Lemma last_sample_lt : forall l p i, last_sample l p i -> (0 <= i < Z.of_nat (List.length l))%Z.
  Proof.
    intros l p i [Hi [[r [Hr _]] _]]. assert (Z.to_nat i < List.length l)%nat by (apply nth_error_Some; rewrite Hr; discriminate). lia.
  Qed.

  Section Phase.
    Variables (w : list R) (t : tmodel R) (tid : Z) (name : string) (ph : phase R).
    Hypothesis H : newPhase show w t tid name = Ok ph.
    Hypothesis Hne : ph_rayParams ph <> [].
    Hypothesis Hlen : List.length (tm_S t) = List.length (tm_P t).
    Hypothesis Hr : exists r, In r (tm_rayParams t) /\ ph_max ph <= r.

    Lemma curve_main : ~ diffracted name -> ~ head_wave name ->
      exists lo hi base c1 o1 o2,
      last_sample (tm_rayParams t) (ph_max ph) lo /\ last_sample (tm_rayParams t) (ph_min ph) hi /\
      0 <= ph_max ph /\ ph_min ph <= ph_max ph /\
      (((lo < hi)%Z /\ sampled_curve t (ph_seq ph) lo hi base) \/
       (lo = hi /\ single_curve t (ph_seq ph) lo (ph_min ph) base)) /\
      shadows t (ph_seq ph) lo (ph_min ph) (ph_max ph) true (sm_hiP (tm_sMod t)) base 0 c1 o1 /\
      shadows t (ph_seq ph) lo (ph_min ph) (ph_max ph) false (sm_hiS (tm_sMod t)) c1 0 (curve_of ph) o2 /\
      List.length (ph_dist ph) = List.length (ph_rayParams ph) /\ List.length (ph_time ph) = List.length (ph_rayParams ph).
    Proof.
      intros Nd Nh.
      destruct (newPhase_parts show w t tid name ph H Hne) as [legs [s [nP [nS [dist0 [time0 [dist [time [st1 [st P]]]]]]]]]].
      cbv zeta in P. destruct P as [Hl [Hp [H0 [Hmm [HnP [HnS [Hd0 [Ht0 [Hsp [H1 [H2 [_ [_ [_ [_ [Emin [Emax [Eseq [Ehi [Elo [_ [_ [Ed [Et Er]]]]]]]]]]]]]]]]]]]]]]]].
      rewrite Emin, Emax, Eseq. rewrite Emax in Hr.
      assert (Llo := last_ge_sample (ps_max s) (tm_rayParams t) Hr).
      assert (Lhi := last_ge_sample (ps_min s) (tm_rayParams t) ltac:(destruct Hr as [r [A B]]; exists r; split; [assumption|lra])).
      set (lo := last_ge (ps_max s) 0 (tm_rayParams t) (-1)%Z) in *. set (hi := last_ge (ps_min s) 0 (tm_rayParams t) (-1)%Z) in *.
      set (rps := phase_rayParams t s lo hi) in *.
      assert (Lle := last_sample_le _ _ _ _ _ Hmm Llo Lhi). assert (Blo := last_sample_lt _ _ _ Llo). assert (Bhi := last_sample_lt _ _ _ Lhi).
      destruct (sum_total t s nP nS Hlen HnP HnS lo hi (proj1 Blo) _ _ _ Hd0) as [Ld Sd].
      destruct (sum_total t s nP nS Hlen HnP HnS lo hi (proj1 Blo) _ _ _ Ht0) as [Lt St].
      destruct (special_ordinary t s lo hi ltac:(lia) ltac:(lia) dist0 time0 dist time Ld Lt Sd St name Nd Nh Hsp) as [[L1 L2] Base].
      assert (E0 : sh_even (mkSh dist time rps 0)) by (split; cbn; assumption).
      destruct (shadows_spec t s nP nS Hlen HnP HnS lo true _ _ _ E0 H1) as [E1 S1].
      assert (E1' : sh_even (mkSh (sh_dist st1) (sh_time st1) (sh_rp st1) 0)) by exact E1.
      destruct (shadows_spec t s nP nS Hlen HnP HnS lo false _ _ _ E1' H2) as [E2 S2].
      exists lo, hi, (combine (combine rps dist) time), (sh_curve st1), (sh_off st1), (sh_off st).
      split; [assumption|]. split; [assumption|]. split; [assumption|]. split; [assumption|].
      split; [exact Base|]. split; [exact S1|]. split.
      { unfold curve_of. rewrite Er, Ed, Et. exact S2. }
      rewrite Er, Ed, Et. exact E2.
    Qed.
  End Phase.

  (** ** where the inserted points come from *)
  Lemma nth_decreasing : forall (l : list R) i j a b, decreasing l -> (i < j)%nat -> nth_error l i = Some a -> nth_error l j = Some b -> b < a.
  Proof.
    induction l as [|x l IH]; intros i j a b Hd Hij Hi Hj; [destruct i; discriminate|].
    apply StronglySorted_inv in Hd. destruct Hd as [Hd Hx]. destruct j as [|j]; [lia|]. cbn [nth_error] in Hj.
    destruct i as [|i]; cbn [nth_error] in Hi.
    - inversion Hi; subst x. rewrite Forall_forall in Hx. apply Rltb_lt. apply Hx. eapply nth_error_In; eassumption.
    - eapply (IH i j); try eassumption. lia.
  Qed.

  Lemma at_index_decreasing : forall (l : list R) i j a b, decreasing l -> (0 <= i < j)%Z -> at_index l i a -> at_index l j b -> b < a.
  Proof.
    intros l i j a b Hd Hij Hi Hj. apply at_index_nonneg in Hi; [|lia]. apply at_index_nonneg in Hj; [|lia].
    eapply (nth_decreasing l (Z.to_nat i) (Z.to_nat j)); try eassumption. lia.
  Qed.

  Lemma sampled_falling : forall t seq lo hi c, decreasing (tm_rayParams t) -> (0 <= lo)%Z -> sampled_curve t seq lo hi c -> falling c.
  Proof.
    intros t seq lo hi c Hd Hlo [_ Hc] i j p d tm p' d' tm' Hij Hi Hj.
    destruct (Hc _ _ _ _ Hi) as [A _]. destruct (Hc _ _ _ _ Hj) as [B _].
    apply Rlt_le. eapply (at_index_decreasing _ _ _ _ _ Hd); [|exact A|exact B]. lia.
  Qed.
  Lemma sampled_offset : forall t seq lo hi c b, sampled_curve t seq lo hi c -> offset_ok t lo 0 b c.
  Proof.
    intros t seq lo hi c b [_ Hc] l1 p d tm l2 E _ _.
    assert (N : nth_error c (List.length l1) = Some (p, d, tm)) by (rewrite E, nth_error_app2, Nat.sub_diag by lia; reflexivity).
    destruct (Hc _ _ _ _ N) as [A _]. rewrite Z.sub_0_r. exact A.
  Qed.

  (** with a single sample no zone is strictly inside the range *)
  Lemma single_zones : forall t seq lo pmin pmax isP zs c off c' off',
    (forall p d tm, In (p, d, tm) c -> p = pmin) ->
    shadows t seq lo pmin pmax isP zs c off c' off' -> c' = c /\ off' = off.
  Proof.
    intros t seq lo pmin pmax isP. induction zs as [|z zs IH]; intros c off c' off' Hc Hs; inversion Hs; subst; [auto|].
    match goal with HS : shadow _ _ _ _ _ _ _ _ _ _ _ |- _ => destruct HS as [[-> [-> _]]|A] end; [eauto|].
    exfalso. destruct A as [[A1 _] [_ [l1 [d [tm [l2 [d' [tm' [E _]]]]]]]]].
    specialize (Hc (dr_rayParam z) d tm). rewrite E in Hc. rewrite Hc in A1; [lra|]. apply in_app_iff. right. left. reflexivity.
  Qed.
  Lemma no_zones : forall t seq lo pmin pmax isP zs c off c' off',
    (forall z, In z zs -> ~ pmin < dr_rayParam z < pmax) ->
    shadows t seq lo pmin pmax isP zs c off c' off' -> c' = c /\ off' = off.
  Proof.
    intros t seq lo pmin pmax isP. induction zs as [|z zs IH]; intros c off c' off' Hz Hs; inversion Hs; subst; [auto|].
    match goal with HS : shadow _ _ _ _ _ _ _ _ _ _ _ |- _ => destruct HS as [[-> [-> _]]|[A _]] end.
    - eapply IH; [|eassumption]. intros y Hy. apply Hz. right. assumption.
    - exfalso. exact (Hz z (or_introl eq_refl) A).
  Qed.
End Main.

(** ** ray parameter range after a diffracted or head wave leg *)
Section Pinch.
  Definition pinched (s : pstate R) : Prop := ps_max s <= ps_min s.

  Lemma py_min_le : forall a b : R, py_min a b <= a.
  Proof. intros a b. unfold py_min. destruct (n_ltb b a) eqn:E; [apply Rltb_lt in E|]; lra. Qed.
  Lemma py_max_ge : forall a b : R, a <= py_max a b.
  Proof. intros a b. unfold py_max. destruct (n_ltb a b) eqn:E; [apply Rltb_lt in E|]; lra. Qed.

  Lemma add_pinched : forall t s e p a s', addToBranch t s e p a = Ok s' -> pinched s -> pinched s'.
  Proof.
    intros t s e p a s' H Hp. unfold addToBranch in H. inv_as H as b Hb. unfold pinched in *.
    assert (Y := py_max_ge (ps_min s) (tb_minTurnRP b)). assert (X1 := py_min_le (ps_max s) (tb_minTurnRP b)).
    assert (X2 := py_min_le (ps_max s) (tb_maxRP b)). assert (X3 := py_min_le (ps_max s) (tb_minRP b)).
    destruct a; inversion H; cbn [ps_max ps_min]; lra.
  Qed.
  Lemma conv_pinched : forall t s f p s', phaseConversion t s f p = Ok s' -> pinched s -> pinched s'.
  Proof.
    intros t s f p s' H Hp. unfold phaseConversion in H. unfold pinched in *.
    destruct (ps_end s); try discriminate; inv_as H as x Hx; inv_as H as y Hy; inversion H; cbn [ps_max ps_min];
      (apply (Rle_trans _ (ps_max s)); [|assumption]); (eapply Rle_trans; apply py_min_le).
  Qed.
  Lemma next_pinched : forall t s e p a r, next (addToBranch t s e p a) = Ok (Next r) -> pinched s -> pinched r.
  Proof. intros t s e p a r H Hp. unfold next in H. inv_as H as s1 H1. inversion H; subst. eapply add_pinched; eassumption. Qed.

  Ltac pin := first
    [ discriminate
    | match goal with
      | H : next (addToBranch _ ?s _ _ _) = Ok (Next ?r) |- _ => apply (next_pinched _ s _ _ _ r H)
      | H : addToBranch _ ?s _ _ _ = Ok ?r |- pinched ?r => apply (add_pinched _ s _ _ _ r H)
      | H : phaseConversion _ ?s _ _ = Ok ?r |- pinched ?r => apply (conv_pinched _ s _ _ r H)
      | H : Ok _ = Ok _ |- _ => inversion H; subst; clear H
      | H : (if ?b then _ else _) = _ |- _ => destruct b
      | H : bind _ _ = _ |- _ => let x := fresh "x" in let Hx := fresh "Hx" in inv_as H as x Hx
      | H : (let! _ := _ in _) = _ |- _ => let x := fresh "x" in let Hx := fresh "Hx" in inv_as H as x Hx
      end
    | assumption ].

  Lemma up_pinched : forall w t s p c n d r, leg_up w t s p c n d = Ok (Next r) -> pinched s -> pinched r.
  Proof. intros w t s p c n d r H Hp. unfold leg_up in H. repeat pin. Qed.
  Lemma PS_pinched : forall w t s p c n d rest r, leg_PS w t s p c n d rest = Ok (Next r) -> pinched s -> pinched r.
  Proof. intros w t s p c n d rest r H Hp. unfold leg_PS in H. repeat pin. Qed.
  Lemma K_pinched : forall t s p c n r, leg_K t s p c n = Ok (Next r) -> pinched s -> pinched r.
  Proof. intros t s p c n r H Hp. unfold leg_K in H. cbv zeta in H. repeat pin. Qed.
  Lemma IJ_pinched : forall t s p n r, leg_IJ t s p n = Ok (Next r) -> pinched s -> pinched r.
  Proof. intros t s p n r H Hp. unfold leg_IJ in H. repeat pin. Qed.
  Lemma long_pinched : forall t s p c n r, leg_long t s p c n = Ok (Next r) -> pinched s -> pinched r.
  Proof.
    intros t s p c n r H Hp. unfold leg_long in H. cbv zeta in H. unfold no_phase in H. repeat pin; unfold pinched; cbn [ps_max ps_min]; try lra.
  Qed.
  (** these legs themselves *)
  Definition pinching (c : string) : Prop := c = "Pdiff" \/ c = "Sdiff" \/ c = "Pn" \/ c = "Sn".
  Lemma long_pinches : forall t s p c n r, pinching c -> leg_long t s p c n = Ok (Next r) -> pinched r.
  Proof.
    intros t s p c n r Hc H. unfold leg_long in H. cbv zeta in H. unfold no_phase in H.
    destruct Hc as [->|[->|[->| ->]]]; cbn [seq_ String.eqb Ascii.eqb Bool.eqb orb one_of existsb] in H; repeat pin; unfold pinched; cbn [ps_max ps_min]; lra.
  Qed.

  Lemma leg_pinched : forall w t s pp p ld prev c n rest r, parse_leg w t s pp p ld prev c n rest = Ok (Next r) ->
    pinching c \/ pinched s -> pinched r.
  Proof.
    intros w t s pp p ld prev c n rest r H Hp. unfold parse_leg in H. cbv zeta in H. inv_as H as s1 H1.
    assert (C : pinched s -> pinched s1).
    { intros P. destruct (rev (ps_seq s)); [inversion H1; subst; assumption|]. destruct (negb _); [eapply conv_pinched; eassumption|inversion H1; subst; assumption]. }
    destruct Hp as [Hc|Hp].
    - assert (X : leg_long t s1 p c n = Ok (Next r)) by (destruct Hc as [->|[->|[->| ->]]]; exact H).
      exact (long_pinches _ _ _ _ _ _ Hc X).
    - specialize (C Hp). if_in H; [exact (up_pinched _ _ _ _ _ _ _ _ H C)|]. if_in H; [exact (PS_pinched _ _ _ _ _ _ _ _ _ H C)|].
      if_in H; [exact (long_pinched _ _ _ _ _ _ H C)|]. if_in H; [exact (K_pinched _ _ _ _ _ _ H C)|].
      if_in H; [exact (IJ_pinched _ _ _ _ _ H C)|]. if_in H; [inversion H; subst; assumption|discriminate].
  Qed.

  (** a leg that gives up leaves a negative maximum *)
  Lemma leg_returns : forall w t s pp p ld prev c n rest r, parse_leg w t s pp p ld prev c n rest = Ok (Return r) -> ps_max r < 0.
  Proof.
    intros w t s pp p ld prev c n rest r H. unfold parse_leg in H. cbv zeta in H. inv_as H as s1 H1.
    assert (NN : forall x, next x = Ok (Return r) -> False).
    { intros x E. unfold next in E. inv_as E as y Hy. discriminate. }
    assert (M1 : @n_lit R Num_R (-1) 0 < 0).
    { change (Rlit (-1) 0 < 0). unfold Rlit. cbn. lra. }
    unfold leg_up, leg_PS, leg_long, leg_K, leg_IJ, no_phase in H. cbv zeta in H.
    repeat first [discriminate | exfalso; eapply NN; eassumption
      | match goal with
        | H : Ok _ = Ok _ |- _ => inversion H; subst; clear H; cbn [ps_max]; exact M1
        | H : (if ?b then _ else _) = _ |- _ => destruct b
        | H : (let! _ := _ in _) = _ |- _ => let x := fresh "x" in let Hx := fresh "Hx" in inv_as H as x Hx
        end].
  Qed.

  Lemma go_pinched : forall w t rest prev c p ld s r, parse_go w t rest prev c p ld s = Ok r -> 0 <= ps_max r ->
    pinched s \/ (exists x, In x (removelast (c :: rest)) /\ pinching x) -> pinched r.
  Proof.
    intros w t. induction rest as [|n rest IH]; intros prev c p ld s r H H0 Hp; cbn [parse_go] in H.
    - inversion H; subst. destruct Hp as [|[x [[] _]]]; assumption.
    - cbv zeta in H. inv_as H as q Hq. destruct q as [s1|s1].
      + eapply IH; [eassumption|assumption|]. destruct Hp as [Hp|[x [Hin Hx]]].
        * left. eapply leg_pinched; [eassumption|]. right. assumption.
        * change (removelast (c :: n :: rest)) with (c :: removelast (n :: rest)) in Hin. destruct Hin as [<-|Hin].
          -- left. eapply leg_pinched; [eassumption|]. left. assumption.
          -- right. eauto.
      + inversion H; subst. apply leg_returns in Hq. lra.
  Qed.
End Pinch.

(** ** the name decides about the legs *)
Lemma contains_leg : forall name l, Tokens name l -> forall x a b, pinching x -> name = (a ++ x ++ b)%string -> In x l.
Proof.
  assert (Hd : forall x, pinching x -> exists c y, x = String c y /\ (c = "P" \/ c = "S")%char).
  { intros x [->|[->|[->| ->]]]; eexists; eexists; (split; [reflexivity|]); auto. }
  intros name l H. induction H as [|c s l Hc H IH|c Hc|c d s l Hc Hf H IH|c d s l Hc Hs H IH|y s l Hy H IH]; intros x a b Hx E.
  - destruct (Hd x Hx) as [c [y [-> _]]]. destruct a; discriminate.
  - destruct a as [|a0 a].
    + destruct (Hd x Hx) as [c' [y [-> D]]]. cbn in E. injection E as <- _. exfalso.
      destruct D as [->| ->]; cbn in Hc; intuition discriminate.
    + cbn in E. injection E as _ E. right. eapply IH; eassumption.
  - exfalso. destruct a as [|a0 [|a1 a]]; destruct Hx as [->|[->|[->| ->]]]; discriminate.
  - destruct a as [|a0 a].
    + exfalso. destruct Hx as [->|[->|[->| ->]]]; cbn in E; injection E as E1 E2 E3; subst d; cbn in Hf; intuition discriminate.
    + cbn in E. injection E as _ E. right. eapply IH; eassumption.
  - destruct a as [|a0 [|a1 a]].
    + left. destruct Hx as [->|[->|[->| ->]]]; cbn in E; injection E as E1 E2 E3; subst c d; cbn in Hs; try reflexivity; intuition discriminate.
    + exfalso. destruct (Hd x Hx) as [c' [y [-> D]]]. cbn in E. injection E as E1 E2 E3. subst d. destruct D as [->| ->]; cbn in Hs; intuition discriminate.
    + cbn in E. injection E as _ _ E. right. eapply IH; eassumption.
  - destruct a as [|a0 [|a1 [|a2 [|a3 [|a4 a]]]]].
    1: left; destruct Hy as [->| ->]; destruct Hx as [->|[->|[->| ->]]]; cbn in E; (reflexivity || discriminate).
    1,2,3,4: exfalso; destruct Hy as [->| ->]; destruct Hx as [->|[->|[->| ->]]]; discriminate.
    right. eapply IH; [eassumption|]. destruct Hy as [->| ->]; cbn in E; injection E as _ _ _ _ _ E; exact E.
Qed.

Section Special.
  Variable show : R -> string.
  Variables (w : list R) (t : tmodel R) (tid : Z) (name : string) (ph : phase R).

  Lemma parse_pinched : forall legs s, legPuller name = Ok legs -> parseName w t name legs = Ok (Some s) -> 0 <= ps_max s ->
    diffracted name \/ head_wave name -> pinched s.
  Proof.
    intros legs s Hl Hp H0 Hn.
    assert (Hx : exists x, pinching x /\ contains x name).
    { unfold pinching. destruct Hn as [[|]|[|]]; eexists; (split; [|eassumption]); auto. }
    destruct Hx as [x [Hx [a [b E]]]].
    apply legPuller_iff in Hl. destruct Hl as [[[pre K] ->]|[_ [l [Tk ->]]]].
    - exfalso. unfold parseName in Hp. cbn [py_index Z.ltb Z.compare List.length bind nth_error Z.to_nat] in Hp.
      change (py_index [name; "END"] 0) with (@Ok string name) in Hp. cbn [bind List.length Nat.eqb andb] in Hp.
      assert (Ek : str_endswith "kmps" name = true) by (apply is_kmps_iff; exists pre; exact K).
      rewrite Ek in Hp. cbn [andb] in Hp. discriminate.
    - assert (Hin := contains_leg _ _ Tk x a b Hx E).
      destruct l as [|first l]; [destruct Hin|].
      unfold parseName in Hp. change (py_index ((first :: l) ++ ["END"]) 0) with (@Ok string first) in Hp. cbn [bind] in Hp.
      if_in Hp; [discriminate|]. if_in Hp; [discriminate|]. cbv zeta in Hp.
      assert (Go : forall c0, (let! mx := if (tm_sourceBranch t =? 0)%Z
                     then let! b := getTauBranch t (tm_sourceBranch t) (first_wave first) in Ok (tb_maxRP b)
                     else let! a := getTauBranch t (tm_sourceBranch t - 1) (first_wave first) in
                          let! b := getTauBranch t (tm_sourceBranch t) (first_wave first) in
                          Ok (py_max (tb_minTurnRP a) (tb_maxRP b)) in
          let! s := parse_go w t (List.tl ((first :: l) ++ ["END"])) "START" first (first_wave first) false
                             (mkPS mx n_0 c0 TRANSDOWN []) in
          Ok (Some s)) = Ok (Some s) -> pinched s).
      { intros c0 Hgo. inv_as Hgo as mx Hmx. inv_as Hgo as s1 Hs1. inversion Hgo; subst s1.
        eapply go_pinched; [exact Hs1|assumption|]. right. exists x. split; [|assumption].
        change (first :: List.tl ((first :: l) ++ ["END"])) with ((first :: l) ++ ["END"]). rewrite removelast_last. exact Hin. }
      assert (Nn : pinched (mkPS (n_lit (-1) 0) (n_lit (-1) 0) 0%Z REFLECTTOP [])) by (unfold pinched; cbn [ps_max ps_min]; lra).
      if_in Hp; [injection Hp as <-; exact Nn|]. if_in Hp; [exact (Go _ Hp)|]. if_in Hp; [|discriminate].
      if_in Hp; [injection Hp as <-; exact Nn|exact (Go _ Hp)].
  Qed.

  Hypothesis H : newPhase show w t tid name = Ok ph.
  Hypothesis Hne : ph_rayParams ph <> [].
  Hypothesis Hlen : List.length (tm_S t) = List.length (tm_P t).
  Hypothesis Hr : exists r, In r (tm_rayParams t) /\ ph_max ph <= r.

  Lemma special_curve : diffracted name \/ head_wave name ->
    exists lo d tm dd dt,
    ph_min ph = ph_max ph /\ 0 <= ph_max ph /\ last_sample (tm_rayParams t) (ph_max ph) lo /\
    legs_total t tb_dist lo (ph_seq ph) d /\ legs_total t tb_time lo (ph_seq ph) tm /\
    curve_of ph = [(ph_min ph, d, tm); (ph_min ph, d + dd, tm + dt)] /\
    List.length (ph_dist ph) = 2%nat /\ List.length (ph_time ph) = 2%nat /\ List.length (ph_rayParams ph) = 2%nat /\
    ((diffracted name /\ dd = 60 * PI / 180 /\ dt = ph_min ph * dd) \/
     (~ diffracted name /\ dd = 20 * PI / 180 /\ dt = dd)).
  Proof.
    intros Hn.
    destruct (newPhase_parts show w t tid name ph H Hne) as [legs [s [nP [nS [dist0 [time0 [dist [time [st1 [st P]]]]]]]]]].
    cbv zeta in P. destruct P as [Hl [Hp [H0 [Hmm [HnP [HnS [Hd0 [Ht0 [Hsp [H1 [H2 [_ [_ [_ [_ [Emin [Emax [Eseq [Ehi [Elo [_ [_ [Ed [Et Er]]]]]]]]]]]]]]]]]]]]]]]].
    rewrite Emin, Emax, Eseq. rewrite Emax in Hr.
    assert (Pi := parse_pinched _ _ Hl Hp H0 Hn). unfold pinched in Pi.
    assert (Eq : ps_min s = ps_max s) by lra.
    assert (Llo := last_ge_sample (ps_max s) (tm_rayParams t) Hr).
    assert (Ehl : last_ge (ps_min s) 0 (tm_rayParams t) (-1)%Z = last_ge (ps_max s) 0 (tm_rayParams t) (-1)%Z) by (rewrite Eq; reflexivity).
    rewrite Ehl in *. set (lo := last_ge (ps_max s) 0 (tm_rayParams t) (-1)%Z) in *.
    set (rps := phase_rayParams t s lo lo) in *.
    assert (Blo := last_sample_lt _ _ _ Llo).
    destruct (sum_total t s nP nS Hlen HnP HnS lo lo (proj1 Blo) _ _ _ Hd0) as [Ld Sd].
    destruct (sum_total t s nP nS Hlen HnP HnS lo lo (proj1 Blo) _ _ _ Ht0) as [Lt St].
    specialize (Sd 0%nat ltac:(lia)). specialize (St 0%nat ltac:(lia)). rewrite Z.add_0_r in Sd, St.
    (* the two entries *)
    assert (Two : exists dd dt, (0 < List.length dist0)%nat /\ (1 < List.length dist0)%nat /\
        dist = list_set dist0 1 (val dist0 0 + dd) /\ time = list_set time0 1 (val time0 0 + dt) /\
        ((diffracted name /\ dd = 60 * PI / 180 /\ dt = ps_min s * dd) \/ (~ diffracted name /\ dd = 20 * PI / 180 /\ dt = dd))).
    { unfold sum_special in Hsp.
      destruct (str_in "Sdiff" name || str_in "Pdiff" name) eqn:ED.
      - assert (D : diffracted name) by (apply orb_true_iff in ED; destruct ED as [ED|ED]; apply str_in_iff in ED; [left|right]; assumption).
        inv_as Hsp as c Hc. if_in Hsp; [discriminate|]. inv_as Hsp as e He. inv_as Hsp as d0 Hd00. inv_as Hsp as dl Hdl.
        inv_as Hsp as t0 Ht00. inv_as Hsp as tl Htl. inversion Hsp; subst dl tl. clear Hsp.
        rewrite ?n_int_R in He. rewrite py_div_R in He by lra. injection He as <-.
        apply setitem_Ok in Hdl, Htl. destruct Hdl as [-> Pd], Htl as [-> Pt].
        change (pos (List.length dist0) 1) with 1%nat in *. change (pos (List.length time0) 1) with 1%nat in *.
        apply py_index_iff in Hd00, Ht00. apply (at_index_nat _ 0) in Hd00, Ht00. apply val_at in Hd00, Ht00. subst d0 t0.
        exists (60 * PI / 180), (ps_min s * (60 * PI / 180)). split; [lia|]. split; [lia|]. split; [reflexivity|].
        split; [|left; auto]. f_equal. change (val time0 0 + 60 * PI / 180 * ps_min s = val time0 0 + ps_min s * (60 * PI / 180)). lra.
      - assert (D : ~ diffracted name).
        { apply orb_false_iff in ED. intros [X|X]; apply str_in_iff in X; destruct ED; congruence. }
        assert (EH : str_in "Pn" name || str_in "Sn" name = true).
        { destruct Hn as [|[X|X]]; [contradiction| |]; apply str_in_iff in X; rewrite X; [reflexivity|apply orb_true_r]. }
        rewrite EH in Hsp. inv_as Hsp as e He. inv_as Hsp as d0 Hd00. inv_as Hsp as dl Hdl.
        inv_as Hsp as t0 Ht00. inv_as Hsp as tl Htl. inversion Hsp; subst dl tl. clear Hsp.
        rewrite ?n_int_R in He. rewrite py_div_R in He by lra. injection He as <-.
        apply setitem_Ok in Hdl, Htl. destruct Hdl as [-> Pd], Htl as [-> Pt].
        change (pos (List.length dist0) 1) with 1%nat in *. change (pos (List.length time0) 1) with 1%nat in *.
        apply py_index_iff in Hd00, Ht00. apply (at_index_nat _ 0) in Hd00, Ht00. apply val_at in Hd00, Ht00. subst d0 t0.
        exists (20 * PI / 180), (20 * PI / 180). split; [lia|]. split; [lia|]. split; [reflexivity|]. split; [reflexivity|]. right. auto. }
    destruct Two as [dd [dt [_ [L1 [Edi [Eti Cases]]]]]].
    assert (Er2 : rps = [ps_min s; ps_min s]).
    { unfold rps, phase_rayParams in *. destruct (Z.eqb_spec lo 0) as [F0|F0], (Z.eqb_spec lo (Z.of_nat (List.length (tm_rayParams t)) - 1)) as [F1|F1]; cbn [andb] in *;
        try (destruct (Z.eqb_spec lo lo); [reflexivity|contradiction]). exfalso. lia. }
    assert (NoZ : forall isP zs a b, foldM (shadow_step t s lo isP (combine (combine nP nS) (combine (tm_P t) (tm_S t)))) zs a = Ok b -> b = a).
    { clear - Eq. intros isP. induction zs as [|z zs IH]; intros a b E; cbn [foldM] in E; [congruence|].
      inv_as E as c Hc. assert (c = a); [|subst c; apply IH; assumption].
      unfold shadow_step in Hc. destruct (n_ltb (dr_rayParam z) (ps_max s)) eqn:E1; cbn [andb] in Hc; [|congruence].
      destruct (n_ltb (ps_min s) (dr_rayParam z)) eqn:E2; [|congruence]. apply Rltb_lt in E1, E2. exfalso. lra. }
    apply NoZ in H1. subst st1. apply NoZ in H2. cbn [sh_dist sh_time sh_rp sh_off] in H2. subst st.
    cbn [sh_dist sh_time sh_rp] in Ed, Et, Er.
    rewrite Er2 in Ld, Lt. cbn [List.length] in Ld, Lt.
    destruct dist0 as [|a0 [|a1 [|? ?]]]; cbn [List.length] in Ld; try lia.
    destruct time0 as [|b0 [|b1 [|? ?]]]; cbn [List.length] in Lt; try lia.
    cbn [val nth list_set] in *. unfold val in *. cbn [nth] in *.
    exists lo, a0, b0, dd, dt. split; [assumption|]. split; [assumption|]. split; [assumption|]. split; [assumption|]. split; [assumption|].
    split; [unfold curve_of; rewrite Er, Ed, Et, Er2, Edi, Eti; reflexivity|].
    rewrite Er, Ed, Et, Er2, Edi, Eti. cbn [List.length list_set]. split; [reflexivity|]. split; [reflexivity|]. split; [reflexivity|]. exact Cases.
  Qed.
End Special.

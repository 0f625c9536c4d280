(** Property C78: no point of a phase's curve lies beyond its recorded maximum distance, so that all arrivals are found, also in
    models with high slowness zones. *)
From Coq Require Import ZArith Bool List String Reals Lia Lra Sorted.
From Verif Require Import Base Num PyStr VelocityModel SlownessLayer SlownessModel TauModel Legs SeismicPhase
  TauSpec TimeSpec CurveSpec CurveProofs CurveMainProofs CurveProps TimeProps PathSpec PathProofs PathWholeProofs SlowRealProofs SlowBuildProofs RealRun OnceProps ReachSpec.
Import ListNotations.
Local Open Scope string_scope.
Local Open Scope list_scope.
Local Open Scope R_scope.

(** The branches of a model as the constructor makes it store no negative distances and times. *)
Theorem C78_forth : forall t, rays_ready t -> forth t.
Proof.
  intros t [_ Hr] b Hb. destruct (Hr b Hb) as [_ [Ld [Lt [Lu V]]]]. split; [exact Ld|]. split; [exact Lt|].
  assert (Sm : forall incs : list (timedist R), (forall x, In x incs -> 0 <= td_time x /\ 0 <= td_dist x) -> 0 <= sum_dist incs /\ 0 <= sum_time incs).
  { assert (G : forall (f : timedist R -> R) incs a, 0 <= a -> (forall x, In x incs -> 0 <= f x) -> 0 <= fold_left (fun s x => (s + f x)%num) incs a).
    { intros f. induction incs as [|x l IH]; intros a Ha Hx; cbn [fold_left]; [exact Ha|]. apply IH; [|intros y Hy; apply Hx; right; exact Hy].
      specialize (Hx x (or_introl eq_refl)). cbn. lra. }
    intros incs Hi. unfold sum_dist, sum_time. assert (Z0 : 0 <= (n_0 : R)) by (rewrite n_0_R; lra).
    split; [apply (G td_dist)|apply (G td_time)]; try exact Z0; intros x Hx; apply (Hi x Hx). }
  assert (K : forall k d u, nth_error (tb_dist b) k = Some d -> nth_error (tb_time b) k = Some u -> 0 <= d /\ 0 <= u).
  { intros k d u Hd Hu.
    destruct (nth_error (tm_rayParams t) k) as [p|] eqn:Ep; [|apply nth_error_None in Ep; assert (k < List.length (tb_dist b))%nat by (apply nth_error_Some; congruence); lia].
    destruct (nth_error (tb_tau b) k) as [v|] eqn:Ev; [|apply nth_error_None in Ev; assert (k < List.length (tb_dist b))%nat by (apply nth_error_Some; congruence); lia].
    destruct (V k p d u v Ep Hd Hu Ev) as [_ [[_ [-> ->]]|[_ [i [j [incs [_ [_ [D [-> ->]]]]]]]]]]; [rewrite n_0_R; lra|].
    apply Sm. intros x Hx. destruct D as [[_ [_ [D _]]]|[_ ->]]; [|destruct Hx].
    apply In_nth_error in Hx. destruct Hx as [q Hq]. exact (layer_nonneg _ _ _ _ _ (D q x Hq)). }
  split; intros x Hx; apply In_nth_error in Hx; destruct Hx as [k Hk].
  - destruct (nth_error (tb_time b) k) as [u|] eqn:E; [apply (K k x u Hk E)|]. apply nth_error_None in E. assert (k < List.length (tb_dist b))%nat by (apply nth_error_Some; congruence). lia.
  - destruct (nth_error (tb_dist b) k) as [u|] eqn:E; [apply (K k u x E Hk)|]. apply nth_error_None in E. assert (k < List.length (tb_time b))%nat by (apply nth_error_Some; congruence). lia.
Qed.
Print Assumptions C78_forth.

Lemma at_index_In : forall {A} (l : list A) i a, at_index l i a -> In a l.
Proof. intros A l i a [[_ H]|[_ H]]; eapply nth_error_In; exact H. Qed.
Lemma leg_in : forall {T} (t : tmodel T) s b, leg_branch t s b -> In b (tm_P t) \/ In b (tm_S t).
Proof. intros T t s b H. apply at_index_In in H. destruct (sg_isP s); auto. Qed.
(** an index counted from the end is the same one counted from the start in lists of that length *)
Lemma at_index_same : forall {A B} (l : list A) (l' : list B) i a x, List.length l = List.length l' -> at_index l i a -> at_index l' i x ->
  exists k, nth_error l k = Some a /\ nth_error l' k = Some x.
Proof.
  intros A B l l' i a x L Ha Hx. apply at_index_pos in Ha, Hx. rewrite <- L in Hx. eauto.
Qed.

Section Legs.
  Variable t : tmodel R.
  Variable f : tbranch R -> list R.
  Hypothesis Hf : forall b, In b (tm_P t) \/ In b (tm_S t) -> List.length (f b) = List.length (tm_rayParams t) /\ forall x, In x (f b) -> 0 <= x.

  Lemma total_pos : forall i seq y, legs_total t f i seq y -> 0 <= y.
  Proof.
    intros i seq y H. induction H as [|s l b x y Hb Hx _ IH]; [lra|]. pose proof (proj2 (Hf b (leg_in t s b Hb)) x (at_index_In _ _ _ Hx)). lra.
  Qed.
  Lemma above_pos : forall top i seq y, legs_above t f top i seq y -> 0 <= y.
  Proof.
    intros top i seq y H. induction H as [|s l b x y Hb _ Hx _ IH|s l b y _ _ _ IH]; [lra| |exact IH]. pose proof (proj2 (Hf b (leg_in t s b Hb)) x (at_index_In _ _ _ Hx)). lra.
  Qed.
  (** the legs above a zone are no longer than all legs *)
  Lemma above_total : forall top i k p seq y y', at_index (tm_rayParams t) i p -> nth_error (tm_rayParams t) k = Some p ->
    (forall j, nth_error (tm_rayParams t) j = Some p -> j = k) ->
    legs_above t f top i seq y -> legs_total t f (Z.of_nat k) seq y' -> y <= y'.
  Proof.
    intros top i k p seq y y' Hi Hk U H. revert y'. induction H as [|s l b x y Hb _ Hx _ IH|s l b y Hb _ _ IH]; intros y' H'; inversion H' as [|s' l' b' x' y'' Hb' Hx' T']; subst.
    - lra.
    - assert (b' = b) by (eapply at_index_fun; eassumption). subst b'. specialize (IH _ T').
      assert (x' = x).
      { destruct (at_index_same (tm_rayParams t) (f b) i p x ltac:(symmetry; apply Hf; eapply leg_in; exact Hb) Hi Hx) as [j [J1 J2]].
        apply U in J1. subst j. apply at_index_nat in Hx'. congruence. }
      subst. lra.
    - specialize (IH _ T'). pose proof (proj2 (Hf b' (leg_in t s b' Hb')) x' (at_index_In _ _ _ Hx')). lra.
  Qed.
End Legs.

Section Phase.
  Variables (show : R -> string) (w : list R) (t : tmodel R) (tid : Z) (name : string) (ph : phase R).
  Hypothesis H : newPhase show w t tid name = Ok ph.
  Hypothesis Hlen : List.length (tm_S t) = List.length (tm_P t).
  Hypothesis Hr : exists r, In r (tm_rayParams t) /\ ph_max ph <= r.
  Hypothesis Nd : ~ diffracted name.
  Hypothesis Nh : ~ head_wave name.

  (** the points before the zones are within the recorded maximum *)
  Lemma base_max : ph_rayParams ph <> [] -> exists lo hi base c1 o1 o2,
    last_sample (tm_rayParams t) (ph_max ph) lo /\ last_sample (tm_rayParams t) (ph_min ph) hi /\
    (((lo < hi)%Z /\ sampled_curve t (ph_seq ph) lo hi base) \/ (lo = hi /\ single_curve t (ph_seq ph) lo (ph_min ph) base)) /\
    shadows t (ph_seq ph) lo (ph_min ph) (ph_max ph) true (sm_hiP (tm_sMod t)) base 0 c1 o1 /\
    shadows t (ph_seq ph) lo (ph_min ph) (ph_max ph) false (sm_hiS (tm_sMod t)) c1 0 (curve_of ph) o2 /\
    List.length (ph_dist ph) = List.length (ph_rayParams ph) /\ List.length (ph_time ph) = List.length (ph_rayParams ph) /\
    (forall p d tm, In (p, d, tm) base -> d <= ph_maxDist ph).
  Proof.
    intros Hne.
    destruct (newPhase_parts show w t tid name ph H Hne) as [legs [s [nP [nS [dist0 [time0 [dist [time [st1 [st P]]]]]]]]]].
    cbv zeta in P. destruct P as [Hl [Hp [H0 [Hmm [HnP [HnS [Hd0 [Ht0 [Hsp [H1 [H2 [_ [Mx [_ [_ [Emin [Emax [Eseq [Ehi [Elo [_ [_ [Ed [Et Er]]]]]]]]]]]]]]]]]]]]]]]].
    rewrite Emin, Emax, Eseq. rewrite Emax in Hr.
    assert (Llo := last_ge_sample (ps_max s) (tm_rayParams t) Hr).
    assert (Lhi := last_ge_sample (ps_min s) (tm_rayParams t) ltac:(destruct Hr as [r [A B]]; exists r; split; [assumption|lra])).
    set (lo := last_ge (ps_max s) 0 (tm_rayParams t) (-1)%Z) in *. set (hi := last_ge (ps_min s) 0 (tm_rayParams t) (-1)%Z) in *.
    set (rps := phase_rayParams t s lo hi) in *.
    assert (Lle := last_sample_le _ _ _ _ _ Hmm Llo Lhi). assert (Blo := last_sample_lt _ _ _ Llo). assert (Bhi := last_sample_lt _ _ _ Lhi).
    destruct (sum_total t s nP nS Hlen HnP HnS lo hi (proj1 Blo) _ _ _ Hd0) as [Ld Sd].
    destruct (sum_total t s nP nS Hlen HnP HnS lo hi (proj1 Blo) _ _ _ Ht0) as [Lt St].
    destruct (special_ordinary t s lo hi ltac:(lia) ltac:(lia) dist0 time0 dist time Ld Lt Sd St name Nd Nh Hsp) as [[L1 L2] Base].
    assert (E0 : sh_even (mkSh dist time rps 0)) by (split; cbn; assumption).
    destruct (shadows_spec t s nP nS Hlen HnP HnS lo true _ _ _ E0 H1) as [E1 S1].
    assert (E1' : sh_even (mkSh (sh_dist st1) (sh_time st1) (sh_rp st1) 0)) by exact E1.
    destruct (shadows_spec t s nP nS Hlen HnP HnS lo false _ _ _ E1' H2) as [E2 S2].
    exists lo, hi, (combine (combine rps dist) time), (sh_curve st1), (sh_off st1), (sh_off st).
    split; [assumption|]. split; [assumption|]. split; [exact Base|]. split; [exact S1|]. split.
    { unfold curve_of. rewrite Er, Ed, Et. exact S2. }
    rewrite Er, Ed, Et. split; [apply E2|]. split; [apply E2|].
    intros p d tm Hin. apply in_combine_l in Hin. apply in_combine_r in Hin.
    destruct dist as [|a l]; [destruct Hin|]. cbn in Mx. injection Mx as <-. apply (proj1 (fold_min_max l a)). exact Hin.
  Qed.

  Hypothesis Hft : forth t.
  Hypothesis Dec : decreasing (tm_rayParams t).
  (** the high slowness zones in the range of the phase are of one wave type *)
  Variable isP : bool.
  Let zs := if isP then sm_hiP (tm_sMod t) else sm_hiS (tm_sMod t).
  Let others := if isP then sm_hiS (tm_sMod t) else sm_hiP (tm_sMod t).
  Hypothesis Hz : zones_fall zs.
  Hypothesis Ho : forall z, In z others -> ~ ph_min ph < dr_rayParam z < ph_max ph.

  (** All points of the curve are within the recorded maximum distance, which is that before the zones add points. *)
  Theorem C78_reach : ph_rayParams ph <> [] ->
    (forall d, In d (ph_dist ph) -> 0 <= d <= ph_maxDist ph) /\ (forall tm, In tm (ph_time ph) -> 0 <= tm).
  Proof.
    intros Hne. destruct (base_max Hne) as [lo [hi [base [c1 [o1 [o2 [A [B [C [S1 [S2 [Ld [Lt M]]]]]]]]]]]]].
    assert (Fd : forall b, In b (tm_P t) \/ In b (tm_S t) -> List.length (tb_dist b) = List.length (tm_rayParams t) /\ forall x, In x (tb_dist b) -> 0 <= x)
      by (intros b Hb; destruct (Hft b Hb) as [F1 [_ [F3 _]]]; auto).
    assert (Ft : forall b, In b (tm_P t) \/ In b (tm_S t) -> List.length (tb_time b) = List.length (tm_rayParams t) /\ forall x, In x (tb_time b) -> 0 <= x)
      by (intros b Hb; destruct (Hft b Hb) as [_ [F2 [_ F4]]]; auto).
    assert (Sh : exists o, shadows t (ph_seq ph) lo (ph_min ph) (ph_max ph) isP zs base 0 (curve_of ph) o).
    { subst zs others. destruct isP; cbv iota in *.
      - apply no_zones in S2; [|assumption]. destruct S2 as [E _]. rewrite E. eauto.
      - apply no_zones in S1; [|assumption]. destruct S1 as [-> _]. eauto. }
    destruct Sh as [o Sh]. clear S1 S2.
    assert (Pt : forall p d tm, In (p, d, tm) (curve_of ph) -> 0 <= d <= ph_maxDist ph /\ 0 <= tm).
    { intros p d tm Hin. destruct C as [[L C]|[L C]].
      - destruct (shadows_pass t (ph_seq ph) lo (ph_min ph) (ph_max ph) isP zs base 0 (curve_of ph) o 0
                   (1 + fold_right Rmax 0 (map (fun z => dr_rayParam z) zs)) Sh) as [_ [_ I]].
        + eapply sampled_falling; [exact Dec| |exact C]. destruct A as [A _]. exact A.
        + eapply sampled_offset. exact C.
        + clear. clearbody zs. induction zs as [|y l IH]; intros z Hin; [destruct Hin|destruct Hin as [Hin|Hin]].
          * subst. cbn. assert (X := Rmax_l (dr_rayParam z) (fold_right Rmax 0 (map (fun z => dr_rayParam z) l))). lra.
          * specialize (IH z Hin). cbn. assert (X := Rmax_r (dr_rayParam y) (fold_right Rmax 0 (map (fun z => dr_rayParam z) l))). lra.
        + exact Hz.
        + destruct (I _ Hin) as [Hb|Hi].
          * pose proof (M _ _ _ Hb). apply In_nth_error in Hb. destruct Hb as [k Hk]. destruct C as [_ C]. destruct (C _ _ _ _ Hk) as [_ [C2 C3]].
            pose proof (total_pos t tb_dist Fd _ _ _ C2). pose proof (total_pos t tb_time Ft _ _ _ C3). lra.
          * destruct Hi as [z [i [d' [tm' [Iz [Rg [Ix [E [La Lb]]]]]]]]]. injection E as -> <- <-. rewrite Z.add_0_r in La, Lb.
            pose proof (above_pos t tb_dist Fd _ _ _ _ La). pose proof (above_pos t tb_time Ft _ _ _ _ Lb). split; [split; [assumption|]|assumption].
            pose proof (at_index_pos _ _ _ Ix) as Ik. set (k := pos (List.length (tm_rayParams t)) i) in *.
            assert (U : forall j, nth_error (tm_rayParams t) j = Some (dr_rayParam z) -> j = k).
            { intros j Hj. destruct (Nat.lt_trichotomy j k) as [Q|[Q|Q]]; [|exact Q|].
              - pose proof (nth_decreasing _ _ _ _ _ Dec Q Hj Ik). lra.
              - pose proof (nth_decreasing _ _ _ _ _ Dec Q Ik Hj). lra. }
            destruct A as [A0 [[ra [Ra Pa]] _]]. destruct B as [B0 [_ Mb]].
            assert (Kl : (Z.to_nat lo < k)%nat).
            { destruct (le_lt_dec k (Z.to_nat lo)) as [Q|Q]; [exfalso|exact Q]. destruct (Nat.eq_dec k (Z.to_nat lo)) as [Q1|Q1].
              - rewrite <- Q1 in Ra. assert (ra = dr_rayParam z) by congruence. lra.
              - pose proof (nth_decreasing _ k (Z.to_nat lo) _ _ Dec ltac:(lia) Ik Ra). lra. }
            assert (Kh : (k <= Z.to_nat hi)%nat).
            { destruct (le_lt_dec k (Z.to_nat hi)) as [Q|Q]; [exact Q|exfalso]. pose proof (Mb k _ Q Ik). lra. }
            destruct C as [Lb' C]. destruct (nth_error base (k - Z.to_nat lo)) as [[[p0 d0] t0]|] eqn:Eb;
              [|apply nth_error_None in Eb; lia].
            destruct (C _ _ _ _ Eb) as [_ [C2 _]]. replace (lo + Z.of_nat (k - Z.to_nat lo))%Z with (Z.of_nat k) in C2 by lia.
            pose proof (above_total t tb_dist Fd (dr_top z) i k (dr_rayParam z) _ _ _ Ix Ik U La C2).
            pose proof (M _ _ _ (nth_error_In _ _ Eb)). lra.
      - destruct C as [d0 [t0 [Eb [C2 C3]]]]. apply single_zones in Sh.
        + destruct Sh as [Sh _]. rewrite Sh in Hin. pose proof (M _ _ _ Hin). rewrite Eb in Hin.
          pose proof (total_pos t tb_dist Fd _ _ _ C2). pose proof (total_pos t tb_time Ft _ _ _ C3).
          destruct Hin as [E|[E|[]]]; injection E as <- <- <-; lra.
        + intros q e u Hq. rewrite Eb in Hq. destruct Hq as [E|[E|[]]]; injection E as <- <- <-; reflexivity. }
    assert (Nth : forall k, (k < List.length (ph_rayParams ph))%nat -> exists p d tm, nth_error (ph_dist ph) k = Some d /\ nth_error (ph_time ph) k = Some tm /\ In (p, d, tm) (curve_of ph)).
    { intros k Hk. destruct (nth_error (ph_rayParams ph) k) as [p|] eqn:Ep; [|apply nth_error_None in Ep; lia].
      destruct (nth_error (ph_dist ph) k) as [d|] eqn:Ed; [|apply nth_error_None in Ed; lia]. destruct (nth_error (ph_time ph) k) as [tm|] eqn:Et; [|apply nth_error_None in Et; lia].
      exists p, d, tm. split; [reflexivity|]. split; [reflexivity|]. unfold curve_of.
      apply (nth_error_In _ k). apply nth_error_combine. split; [apply nth_error_combine; split; assumption|assumption]. }
    split; intros x Hx; apply In_nth_error in Hx; destruct Hx as [k Hk].
    - destruct (Nth k) as [p [d [tm [Ed [_ Ic]]]]]; [rewrite <- Ld; apply nth_error_Some; congruence|]. assert (d = x) by congruence. subst. apply (Pt _ _ _ Ic).
    - destruct (Nth k) as [p [d [tm [_ [Et Ic]]]]]; [rewrite <- Lt; apply nth_error_Some; congruence|]. assert (tm = x) by congruence. subst. apply (Pt _ _ _ Ic).
  Qed.

  (** So the arrivals reported are exactly the points where the curve passes the distance asked for. *)
  Theorem C78_exact : forall fuel deg l, ph_rayParams ph <> [] -> ph_calcTime fuel ph deg = Ok l -> forall i s,
    (exists a, In a l /\ ar_dist a = s /\ ar_index a = Z.of_nat i) <->
    (cos s = cos (deg * PI / 180) /\ TimeSpec.passes (ph_dist ph) (ph_rayParams ph) i s).
  Proof. intros fuel deg l Hne Hc. apply (C07_exact fuel ph deg l Hc). apply (C78_reach Hne). Qed.
End Phase.
Print Assumptions C78_reach.
Print Assumptions C78_exact.

(** ** Hypotheses met: the model of C33_ex, whose P zone adds a point *)
Example C78_ex : let t := x_t [mkDR 1 2 3] [] in exists ph, newPhase x_show [] t 0 "PS" = Ok ph /\
  ph_dist ph = [4; 8; 20; 40; 72] /\ ph_maxDist ph = 72 /\ forth t /\ (exists z, In z (sm_hiP (tm_sMod t)) /\ ph_min ph < dr_rayParam z < ph_max ph) /\
  (forall d, In d (ph_dist ph) -> 0 <= d <= 72).
Proof.
  intros t. destruct C33_ex as [ph [Hp [Er [Ed [_ [Emin [Emax [_ [Hr [Nd [Nh [Dec [Zf _]]]]]]]]]]]]]. exists ph. split; [exact Hp|]. split; [exact Ed|].
  assert (Fo : forth t).
  { intros b [Hb|Hb]; cbn in Hb; repeat (destruct Hb as [<-|Hb]; [split; [reflexivity|]; split; [reflexivity|]; split; intros x Hx; cbn in Hx; repeat (destruct Hx as [<-|Hx]; [lra|]); destruct Hx|]); destruct Hb. }
  assert (Mx : ph_maxDist ph = 72).
  { eassert (Hq : newPhase x_show [] (x_t [mkDR 1 2 3] []) 0 "PS" = Ok _) by run. rewrite Hq in Hp. injection Hp as <-. cbn.
    repeat first [rewrite (proj2 (Rltb_true _ _)) by lra | rewrite (proj2 (Rltb_false _ _)) by lra]. reflexivity. }
  split; [exact Mx|]. split; [exact Fo|]. split; [exists (mkDR 1 2 3); split; [left; reflexivity|rewrite Emin, Emax; cbn; lra]|].
  rewrite <- Mx. apply (C78_reach x_show [] t 0 "PS" ph Hp eq_refl Hr Nd Nh Fo Dec true); [exact Zf|intros z []|rewrite Er; discriminate].
Qed.

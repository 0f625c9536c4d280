(** Property C79: the arrivals of diffracted and head waves. *)
From Coq Require Import ZArith Bool List String Reals Lia Lra Psatz.
From Verif Require Import Base Num PyStr VelocityModel VelSpec SlownessLayer SlownessModel SlowSpec SlowProofs SlowAddProofs SlowBuildProofs SlowProps SlowRealProofs SampleProofs StackSpec StackProofs TauModel SeismicPhase
  TauSpec TauProofs TauBuildProofs TauProps CurveSpec CurveProofs CurveMainProofs CurveProps TimeSpec TimeProps PathSpec PathProofs PathWholeProofs PathLegProofs
  ErrProps AngleSpec AngleProofs AngleProps NameSpec NameProofs CalcTimeProofs RealRun PierceProps BuildRun TwoRun SourceProps OnceProps ReachSpec ReachProps GrazeSpec.
Import ListNotations.
Local Open Scope string_scope.
Local Open Scope list_scope.
Local Open Scope R_scope.

(** a curve of two points with the same ray parameter *)
Lemma two_points : forall fuel (ph : phase R) deg l p d tm most slow, ph_calcTime fuel ph deg = Ok l ->
  ph_rayParams ph = [p; p] -> ph_dist ph = [d; d + most] -> ph_time ph = [tm; tm + slow * most] -> ph_maxDist ph = d + most -> 0 <= d -> 0 < most ->
  along l deg d tm most p slow.
Proof.
  intros fuel ph deg l p d tm most slow Hc Er Ed Et Mx D0 M0.
  assert (Hd : forall x, In x (ph_dist ph) -> 0 <= x <= ph_maxDist ph) by (rewrite Ed, Mx; intros x [<-|[<-|[]]]; lra).
  pose proof (C07_exact fuel ph deg l Hc Hd) as Ex.
  assert (Ix : forall a, In a l -> ar_index a = Z.of_nat 0).
  { intros a Ha. destruct (C07_no_arrival_invented fuel ph deg l a Hc Ha) as [i [Ei [d0 [d1 [p0 [p1 [_ [H1 _]]]]]]]].
    rewrite Ed in H1. destruct i as [|i]; [exact Ei|]. destruct i; discriminate H1. }
  split; [|split].
  - intros s. split.
    + intros [a [Ha Es]]. destruct (proj1 (Ex 0%nat s)) as [Cs [d0 [d1 [p0 [p1 [H0 [H1 [_ [_ [B _]]]]]]]]]]; [exists a; split; [exact Ha|split; [exact Es|exact (Ix a Ha)]]|].
      rewrite Ed in H0, H1. injection H0 as <-. injection H1 as <-. unfold TimeSpec.between in B. split; [lra|exact Cs].
    + intros [B Cs]. destruct (proj2 (Ex 0%nat s)) as [a [Ha [Es _]]]; [|exists a; auto]. split; [exact Cs|].
      exists d, (d + most), p, p. rewrite Ed, Er. do 4 (split; [reflexivity|]). split; [unfold TimeSpec.between; lra|]. split; intros _; cbn; [reflexivity|lia].
  - intros a Ha. destruct (C08_interpolation fuel ph deg l a Hc Ha) as [i [d0 [d1 [t0 [t1 [p0 [p1 [Ei [H0 [H1 [T0 [T1 [P0 [P1 [[_ Lt] [[_ Lp] _]]]]]]]]]]]]]]]].
    rewrite (Ix a Ha) in Ei. assert (i = 0%nat) by lia. subst i.
    rewrite Ed in H0, H1. rewrite Et in T0, T1. rewrite Er in P0, P1. cbn in H0, H1, T0, T1, P0, P1.
    injection H0 as <-. injection H1 as <-. injection T0 as <-. injection T1 as <-. injection P0 as <-. injection P1 as <-. split.
    + apply (Rmult_eq_reg_r most); [|lra]. lra.
    + apply (Rmult_eq_reg_r most); [|lra]. lra.
  - intros C1. pose proof (C07_reported_once fuel ph deg l Hc C1) as N. clear - N Ix.
    induction l as [|a l IH]; [constructor|]. cbn [map] in N |- *. inversion N as [|x y Hx Hy]; subst. constructor.
    + intros I. apply Hx. apply in_map_iff in I. destruct I as [b [Eb Ib]]. apply in_map_iff. exists b. split; [|exact Ib].
      rewrite (Ix b (or_intror Ib)), (Ix a (or_introl eq_refl)), Eb. reflexivity.
    + apply IH; [|exact Hy]. intros b Hb. apply Ix. right. exact Hb.
Qed.

Section Phase.
  Variables (show : R -> string) (w : list R) (t : tmodel R) (tid : Z) (name : string) (ph : phase R).
  Hypothesis H : newPhase show w t tid name = Ok ph.
  Hypothesis Hne : ph_rayParams ph <> [].
  Hypothesis Hlen : List.length (tm_S t) = List.length (tm_P t).
  Hypothesis Hr : exists r, In r (tm_rayParams t) /\ ph_max ph <= r.
  Hypothesis Hft : forth t.

  Lemma two_max : forall d most, ph_min ph = ph_max ph -> 0 < most -> ph_dist ph = [d; d + most] -> ph_minDist ph = d /\ ph_maxDist ph = d + most.
  Proof.
    intros d most Em M0 Ed. destruct (C76_extent show w t tid name ph H Hne) as [I1 [I2 I3]]; [intros z _; lra|].
    rewrite Ed in I1, I2, I3. pose proof (I3 d (or_introl eq_refl)). pose proof (I3 (d + most) (or_intror (or_introl eq_refl))).
    destruct I1 as [I1|[I1|[]]], I2 as [I2|[I2|[]]]; lra.
  Qed.
  Lemma graze_pos : forall lo seq d, legs_total t tb_dist lo seq d -> 0 <= d.
  Proof. intros lo seq d. apply total_pos. intros b Hb. destruct (Hft b Hb) as [F1 [_ [F3 _]]]; auto. Qed.

  (** A diffracted wave arrives at the distances from that of the grazing ray to 60 degrees farther, later by ray parameter times angle. *)
  Theorem C79_diffracted : diffracted name -> exists d tm, grazing t (ph_seq ph) (ph_max ph) d tm /\
    ph_minDist ph = d /\ ph_maxDist ph = d + PI / 3 /\
    forall fuel deg l, ph_calcTime fuel ph deg = Ok l -> along l deg d tm (PI / 3) (ph_max ph) (ph_max ph).
  Proof.
    intros Hd. destruct (C34_diffracted show w t tid name ph H Hne Hlen Hr Hd) as [lo [d [tm [Em [_ [Hl [Td [Tt [Er [Ed Et]]]]]]]]]].
    replace (60 * PI / 180) with (PI / 3) in Ed, Et by field. pose proof PI_RGT_0 as HP.
    destruct (two_max d (PI / 3) Em ltac:(lra) Ed) as [Mn Mx]. exists d, tm. split; [exists lo; auto|]. split; [exact Mn|]. split; [exact Mx|].
    intros fuel deg l Hc. apply (two_points fuel ph deg l _ d tm _ _ Hc Er Ed Et Mx); [exact (graze_pos _ _ _ Td)|lra].
  Qed.
  (** A head wave does so up to 20 degrees, but its time grows by the angle itself, whatever its ray parameter. *)
  Theorem C79_head_wave : ~ diffracted name -> head_wave name -> exists d tm, grazing t (ph_seq ph) (ph_max ph) d tm /\
    ph_minDist ph = d /\ ph_maxDist ph = d + PI / 9 /\
    forall fuel deg l, ph_calcTime fuel ph deg = Ok l -> along l deg d tm (PI / 9) (ph_max ph) 1.
  Proof.
    intros Nd Hd. destruct (C34_head_wave_refuted show w t tid name ph H Hne Hlen Hr Nd Hd) as [lo [d [tm [Em [_ [Hl [Td [Tt [Er [Ed [Et _]]]]]]]]]]].
    replace (20 * PI / 180) with (PI / 9) in Ed, Et by field. pose proof PI_RGT_0 as HP.
    destruct (two_max d (PI / 9) Em ltac:(lra) Ed) as [Mn Mx]. exists d, tm. split; [exists lo; auto|]. split; [exact Mn|]. split; [exact Mx|].
    intros fuel deg l Hc. apply (two_points fuel ph deg l _ d tm _ _ Hc Er Ed); [rewrite Et; f_equal; f_equal; ring|exact Mx|exact (graze_pos _ _ _ Td)|lra].
  Qed.
End Phase.
Print Assumptions C79_diffracted.
Print Assumptions C79_head_wave.

(** ** Hypotheses met: Pdiff at 150 degrees in the planet of C73_ex *)
Example C79_ex : forall s, s = 2 * sin (PI / 3) -> exists ph fuel l a,
  newPhase x_show [] (e_t s) 0 "Pdiff" = Ok ph /\ ph_calcTime fuel ph 150 = Ok l /\ In a l /\ ar_dist a = 5 * PI / 6 /\ ar_time a = 2 * s + PI / 6.
Proof.
  intros s Es. pose proof PI_RGT_0 as HP.
  eassert (Hp : newPhase x_show [] (e_t s) 0 "Pdiff" = Ok _) by run.
  match type of Hp with _ = Ok ?p => set (ph := p) in * end. exists ph.
  destruct e_vlayers as [Hv Ht].
  assert (Run : exists fuel l, ph_calcTime fuel ph 150 = Ok l).
  { edestruct (C37_defined ph 150) as [fuel Hf];
      [exact Hv|exact Ht| | |reflexivity|reflexivity| |reflexivity|reflexivity| |reflexivity|exact e_speed|exact e_speed| |].
    { cbn. lra. }
    { intros Hk; apply is_kmps_iff in Hk; discriminate. }
    { intros i Hi. cbn in Hi. assert (i = 0)%nat by lia. subst i. cbn. intros E. injection E as E. lra. }
    { exact (eq_refl : ph_legs ph = [] ++ ["Pdiff"; "END"]). }
    { cbn. intros p [<-|[<-|[]]]; split; apply Rabs_le; lra. }
    destruct (Hf fuel ltac:(lia)) as [l Hl]. eauto. }
  destruct Run as [fuel [l Hl]].
  destruct (C79_diffracted x_show [] (e_t s) 0 "Pdiff" ph Hp ltac:(discriminate) eq_refl ltac:(exists 2; split; [left; reflexivity|cbn; lra])
    (C78_forth _ (e_rays s Es)) ltac:(right; exists "", ""; reflexivity)) as [d [tm [[lo [Hlo [Td Tt]]] [_ [Mx Al]]]]].
  assert (Ed : d = 2 * (PI / 3)).
  { cbn in Mx. rewrite (proj2 (Rltb_true _ _)) in Mx by lra. lra. }
  assert (Et : tm = 2 * s).
  { destruct Hlo as [L0 [[r [Lr Pr]] Lm]]. cbn in Pr.
    assert (lo = 1)%Z.
    { cbn in Lr. destruct (Z.to_nat lo) as [|[|[|k]]] eqn:K; [exfalso; specialize (Lm 1%nat 1 ltac:(lia) eq_refl); cbn in Lm; lra|lia|injection Lr as <-; lra|destruct k; discriminate]. }
    subst lo. inversion Tt as [|g1 l1 b1 x1 y1 B1 X1 T1]; subst. inversion T1 as [|g2 l2 b2 x2 y2 B2 X2 T2]; subst. inversion T2; subst.
    apply at_index_nonneg in B1; [|cbn; lia]. apply at_index_nonneg in B2; [|cbn; lia]. cbn in B1, B2. injection B1 as <-. injection B2 as <-.
    apply at_index_nonneg in X1; [|lia]. apply at_index_nonneg in X2; [|lia]. cbn in X1, X2. injection X1 as <-. injection X2 as <-. lra. }
  destruct (Al fuel 150 l Hl) as [Ex [Va _]].
  destruct (proj2 (Ex (5 * PI / 6))) as [a [Ha Ea]]; [split; [lra|f_equal; field]|].
  exists fuel, l, a. split; [exact Hp|]. split; [exact Hl|]. split; [exact Ha|]. split; [exact Ea|].
  destruct (Va a Ha) as [_ ->]. rewrite Ea, Ed, Et. cbn. field.
Qed.
(** Pn in the model of C34_ex_head *)
Example C79_ex_head : exists ph, newPhase x_show [] (x_t [] []) 0 "Pn" = Ok ph /\ ph_rayParams ph = [3; 3] /\ ph_minDist ph = 10 /\ ph_maxDist ph = 10 + PI / 9 /\ forth (x_t [] []).
Proof.
  destruct C34_ex_head as [ph [Hp [Hh [Nd [_ [Er [Ed _]]]]]]]. exists ph. split; [exact Hp|]. split; [exact Er|].
  assert (Fo : forth (x_t [] [])).
  { intros b [Hb|Hb]; cbn in Hb; repeat (destruct Hb as [<-|Hb]; [split; [reflexivity|]; split; [reflexivity|]; split; intros x Hx; cbn in Hx; repeat (destruct Hx as [<-|Hx]; [lra|]); destruct Hx|]); destruct Hb. }
  assert (Hr : exists r, In r (tm_rayParams (x_t [] [])) /\ ph_max ph <= r).
  { eassert (Hq : newPhase x_show [] (x_t [] []) 0 "Pn" = Ok _) by run. rewrite Hq in Hp. injection Hp as <-. exists 3. split; [right; left; reflexivity|cbn; lra]. }
  destruct (C79_head_wave x_show [] (x_t [] []) 0 "Pn" ph Hp ltac:(rewrite Er; discriminate) eq_refl Hr Fo Nd Hh) as [d [tm [_ [Mn [Mx _]]]]].
  destruct (C76_extent x_show [] (x_t [] []) 0 "Pn" ph Hp ltac:(rewrite Er; discriminate)) as [I1 [I2 I3]]; [intros z [[]|[]]|].
  rewrite Ed in I3. pose proof PI_RGT_0. pose proof (I3 10 (or_introl eq_refl)). pose proof (I3 (10 + 20 * PI / 180) (or_intror (or_introl eq_refl))).
  rewrite Ed in I1. assert (ph_minDist ph = 10) by (destruct I1 as [I1|[I1|[]]]; lra). split; [assumption|]. split; [lra|exact Fo].
Qed.

(** Property C76: with one velocity there are no triplications; a distance has one arrival of a phase or none. *)
From Coq Require Import ZArith Bool List String Reals Lia Lra Psatz.
From Verif Require Import Base Num PyStr VelocityModel VelSpec SlownessLayer SlownessModel SlowSpec SlowProofs SlowAddProofs SlowBuildProofs SlowProps SlowRealProofs SampleProofs StackSpec StackProofs TauModel SeismicPhase
  TauSpec TauProofs TauBuildProofs TauProps CurveSpec CurveProofs CurveMainProofs CurveProps TimeSpec TimeProps PathSpec PathProofs PathWholeProofs PathLegProofs
  CritSpec CritProofs CritProps MonoSpec MonoProofs MonoProps LimitSpec LimitProofs LimitProps
  BullenSpec BullenProofs ShellProps ErrSpec ErrProofs ErrLegProofs ErrProps AngleSpec AngleProofs AngleProps NameSpec NameProofs CalcTimeProofs RealRun PierceProps BuildRun TwoRun SourceProps ChordSpec ChordProofs SourceProofs ChordProps EchoSpec EchoProofs EchoProps OnceSpec OnceProofs.
Import ListNotations.
Local Open Scope string_scope.
Local Open Scope list_scope.
Local Open Scope R_scope.

(** A phase whose distances only grow or only shrink, and stay within half the circle, has one arrival at each distance that it covers,
    and none at the others; distance 0 is left out. *)
Theorem C76_once : forall fuel (ph : phase R) deg l x, ph_calcTime fuel ph deg = Ok l ->
  List.length (ph_rayParams ph) = List.length (ph_dist ph) -> (2 <= List.length (ph_dist ph))%nat -> shrinks (ph_rayParams ph) ->
  grows (ph_dist ph) \/ shrinks (ph_dist ph) -> (forall d, In d (ph_dist ph) -> 0 <= d <= PI /\ d <= ph_maxDist ph) ->
  folded deg x -> x <> 0 ->
  (spanned (ph_dist ph) (rad x) /\ exists a, l = [a] /\ ar_dist a = rad x) \/ (~ spanned (ph_dist ph) (rad x) /\ l = []).
Proof. exact once. Qed.
Print Assumptions C76_once.

Lemma fold_min_max : forall (l : list R) a,
  (In (fold_left py_max l a) (a :: l) /\ forall d, In d (a :: l) -> d <= fold_left py_max l a) /\
  (In (fold_left py_min l a) (a :: l) /\ forall d, In d (a :: l) -> fold_left py_min l a <= d).
Proof.
  induction l as [|b l IH]; intros a; cbn [fold_left].
  - split; (split; [left; reflexivity|]); intros d [<-|[]]; lra.
  - destruct (IH (py_max a b)) as [[A1 A2] _]. destruct (IH (py_min a b)) as [_ [B1 B2]]. split; split.
    + destruct A1 as [E|A1]; [|right; right; exact A1]. rewrite <- E. unfold py_max. destruct (n_ltb a b); [right; left; reflexivity|left; reflexivity].
    + assert (M : a <= py_max a b /\ b <= py_max a b).
      { unfold py_max. destruct (n_ltb a b) eqn:L; [apply Rltb_lt in L; lra|apply Rltb_ge in L; lra]. }
      pose proof (A2 _ (or_introl eq_refl)). intros d [<-|[<-|Hd]]; [lra|lra|apply A2; right; exact Hd].
    + destruct B1 as [E|B1]; [|right; right; exact B1]. rewrite <- E. unfold py_min.
      match goal with |- In (if ?c then _ else _) _ => destruct c end; first [left; reflexivity|right; left; reflexivity].
    + assert (M : py_min a b <= a /\ py_min a b <= b).
      { unfold py_min. match goal with |- context [if ?c then _ else _] => destruct c eqn:L end; [apply Rltb_lt in L; lra|apply Rltb_ge in L; lra]. }
      pose proof (B2 _ (or_introl eq_refl)). intros d [<-|[<-|Hd]]; [lra|lra|apply B2; right; exact Hd].
Qed.

(** The least and the greatest distance that a phase records are those of its samples, if there is no high slowness zone in its range. *)
Theorem C76_extent : forall show ws t tid name (ph : phase R), newPhase show ws t tid name = Ok ph -> ph_rayParams ph <> [] ->
  (forall z, In z (sm_hiP (tm_sMod t)) \/ In z (sm_hiS (tm_sMod t)) -> ~ ph_min ph < dr_rayParam z < ph_max ph) ->
  In (ph_minDist ph) (ph_dist ph) /\ In (ph_maxDist ph) (ph_dist ph) /\
  forall d, In d (ph_dist ph) -> ph_minDist ph <= d <= ph_maxDist ph.
Proof.
  intros show ws t tid name ph H Hne Hz.
  destruct (newPhase_parts show ws t tid name ph H Hne) as [legs [s [nP [nS [dist0 [time0 [dist [time [st1 [st P]]]]]]]]]]. cbv zeta in P.
  destruct P as [_ [_ [_ [_ [_ [_ [_ [_ [_ [F1 [F2 [Mn [Mx [_ [_ [Em [EM [_ [_ [_ [_ [_ [Ed _]]]]]]]]]]]]]]]]]]]]]]].
  assert (K : forall lo isP l zs st st', (forall z, In z zs -> ~ ph_min ph < dr_rayParam z < ph_max ph) ->
    foldM (shadow_step t s lo isP l) zs st = Ok st' -> st' = st).
  { intros lo isP l. induction zs as [|z zs IH]; intros a a' Hn Hf; cbn [foldM] in Hf; [congruence|].
    assert (Es : shadow_step t s lo isP l a z = Ok a).
    { unfold shadow_step. match goal with |- (if ?c then _ else _) = _ => destruct c eqn:E end; [|reflexivity].
      exfalso. apply andb_true_iff in E. destruct E as [E1 E2]. apply Rltb_lt in E1. apply Rltb_lt in E2.
      apply (Hn z (or_introl eq_refl)). rewrite Em, EM. lra. }
    rewrite Es in Hf. cbn [bind] in Hf. apply IH; [|exact Hf]. intros y Hy. apply Hn. right. exact Hy. }
  apply K in F1; [|intros z Iz; apply Hz; left; exact Iz]. apply K in F2; [|intros z Iz; apply Hz; right; exact Iz]. subst st st1. cbn [sh_dist] in Ed. rewrite Ed.
  destruct dist as [|a l]; [discriminate Mn|]. cbn in Mn, Mx. injection Mn as <-. injection Mx as <-.
  destruct (fold_min_max l a) as [[A1 A2] [B1 B2]]. split; [exact B1|]. split; [exact A1|]. intros d Hd. split; auto.
Qed.
Print Assumptions C76_extent.

Section Phase.
  Variables (show : R -> string) (ws : list R) (t : tmodel R) (tid : Z) (name : string) (ph : phase R) (w : bool) (v : R) (n : nat) (b0 b : tbranch R).
  Hypothesis H : newPhase show ws t tid name = Ok ph.
  Hypothesis Hlen : List.length (tm_S t) = List.length (tm_P t).
  Hypothesis Hr : exists r, In r (tm_rayParams t) /\ ph_max ph <= r.
  Hypothesis Nd : ~ diffracted name.
  Hypothesis Nh : ~ head_wave name.
  Hypothesis Hz : forall z, In z (sm_hiP (tm_sMod t)) \/ In z (sm_hiS (tm_sMod t)) -> ~ ph_min ph < dr_rayParam z < ph_max ph.
  Hypothesis Hrdy : rays_ready t.
  Hypothesis Hun : uniform (tm_sMod t) w v.
  Hypothesis Hus : usable (tm_sMod t) w.
  Hypothesis Hpr : proper t w v.
  Hypothesis Hme : b_meet (TauSpec.branches t w).
  Hypothesis H0 : nth_error (TauSpec.branches t w) 0 = Some b0.
  Hypothesis T0 : tb_top b0 = 0.
  Hypothesis Hb : nth_error (TauSpec.branches t w) n = Some b.
  Hypothesis Hseq : down_up w (S n) (ph_seq ph).
  Hypothesis Dec : decreasing (tm_rayParams t).
  (** the phase has rays of different ray parameters *)
  Hypothesis Htwo : exists p q, In p (ph_rayParams ph) /\ In q (ph_rayParams ph) /\ p <> q.
  Let r := sm_radius (tm_sMod t).

  Lemma samples : List.length (ph_rayParams ph) = List.length (ph_dist ph) /\ (2 <= List.length (ph_dist ph))%nat /\ shrinks (ph_rayParams ph) /\
    forall k d, nth_error (ph_dist ph) k = Some d -> exists p, nth_error (ph_rayParams ph) k = Some p /\
      d = 2 * (line_angle (p * v) r - line_angle (p * v) (r - tb_bot b)).
  Proof.
    destruct Htwo as [p [q [Hp [Hq Npq]]]].
    assert (Hne : ph_rayParams ph <> []) by (intros E; rewrite E in Hq; contradiction).
    assert (Lc : List.length (ph_dist ph) = List.length (ph_rayParams ph) /\ List.length (ph_time ph) = List.length (ph_rayParams ph)).
    { destruct (C33_sum_of_legs show ws t tid name ph H Hne Hlen Hr Nd Nh) as [? [? [? [? [? [? [_ [_ [_ [_ [_ [_ [_ A]]]]]]]]]]]]]. exact A. }
    destruct Lc as [Ld Lt].
    assert (Pt : forall k, (k < List.length (ph_rayParams ph))%nat -> exists p d tm, nth_error (ph_rayParams ph) k = Some p /\
      nth_error (ph_dist ph) k = Some d /\ nth_error (curve_of ph) k = Some (p, d, tm)).
    { intros k Lk. destruct (nth_error (ph_rayParams ph) k) as [pk|] eqn:Ep; [|apply nth_error_None in Ep; lia].
      destruct (nth_error (ph_dist ph) k) as [dk|] eqn:Ed; [|apply nth_error_None in Ed; lia].
      destruct (nth_error (ph_time ph) k) as [tk|] eqn:Et; [|apply nth_error_None in Et; lia].
      exists pk, dk, tk. split; [reflexivity|]. split; [reflexivity|]. apply nth_error_combine; split; [apply nth_error_combine; split|]; assumption. }
    assert (Two : (2 <= List.length (ph_dist ph))%nat).
    { apply In_nth_error in Hp, Hq. destruct Hp as [i Hi], Hq as [j Hj].
      assert (i <> j) by (intros ->; congruence). assert (i < List.length (ph_rayParams ph))%nat by (apply nth_error_Some; congruence).
      assert (j < List.length (ph_rayParams ph))%nat by (apply nth_error_Some; congruence). lia. }
    split; [lia|]. split; [exact Two|]. split.
    - intros i j x y Hij Hx Hy.
      destruct (Pt i) as [pi [di [ti [Ei [_ Ci]]]]]; [apply nth_error_Some; congruence|]. destruct (Pt j) as [pj [dj [tj [Ej [_ Cj]]]]]; [apply nth_error_Some; congruence|].
      destruct (C33_sum_of_legs_no_zone show ws t tid name ph H Hne Hlen Hr Nd Nh Hz) as [lo [hi [[L0 _] [_ [[_ [_ C]]|[_ [d' [tm' [Ec _]]]]]]]]].
      + destruct (C _ _ _ _ Ci) as [Ai _]. destruct (C _ _ _ _ Cj) as [Aj _].
        replace (lo + Z.of_nat i)%Z with (Z.of_nat (Z.to_nat (lo + Z.of_nat i))) in Ai by lia. replace (lo + Z.of_nat j)%Z with (Z.of_nat (Z.to_nat (lo + Z.of_nat j))) in Aj by lia.
        apply at_index_nat in Ai, Aj. assert (pi = x) by congruence. assert (pj = y) by congruence. subst pi pj.
        apply (nth_decreasing _ (Z.to_nat (lo + Z.of_nat i)) (Z.to_nat (lo + Z.of_nat j)) _ _ Dec); [lia|exact Ai|exact Aj].
      + exfalso. apply Npq.
        assert (A : forall z, In z (ph_rayParams ph) -> z = ph_min ph).
        { intros z Iz. apply In_nth_error in Iz. destruct Iz as [k Hk]. destruct (Pt k) as [pk [dk [tk [Ek [_ Ck]]]]]; [apply nth_error_Some; congruence|].
          assert (pk = z) by congruence. subst pk. rewrite Ec in Ck. destruct k as [|[|k]]; [injection Ck as <- _ _; reflexivity|injection Ck as <- _ _; reflexivity|destruct k; discriminate Ck]. }
        rewrite (A p Hp), (A q Hq). reflexivity.
    - intros k d Hk. destruct (Pt k) as [pk [dk [tk [Ek [Dk Ck]]]]]; [rewrite <- Ld; apply nth_error_Some; congruence|].
      assert (dk = d) by congruence. subst dk. exists pk. split; [exact Ek|].
      apply (C73_phase show ws t tid name ph w v n b0 b H Hlen Hr Nd Nh Hz Hrdy Hun Hus Hpr Hme H0 T0 Hb Hseq k pk d tk Ck).
      destruct (Req_dec p pk) as [E|E]; [exists q; split; [exact Hq|congruence]|exists p; split; [exact Hp|exact E]].
  Qed.

  (** If the rays turn above the bottom of branch [n], steeper rays go farther. *)
  Theorem C76_direct : (forall p, In p (ph_rayParams ph) -> 0 <= p /\ r - tb_bot b <= p * v <= r) -> 0 < r ->
    grows (ph_dist ph) /\ (forall d, In d (ph_dist ph) -> 0 <= d <= PI).
  Proof.
    intros Hp R0. destruct samples as [Ln [_ [Sp Va]]]. pose proof (proj1 Hun) as Hv.
    assert (Q : forall k d, nth_error (ph_dist ph) k = Some d -> exists p, nth_error (ph_rayParams ph) k = Some p /\ 0 <= p * v <= r /\ d = 2 * line_angle (p * v) r).
    { intros k d Hk. destruct (Va k d Hk) as [p [Ep Ed]]. destruct (Hp p (nth_error_In _ _ Ep)) as [P0 P1].
      exists p. split; [exact Ep|]. split; [split; [apply Rmult_le_pos; lra|lra]|]. rewrite (proj1 (angle_out (p * v) (r - tb_bot b) ltac:(lra))) in Ed. lra. }
    split.
    - intros i j x y Hij Hx Hy. destruct (Q _ _ Hx) as [p [Ep [Bp ->]]]. destruct (Q _ _ Hy) as [q [Eq [Bq ->]]].
      pose proof (Sp i j p q Hij Ep Eq). pose proof (angle_mono (q * v) (p * v) r ltac:(split; [lra|apply Rmult_lt_compat_r; lra]) ltac:(lra) R0). lra.
    - intros d Id. apply In_nth_error in Id. destruct Id as [k Hk]. destruct (Q _ _ Hk) as [p [_ [Bp ->]]].
      pose proof (angle_straight (p * v) r Bp R0). lra.
  Qed.
  (** If they are all reflected there, steeper rays come back nearer. *)
  Theorem C76_reflected : (forall p, In p (ph_rayParams ph) -> 0 <= p /\ p * v <= r - tb_bot b) -> 0 < r - tb_bot b -> 0 < tb_bot b ->
    shrinks (ph_dist ph) /\ (forall d, In d (ph_dist ph) -> 0 <= d <= PI).
  Proof.
    intros Hp R0 B0. destruct samples as [Ln [_ [Sp Va]]]. pose proof (proj1 Hun) as Hv.
    assert (Q : forall k d, nth_error (ph_dist ph) k = Some d -> exists p, nth_error (ph_rayParams ph) k = Some p /\ 0 <= p * v <= r - tb_bot b /\
      d = 2 * (line_angle (p * v) r - line_angle (p * v) (r - tb_bot b))).
    { intros k d Hk. destruct (Va k d Hk) as [p [Ep Ed]]. destruct (Hp p (nth_error_In _ _ Ep)) as [P0 P1].
      exists p. split; [exact Ep|]. split; [split; [apply Rmult_le_pos; lra|lra]|exact Ed]. }
    split.
    - intros i j x y Hij Hx Hy. destruct (Q _ _ Hx) as [p [Ep [Bp ->]]]. destruct (Q _ _ Hy) as [q [Eq [Bq ->]]].
      pose proof (Sp i j p q Hij Ep Eq).
      pose proof (echo_mono (q * v) (p * v) (r - tb_bot b) r ltac:(split; [lra|apply Rmult_lt_compat_r; lra]) ltac:(lra) R0 ltac:(lra)). lra.
    - intros d Id. apply In_nth_error in Id. destruct Id as [k Hk]. destruct (Q _ _ Hk) as [p [_ [Bp ->]]].
      pose proof (echo_ok (p * v) (r - tb_bot b) r Bp R0 ltac:(lra)) as E. cbv zeta in E. lra.
  Qed.
  (** So both kinds have one arrival at each distance they cover and no other arrivals. *)
  Theorem C76_arrivals : forall fuel deg l x,
    (forall p, In p (ph_rayParams ph) -> 0 <= p) -> 0 < r - tb_bot b \/ 0 < r /\ tb_bot b = r -> 0 < tb_bot b ->
    (forall p, In p (ph_rayParams ph) -> r - tb_bot b <= p * v <= r) \/ (forall p, In p (ph_rayParams ph) -> p * v <= r - tb_bot b) ->
    ph_calcTime fuel ph deg = Ok l -> folded deg x -> x <> 0 ->
    (ph_minDist ph <= rad x <= ph_maxDist ph /\ exists a, l = [a] /\ ar_dist a = rad x) \/
    (~ ph_minDist ph <= rad x <= ph_maxDist ph /\ l = []).
  Proof.
    intros fuel deg l x Hp R0 B0 Hk Hc Hx X0. destruct samples as [Ln [L2 [Sp _]]]. pose proof (proj1 Hun) as Hv.
    assert (Hne : ph_rayParams ph <> []) by (intros E; rewrite E in Ln; cbn in Ln; lia).
    destruct (C76_extent show ws t tid name ph H Hne Hz) as [M1 [M2 M3]].
    assert (G : (grows (ph_dist ph) \/ shrinks (ph_dist ph)) /\ (forall d, In d (ph_dist ph) -> 0 <= d <= PI)).
    { destruct Hk as [Hk|Hk].
      - destruct C76_direct as [A B]; [intros p Ip; split; [exact (Hp p Ip)|exact (Hk p Ip)]|lra|]. auto.
      - destruct R0 as [R0|[R0 E]].
        + destruct C76_reflected as [A B]; [intros p Ip; split; [exact (Hp p Ip)|exact (Hk p Ip)]|exact R0|exact B0|]. auto.
        + exfalso. destruct Htwo as [p [q [Ip [Iq N]]]]. apply N. rewrite E in Hk.
          pose proof (Hp p Ip). pose proof (Hp q Iq). pose proof (Hk p Ip). pose proof (Hk q Iq). assert (p = 0) by nra. assert (q = 0) by nra. congruence. }
    destruct G as [G D].
    assert (Eq : spanned (ph_dist ph) (rad x) <-> ph_minDist ph <= rad x <= ph_maxDist ph).
    { split; [|intros B; exists (ph_minDist ph), (ph_maxDist ph); auto].
      intros [d [d' [Id [Id' B]]]]. pose proof (M3 d Id). pose proof (M3 d' Id'). lra. }
    rewrite <- Eq. apply (C76_once fuel ph deg l x Hc Ln L2 Sp G); [|exact Hx|exact X0].
    intros d Id. split; [exact (D d Id)|exact (proj2 (M3 d Id))].
  Qed.
End Phase.
Print Assumptions C76_direct.
Print Assumptions C76_reflected.
Print Assumptions C76_arrivals.

(** ** Hypotheses met: P at 60 and 150 degrees and PcP at 60 degrees in the planet of C73_ex *)
Lemma folded_self : forall x, 0 <= x <= 180 -> folded x x.
Proof. intros x Hx. split; [exact Hx|reflexivity]. Qed.
Example C76_ex : forall s, s = 2 * sin (PI / 3) -> exists ph,
  newPhase x_show [] (e_t s) 0 "P" = Ok ph /\ ph_minDist ph = 0 /\ ph_maxDist ph = 2 * (PI / 3) /\ grows (ph_dist ph) /\
  (exists fuel l a, ph_calcTime fuel ph 60 = Ok l /\ l = [a] /\ ar_dist a = PI / 3) /\
  (exists fuel, ph_calcTime fuel ph 150 = Ok []).
Proof.
  intros s Es. pose proof PI_RGT_0 as HP. destruct (C73_ex s Es) as [_ [_ [_ [_ [_ [_ [_ [_ [_ [Un [Us [Pr [Me _]]]]]]]]]]]]].
  eassert (Hp : newPhase x_show [] (e_t s) 0 "P" = Ok _) by run.
  match type of Hp with _ = Ok ?p => set (ph := p) in * end. exists ph.
  destruct e_vlayers as [Hc Ht].
  assert (Run : forall deg, exists fuel l, ph_calcTime fuel ph deg = Ok l).
  { intros deg. edestruct (C37_defined ph deg) as [fuel Hf];
      [exact Hc|exact Ht| | |reflexivity|reflexivity| |reflexivity|reflexivity| |reflexivity|exact e_speed|exact e_speed| |].
    { cbn. lra. }
    { intros Hk; apply is_kmps_iff in Hk; discriminate. }
    { intros i Hi. cbn in Hi. assert (i = 0)%nat by lia. subst i. cbn. intros E. injection E as E. lra. }
    { exact (eq_refl : ph_legs ph = [] ++ ["P"; "END"]). }
    { cbn. intros p [<-|[<-|[]]]; split; apply Rabs_le; lra. }
    destruct (Hf fuel ltac:(lia)) as [l Hl]. eauto. }
  assert (Mn : ph_minDist ph = 0) by (cbn; rewrite (proj2 (Rltb_false _ _)) by lra; reflexivity).
  assert (Mx : ph_maxDist ph = 2 * (PI / 3)) by (cbn; rewrite (proj2 (Rltb_true _ _)) by lra; lra).
  assert (Du : down_up true 1 (ph_seq ph)) by (split; [reflexivity|]; intros g [<-|[<-|[]]]; reflexivity).
  assert (Tu : forall p, In p (ph_rayParams ph) -> 0 <= p /\ 2 - 1 <= p * 1 <= 2) by (intros p [<-|[<-|[]]]; lra).
  assert (Two : exists p q, In p (ph_rayParams ph) /\ In q (ph_rayParams ph) /\ p <> q) by (exists 2, 1; split; [left; reflexivity|]; split; [right; left; reflexivity|lra]).
  assert (Hr : exists r, In r (tm_rayParams (e_t s)) /\ ph_max ph <= r) by (exists 2; split; [left; reflexivity|cbn; lra]).
  assert (Nd : ~ diffracted "P") by (intros [X|X]; not_in X). assert (Nh : ~ head_wave "P") by (intros [X|X]; not_in X).
  assert (Nz : forall z, In z (sm_hiP (tm_sMod (e_t s))) \/ In z (sm_hiS (tm_sMod (e_t s))) -> ~ ph_min ph < dr_rayParam z < ph_max ph) by (intros z [[]|[]]).
  pose proof (C76_arrivals x_show [] (e_t s) 0 "P" ph true 1 0 _ _ Hp eq_refl Hr Nd Nh Nz (e_rays s Es) Un Us Pr Me eq_refl eq_refl eq_refl Du (e_decreasing s) Two) as Ar.
  assert (Ar' : forall deg, 0 < deg <= 180 -> exists fuel l, ph_calcTime fuel ph deg = Ok l /\
    ((0 <= rad deg <= 2 * (PI / 3) /\ exists a, l = [a] /\ ar_dist a = rad deg) \/ (~ 0 <= rad deg <= 2 * (PI / 3) /\ l = []))).
  { intros deg Hd. destruct (Run deg) as [fuel [l Hl]]. exists fuel, l. split; [exact Hl|].
    rewrite <- Mx, <- Mn. apply (Ar fuel deg l deg); [intros p Ip; apply (Tu p Ip)|left; cbn; lra|cbn; lra|left; intros p Ip; apply (Tu p Ip)|exact Hl|apply folded_self; lra|lra]. }
  split; [exact Hp|]. split; [exact Mn|]. split; [exact Mx|]. split.
  { apply (C76_direct x_show [] (e_t s) 0 "P" ph true 1 0 _ _ Hp eq_refl Hr Nd Nh Nz (e_rays s Es) Un Us Pr Me eq_refl eq_refl eq_refl Du (e_decreasing s) Two Tu). cbn. lra. }
  assert (E6 : rad 60 = PI / 3) by (unfold rad; field). assert (E15 : rad 150 = 5 * (PI / 6)) by (unfold rad; field). split.
  - destruct (Ar' 60 ltac:(lra)) as [fuel [l [Hl [[_ [a [E Ed]]]|[X _]]]]]; [|exfalso; apply X; rewrite E6; lra].
    exists fuel, l, a. split; [exact Hl|]. split; [exact E|]. rewrite Ed, E6. reflexivity.
  - destruct (Ar' 150 ltac:(lra)) as [fuel [l [Hl [[X _]|[_ ->]]]]]; [exfalso; rewrite E15 in X; lra|]. exists fuel. exact Hl.
Qed.
Example C76_ex_reflected : forall s, s = 2 * sin (PI / 3) -> exists ph,
  newPhase x_show [] (e_t s) 0 "PcP" = Ok ph /\ shrinks (ph_dist ph) /\ ph_minDist ph = 0 /\ ph_maxDist ph = 2 * (PI / 3).
Proof.
  intros s Es. pose proof PI_RGT_0 as HP. destruct (C73_ex s Es) as [_ [_ [_ [_ [_ [_ [_ [_ [_ [Un [Us [Pr [Me _]]]]]]]]]]]]].
  eassert (Hp : newPhase x_show [] (e_t s) 0 "PcP" = Ok _) by run.
  match type of Hp with _ = Ok ?p => set (ph := p) in * end. exists ph.
  assert (Du : down_up true 1 (ph_seq ph)) by (split; [reflexivity|]; intros g [<-|[<-|[]]]; reflexivity).
  assert (Tu : forall p, In p (ph_rayParams ph) -> 0 <= p /\ p * 1 <= 2 - 1) by (intros p [<-|[<-|[]]]; lra).
  assert (Two : exists p q, In p (ph_rayParams ph) /\ In q (ph_rayParams ph) /\ p <> q) by (exists 1, 0; split; [left; reflexivity|]; split; [right; left; reflexivity|lra]).
  split; [exact Hp|]. split.
  - apply (C76_reflected x_show [] (e_t s) 0 "PcP" ph true 1 0 _ _ Hp eq_refl
      ltac:(exists 2; split; [left; reflexivity|cbn; lra]) ltac:(intros [X|X]; not_in X) ltac:(intros [X|X]; not_in X) ltac:(intros z [[]|[]])
      (e_rays s Es) Un Us Pr Me eq_refl eq_refl eq_refl Du (e_decreasing s) Two Tu); cbn; lra.
  - split; cbn; [rewrite (proj2 (Rltb_true _ _)) by lra; lra|rewrite (proj2 (Rltb_false _ _)) by lra; lra].
Qed.

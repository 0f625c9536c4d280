(** Properties of takeoff and incidence angles (C37). *)
From Coq Require Import ZArith Bool List String Ascii Reals Lia Lra.
From Verif Require Import Base Num PyStr VelocityModel SlownessLayer SlownessModel TauModel Legs SeismicPhase
  NameSpec NameProofs VelSpec TimeSpec CalcTimeProofs RouteSpec RouteProofs AngleSpec AngleProofs AngleRouteProofs RealRun RouteProps TimeProps.
Import ListNotations.
Local Open Scope string_scope.
Local Open Scope list_scope.
Local Open Scope R_scope.

Lemma arrives_angles : forall fuel (ph : phase R) deg l a, ph_calcTime fuel ph deg = Ok l -> In a l ->
  angles ph (ar_rayParam a) = Ok (ar_takeoff a, ar_incident a).
Proof.
  intros fuel ph deg l a H Ha. destruct (calcTime_sound _ _ _ _ _ H Ha) as [_ [_ [i [_ [_ I]]]]].
  rewrite interp_split in I.
  do 8 inv_bind I. inv_as I as [tk ic] Hx. injection I as <-. cbn [ar_rayParam ar_takeoff ar_incident fst snd]. exact Hx.
Qed.

(** ** C37: both angles of every arrival obey Snell's law *)
Theorem C37_snell : forall fuel (ph : phase R) deg l a,
  contiguous (vm_layers (sm_vMod (tm_sMod (ph_tMod ph)))) -> thick (vm_layers (sm_vMod (tm_sMod (ph_tMod ph)))) ->
  0 <= ph_sourceDepth ph < tm_radius (ph_tMod ph) -> ~ is_kmps (ph_name ph) ->
  ph_calcTime fuel ph deg = Ok l -> In a l ->
  angles_of ph (ar_rayParam a) (ar_takeoff a) (ar_incident a).
Proof.
  intros fuel ph deg l a Hc Ht Hr Hk H Ha. apply angles_iff; try assumption. eapply arrives_angles; eassumption.
Qed.
Print Assumptions C37_snell.

(** surface waves have no angles *)
Theorem C37_surface_waves : forall fuel (ph : phase R) deg l a, is_kmps (ph_name ph) ->
  ph_calcTime fuel ph deg = Ok l -> In a l -> ar_takeoff a = 0 /\ ar_incident a = 0.
Proof.
  intros fuel ph deg l a Hk H Ha. pose proof (arrives_angles _ _ _ _ _ H Ha) as E. unfold angles in E.
  apply is_kmps_iff in Hk. rewrite Hk in E.
  assert (E1 : ar_takeoff a = n_0 /\ ar_incident a = n_0) by (split; congruence). rewrite n_0_R in E1. exact E1.
Qed.
Print Assumptions C37_surface_waves.

(** The takeoff angle is negative exactly for rays that leave upwards; the incidence angle is positive. *)
Theorem C37_sign : forall (ph : phase R) p takeoff incident first later,
  angles_of ph p takeoff incident -> ph_seq ph = first :: later ->
  0 <= ph_sourceDepth ph < tm_radius (ph_tMod ph) -> 0 < p ->
  (forall below wave z v, wave <> "" -> speed (sm_vMod (tm_sMod (ph_tMod ph))) below wave z v -> 0 < v) ->
  (takeoff < 0 <-> sg_down first = false) /\ (0 < takeoff <-> sg_down first = true) /\ 0 < incident.
Proof.
  intros ph p tk ic first later [c [rest [f [la [before [leg [lst [lc [lrest [v [w [En [Es [Hv [Htk [El [Elc [Hw Hic]]]]]]]]]]]]]]]]]]
    E Hr Hp Hpos.
  rewrite E in Es. injection Es as <- <-.
  apply Hpos in Hv; [|discriminate]. apply Hpos in Hw; [|discriminate].
  apply snell_sign in Htk; [|lra]. apply snell_sign in Hic; [|lra].
  assert (V : 0 < v * p) by (apply Rmult_lt_0_compat; assumption).
  assert (W : 0 < w * p) by (apply Rmult_lt_0_compat; assumption).
  destruct Htk as [T1 [T2 _]]. destruct Hic as [I1 _].
  destruct (sg_down first).
  - specialize (T1 V). split; [split; [lra|discriminate]|]. split; [tauto|apply I1; exact W].
  - specialize (T2 ltac:(lra)). split; [tauto|]. split; [split; [lra|discriminate]|apply I1; exact W].
Qed.
Print Assumptions C37_sign.

(** For textbook names these are the angles of the wave and the direction of the first crossing and of the wave
    of the last crossing of the ray. *)
Theorem C37_textbook : forall (show : R -> string) w (t : tmodel R) tid legs path ph fuel deg l a,
  (0 <= tm_sourceBranch t < tm_cmbBranch t)%Z -> (0 < tm_mohoBranch t < tm_cmbBranch t)%Z ->
  (tm_cmbBranch t < tm_iocbBranch t < Z.of_nat (List.length (tm_P t)))%Z ->
  List.length (tm_S t) = List.length (tm_P t) ->
  textbook (tm_sourceBranch t) (tm_mohoBranch t) (tm_cmbBranch t) (tm_iocbBranch t) (Z.of_nat (List.length (tm_P t))) legs path ->
  ((tm_sourceBranch t < tm_mohoBranch t)%Z \/ forall x r, legs = x :: r -> ~ In x ["Pn"; "Sn"; "Pg"; "Sg"]) ->
  ((exists x r, legs = x :: r /\ In x ["p"; "s"]) -> (0 < tm_sourceBranch t)%Z) ->
  newPhase show w t tid (join legs) = Ok ph ->
  contiguous (vm_layers (sm_vMod (tm_sMod t))) -> thick (vm_layers (sm_vMod (tm_sMod t))) ->
  0 <= tm_sourceDepth t < tm_radius t ->
  ph_calcTime fuel ph deg = Ok l -> In a l ->
  exists b dn isP rest before isP' v v',
    path = (b, dn, isP) :: rest /\ path = before ++ [(0%Z, false, isP')] /\
    speed (sm_vMod (tm_sMod t)) dn (wave_name isP) (tm_sourceDepth t) v /\
    snell (ar_takeoff a) (if dn then v else - v) (ar_rayParam a) (tm_radius t - tm_sourceDepth t) /\
    speed (sm_vMod (tm_sMod t)) true (wave_name isP') 0 v' /\
    snell (ar_incident a) v' (ar_rayParam a) (tm_radius t).
Proof.
  intros show w t tid legs path ph fuel deg l a Hs Hm Hi HS Ht Hreach Hup H Hc Hth Hr Hq Ha.
  assert (Hm' : (0 <= tm_mohoBranch t < tm_cmbBranch t)%Z) by lia.
  destruct (phase_same show w t tid _ ph H) as [Em Ed].
  destruct (phase_seq show w t tid _ ph H) as [legs' [s [El [Ep [Es [Elegs [Ename _]]]]]]].
  rewrite (readable_puller legs (textbook_read _ _ _ _ _ _ _ Ht)) in El. injection El as <-.
  destruct (C32_sequence show w t tid legs path ph Hs Hm' Hi HS Ht H) as [Epath|[Emax _]].
  2: { exfalso. apply no_rays in H; [|exact Emax].
       destruct (calcTime_sound _ _ _ _ _ Hq Ha) as [_ [_ [i [_ [P _]]]]]. apply passes_bound in P. rewrite H in P. cbn in P. lia. }
  destruct (textbook_ends _ _ _ _ _ Hm legs path Ht Hs Hreach Hup) as
    [[c [r [k [dn [isP [b [m [E1 [L1 E2]]]]]]]]] [pre [c' [r' [dn' [isP' [m' [E3 [L2 E4]]]]]]]]].
  assert (Hk : ~ is_kmps (ph_name ph)).
  { rewrite Ename. intros [p E]. apply (no_m legs (textbook_read _ _ _ _ _ _ _ Ht)). rewrite E. exists (p ++ "k")%string, "ps".
    rewrite str_app_assoc. reflexivity. }
  assert (A : angles_of ph (ar_rayParam a) (ar_takeoff a) (ar_incident a)).
  { eapply C37_snell; try eassumption; rewrite ?Em, ?Ed; assumption. }
  destruct A as [d [rest [f [la [before [leg [lst [lc [lrest [v [v' [En [Esq [Hv [Htk [Elg [Elc [Hw Hic]]]]]]]]]]]]]]]]]].
  rewrite Em, Ed in *.
  exists b, dn, isP, m, m', isP', v, v'. split; [exact E2|]. split; [exact E4|].
  rewrite Ename, E1 in En. cbn in En. injection En as <- _.
  rewrite Esq in Epath. cbn [map] in Epath. rewrite E2 in Epath. injection Epath as _ Hdn _ _.
  rewrite Hdn in *. rewrite (letter_speed _ _ _ _ _ _ _ L1) in Hv.
  rewrite Elegs, E3 in Elg. rewrite <- app_assoc in Elg. cbn [app] in Elg.
  assert (Eleg : leg = String c' r').
  { change (before ++ [leg; lst]) with (before ++ [leg] ++ [lst]) in Elg. change [String c' r'; "END"] with ([String c' r'] ++ ["END"]) in Elg.
    rewrite !app_assoc in Elg. apply app_inj_tail in Elg. destruct Elg as [Elg _]. apply app_inj_tail in Elg. destruct Elg as [_ Elg]. auto. }
  rewrite Eleg in Elc. injection Elc as <- _. rewrite (letter_speed _ _ _ _ _ _ _ L2) in Hw. tauto.
Qed.
Print Assumptions C37_textbook.

(** The query does not fail on consistent samples: distinct neighbouring distances and rays that exist at the
    source and at the surface. *)
Theorem C37_defined : forall (ph : phase R) deg c rest first later before leg lst lc lrest v w,
  contiguous (vm_layers (sm_vMod (tm_sMod (ph_tMod ph)))) -> thick (vm_layers (sm_vMod (tm_sMod (ph_tMod ph)))) ->
  0 <= ph_sourceDepth ph < tm_radius (ph_tMod ph) -> ~ is_kmps (ph_name ph) ->
  List.length (ph_time ph) = List.length (ph_dist ph) -> List.length (ph_rayParams ph) = List.length (ph_dist ph) ->
  (forall i, (S i < List.length (ph_dist ph))%nat -> nth_error (ph_dist ph) i <> nth_error (ph_dist ph) (S i)) ->
  ph_name ph = String c rest -> ph_seq ph = first :: later -> ph_legs ph = before ++ [leg; lst] -> leg = String lc lrest ->
  speed (sm_vMod (tm_sMod (ph_tMod ph))) (sg_down first) (String c "") (ph_sourceDepth ph) v ->
  speed (sm_vMod (tm_sMod (ph_tMod ph))) true (String lc "") 0 w ->
  (forall p, In p (ph_rayParams ph) ->
     Rabs (v * p) <= tm_radius (ph_tMod ph) - ph_sourceDepth ph /\ Rabs (w * p) <= tm_radius (ph_tMod ph)) ->
  exists f0, forall fuel, (f0 <= fuel)%nat -> exists l, ph_calcTime fuel ph deg = Ok l.
Proof.
  intros ph deg c rest first later before leg lst lc lrest v w Hc Ht Hr Hk L1 L2 Hd En Es El Elc Hv Hw Hp.
  apply calcTime_ok; [exact L2|]. intros i s _ _ Hps. apply interp_exists; [exact Hps| |exact L1|].
  { apply Hd. apply (passes_bound _ _ _ _ Hps). }
  intros p0 p1 p H0 H1 B. apply nth_error_In in H0, H1. apply Hp in H0, H1. destruct H0 as [A0 B0], H1 as [A1 B1].
  pose proof (abs_between _ _ _ _ _ B A0 A1) as A. pose proof (abs_between _ _ _ _ _ B B0 B1) as B'.
  assert (A' : Rabs ((if sg_down first then v else - v) * p) <= tm_radius (ph_tMod ph) - ph_sourceDepth ph).
  { destruct (sg_down first); [exact A|]. replace (- v * p) with (- (v * p)) by ring. rewrite Rabs_Ropp. exact A. }
  apply snell_exists in A'; [|lra]. apply snell_exists in B'; [|lra]. destruct A' as [tk Htk], B' as [ic Hic].
  exists tk, ic. apply angles_iff; try assumption.
  exists c, rest, first, later, before, leg, lst, lc, lrest, v, w. tauto.
Qed.
Print Assumptions C37_defined.

(** ** Hypotheses met *)
Definition g_v : vmodel R := mkVModel "g" 4 1 2 3 0 4 true
  [mkVLayer 0 0 1 (3/4) (3/4) (1/2) (1/2) 1 1; mkVLayer 1 1 4 (3/4) 1 (1/2) (1/2) 1 1].
Definition g_t : tmodel R :=
  mkTM (mkSM g_v 0 0 0 0 0 true 0 4 [] [] [] [] [] [] 0) [4; 3; 2; 1] (q_bs true) (q_bs false) 1 2 3 1 2 3 1 1 4.
Lemma g_layers : contiguous (vm_layers g_v) /\ thick (vm_layers g_v).
Proof.
  split.
  - intros i x y [Hi Hx] [_ Hy]. destruct (Z.eq_dec i 0) as [->|Hn].
    + injection Hx as <-. injection Hy as <-. apply Reqb_true. reflexivity.
    + exfalso. assert (Hlen : (Z.to_nat (i + 1) < List.length (vm_layers g_v))%nat) by (apply nth_error_Some; congruence).
      cbn [vm_layers g_v List.length] in Hlen. lia.
  - intros x [<-|[<-|[]]]; apply Rltb_true; cbn; lra.
Qed.
(** an arrival of pPKiKS: up as P, last leg S *)
Example C37_ex : exists ph fuel l a,
  newPhase x_show [] g_t 0 "pPKiKS" = Ok ph /\ ph_calcTime fuel ph (30 * 180 / PI) = Ok l /\ In a l /\
  1 <= ar_rayParam a <= 2 /\ ar_takeoff a < 0 /\ 0 < ar_incident a /\
  snell (ar_takeoff a) (- (3/4)) (ar_rayParam a) 3 /\ snell (ar_incident a) (1/2) (ar_rayParam a) 4.
Proof.
  pose proof PI_pos as HP.
  eassert (Hp : newPhase x_show [] g_t 0 "pPKiKS" = Ok _) by run.
  match type of Hp with _ = Ok ?p => set (ph := p) in * end. exists ph.
  destruct g_layers as [Hc Ht].
  assert (Hk : ~ is_kmps (ph_name ph)) by (intros Hk; apply is_kmps_iff in Hk; discriminate).
  assert (S1 : speed g_v false "p" 1 (3/4)).
  { exists (mkVLayer 0 0 1 (3/4) (3/4) (1/2) (1/2) 1 1), (3/4), (3/4). split; [left; reflexivity|]. split; [cbn; lra|].
    split; [apply (letter_values_iff "p" false true _ _ _ le_p); split; reflexivity|]. unfold line. cbn. field. }
  assert (S2 : speed g_v true "S" 0 (1/2)).
  { exists (mkVLayer 0 0 1 (3/4) (3/4) (1/2) (1/2) 1 1), (1/2), (1/2). split; [left; reflexivity|]. split; [cbn; lra|].
    split; [apply (letter_values_iff "S" true false _ _ _ le_S); split; reflexivity|]. unfold line. cbn. field. }
  assert (Hr : 0 <= ph_sourceDepth ph < tm_radius (ph_tMod ph)) by (cbn; lra).
  edestruct (C37_defined ph (30 * 180 / PI)) as [fuel Hf];
    [exact Hc|exact Ht|exact Hr|exact Hk|reflexivity|reflexivity| |reflexivity|reflexivity| |reflexivity|exact S1|exact S2| |].
  { intros i Hi. cbn in Hi. assert (i = 0)%nat by lia. subst i. cbn. intros E. injection E as E. lra. }
  { exact (eq_refl : ph_legs ph = ["p"; "P"; "K"; "i"; "K"] ++ ["S"; "END"]). }
  { cbn. intros p [<-|[<-|[]]]; split; apply Rabs_le; lra. }
  destruct (Hf fuel ltac:(lia)) as [l Hl]. exists fuel, l.
  assert (Hdeg : 30 * 180 / PI * PI / 180 = 30) by (field; lra).
  destruct (calcTime_complete fuel ph (30 * 180 / PI) l 0 30 Hl) as [a [Ha [Ed Ei]]].
  { cbn. lra. } { unfold rad. rewrite Hdeg. reflexivity. }
  { exists 24, 44, 2, 1. do 4 (split; [reflexivity|]). split; [left; lra|]. split; [intros; lra|]. intros; lra. }
  exists a. split; [exact Hp|]. split; [exact Hl|]. split; [exact Ha|].
  assert (B : 1 <= ar_rayParam a <= 2).
  { destruct (calcTime_sound _ _ _ _ _ Hl Ha) as [_ [_ [i [E [_ I]]]]]. rewrite Ei in E. assert (i = 0)%nat by lia. subst i.
    apply interp_values in I. destruct I as [d0 [d1 [t0 [t1 [p0 [p1 [A [A' [_ [_ [F [G [_ V]]]]]]]]]]]]].
    apply on_line_between in V; [|rewrite Ed; injection A as <-; injection A' as <-; left; lra].
    injection F as <-. injection G as <-. unfold between in V. lra. }
  split; [exact B|].
  assert (A : angles_of ph (ar_rayParam a) (ar_takeoff a) (ar_incident a)) by (eapply C37_snell; eassumption).
  destruct A as [d [rest [f [la [before [leg [lst [lc [lrest [v [v' [En [Esq [Hv [Htk [Elg [Elc [Hw Hic]]]]]]]]]]]]]]]]]].
  injection En as <- _. injection Esq as <- _.
  assert (Eleg : leg = "S").
  { change (before ++ [leg; lst]) with (before ++ [leg] ++ [lst]) in Elg.
    change (ph_legs ph) with (["p"; "P"; "K"; "i"; "K"] ++ ["S"] ++ ["END"]) in Elg.
    rewrite !app_assoc in Elg. apply app_inj_tail in Elg. destruct Elg as [Elg _]. apply app_inj_tail in Elg. destruct Elg as [_ Elg]. auto. }
  rewrite Eleg in Elc. injection Elc as <- _.
  assert (v = 3/4).
  { apply speed_above_iff in S1; [|exact Hc|exact Ht]. cbn [sg_down ph_sourceDepth ph] in Hv.
    apply (speed_above_iff g_v) in Hv; [|exact Hc|exact Ht]. rewrite S1 in Hv. injection Hv as <-. reflexivity. }
  assert (v' = 1/2).
  { apply speed_below_iff in S2; [|exact Hc|exact Ht]. apply (speed_below_iff g_v) in Hw; [|exact Hc|exact Ht].
    rewrite S2 in Hw. injection Hw as <-. reflexivity. }
  subst v v'. cbn [sg_down] in Htk.
  replace (tm_radius (ph_tMod ph) - ph_sourceDepth ph) with 3 in Htk by (cbn; lra).
  change (tm_radius (ph_tMod ph)) with 4 in Hic.
  pose proof (snell_sign _ _ _ _ Htk ltac:(lra)) as [_ [N _]]. pose proof (snell_sign _ _ _ _ Hic ltac:(lra)) as [P _].
  split; [apply N; lra|]. split; [apply P; lra|]. split; [exact Htk|exact Hic].
Qed.
(** its name is textbook *)
Example C37_textbook_ex : exists path,
  textbook (tm_sourceBranch g_t) (tm_mohoBranch g_t) (tm_cmbBranch g_t) (tm_iocbBranch g_t) (Z.of_nat (List.length (tm_P g_t)))
    ["p"; "P"; "K"; "i"; "K"; "S"] path /\ join ["p"; "P"; "K"; "i"; "K"; "S"] = "pPKiKS" /\
  (0 < tm_sourceBranch g_t < tm_cmbBranch g_t)%Z /\ (0 < tm_mohoBranch g_t < tm_cmbBranch g_t)%Z /\
  (tm_cmbBranch g_t < tm_iocbBranch g_t < Z.of_nat (List.length (tm_P g_t)))%Z /\
  (forall x r, ["p"; "P"; "K"; "i"; "K"; "S"] = x :: r -> ~ In x ["Pn"; "Sn"; "Pg"; "Sg"]) /\
  List.length (tm_S g_t) = List.length (tm_P g_t) /\ 0 <= tm_sourceDepth g_t < tm_radius g_t.
Proof.
  exists (up true 0 1 ++ down true 0 2 ++ (down true 2 3 ++ up true 2 3) ++ up false 0 2). split.
  { apply (te_depth _ _ _ _ _ "p" true); [apply ul_p|].
    apply ar_plain, rs_one, (ra_core _ _ _ _ _ "P" true ["K"; "i"; "K"] true _ "S"); [apply ml_P|apply co_one, bo_reflect|apply ml_S]. }
  split; [reflexivity|]. split; [cbn; lia|]. split; [cbn; lia|]. split; [cbn; lia|].
  split; [|split; [reflexivity|cbn; lra]].
  intros x r E. injection E as <- _. cbn. intros [F|[F|[F|[F|[]]]]]; discriminate.
Qed.
Example C37_surface_ex : is_kmps (ph_name ex_ph) /\
  exists fuel l a, ph_calcTime fuel ex_ph 30 = Ok l /\ In a l /\ ar_dist a = PI / 6.
Proof.
  split; [exists "3"; reflexivity|].
  destruct C06_C07_C08_ex as [fuel [l [H [_ [_ [[a [Ha [Ed _]]] _]]]]]]. exists fuel, l, a. tauto.
Qed.

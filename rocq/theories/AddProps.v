(** Property C62: runs for pierce points and ray paths, with added depths. *)
From Coq Require Import ZArith Bool List String Ascii Reals Lia Lra Permutation.
From Verif Require Import Base Num PyStr VelocityModel SlownessLayer SlownessModel TauModel Legs SeismicPhase Pierce
  TauPTime Views SlowRealProofs RealRun TauSpec SplitSpec TauSplitProofs TauProps CurveSpec PierceSpec CurveProofs CurveMainProofs CurveProps PierceProofs PierceProps
  SourceProofs BuildRun TwoRun InsideRun StackProofs Toy AddSpec AddProofs.
Import ListNotations.
Local Open Scope list_scope.
Local Open Scope R_scope.

(** The corrected model of the last run is used again exactly if the source depth is the same and every
    added depth is the top of the model; also an added depth that already is a boundary further down makes
    it be computed anew. *)
Theorem C62_again : forall {T} {N : Num T} (t : tmodel T) adds depth,
  (mustRecalc t adds depth = Ok false <->
    n_eqb (tm_sourceDepth t) depth = true /\
    (adds = [] \/ exists b bs, tm_P t = b :: bs /\ forall a, In a adds -> n_eqb a (tb_top b) = true)) /\
  (mustRecalc t adds depth = Ok true <->
    n_eqb (tm_sourceDepth t) depth = false \/
    exists b bs a, tm_P t = b :: bs /\ In a adds /\ n_eqb a (tb_top b) = false).
Proof. intros T N t adds depth. exact (must_spec t adds depth). Qed.

(** Without added depths the source depth is corrected as for travel times. *)
Theorem C62_no_added_depths : forall {T} {N : Num T} {L : Libm T} show fuel w (s : ttime T) depth,
  pp_depthCorrect show fuel w s [] depth = tt_depthCorrect show fuel w s depth.
Proof. intros T N L show fuel w s depth. apply no_adds. Qed.

(** A run for pierce points or paths finds the arrivals of a run for travel times with the same arguments,
    for the same phases and in the order of the phases; only pierce points and paths are added to them. *)
Theorem C62_same_arrivals : forall {T} {N : Num T} {L : Libm T} show fuel order w (s : ttime T) pl depth degrees coords w' s' calc,
  calc = calcPierce fuel \/ calc = calcPath fuel ->
  view_run show calc fuel order w s [] pl depth degrees coords = Ok (w', s') ->
  exists arrs s0, tt_rerun show fuel order w s pl depth degrees coords = Ok (w', s0) /\
    tt_tMod s0 = tt_tMod s' /\ tt_tModDepth s0 = tt_tModDepth s' /\ tt_phases s0 = tt_phases s' /\
    Permutation (tt_arrivals s0) arrs /\ Forall2 same_arrival arrs (tt_arrivals s').
Proof.
  intros T N L show fuel order w s pl depth degrees coords w' s' calc Hc H.
  assert (X : exists arrs s0, tt_rerun show fuel order w s pl depth degrees coords = Ok (w', s0) /\
    tt_tMod s0 = tt_tMod s' /\ tt_tModDepth s0 = tt_tModDepth s' /\ tt_phases s0 = tt_phases s' /\
    tt_arrivals s0 = sortArrivals arrs /\ Forall2 same_arrival arrs (tt_arrivals s')).
  { destruct Hc as [-> | ->].
    - apply (run_same show calcPierce); [apply pierce_same|exact H].
    - apply (run_same show calcPath); [apply path_same|exact H]. }
  destruct X as [arrs [s0 [A [B [C [D [E F]]]]]]]. exists arrs, s0. rewrite E. auto 8 using sort_perm.
Qed.

(** After the correction for a source depth and added depths, the model has a branch boundary at every
    added depth and, if the model was computed anew, at the source depth: up to one millimetre for each
    depth.  All branch bottoms of the own model stay, and there are no other new ones.  The own model is
    changed at most in its slowness layers. *)
Theorem C62_boundaries : forall {L : Libm R} show fuel w (s : ttime R) adds depth w' s',
  decreasing (tm_rayParams (tt_tMod s)) ->
  pp_depthCorrect show fuel w s adds depth = Ok (w', s') ->
  let n := S (List.length adds) in
  let t := tt_tMod s in let d := tt_tModDepth s' in
  tm_sourceDepth d = depth /\ tt_sourceDepth s' = depth /\ same_tau t (tt_tMod s') /\
  (forall a, In a adds -> edge_near n (tm_P d) a) /\
  (d = tt_tModDepth s \/
   tm_rayParams d = tm_rayParams t /\ tm_radius d = tm_radius t /\ edge_near n (tm_P d) depth /\
   (forall c, In c (tm_P t) -> exists b, In b (tm_P d) /\ tb_bot b = tb_bot c) /\
   (forall b, In b (tm_P d) -> (exists c, In c (tm_P t) /\ tb_bot b = tb_bot c) \/
                               exists x, (In x adds \/ x = depth) /\ Rabs (tb_bot b - x) < / 10 ^ 6) /\
   (List.length (tm_P d) + List.length (tm_S t) = List.length (tm_S d) + List.length (tm_P t))%nat).
Proof.
  intros L show fuel w s adds depth w' s' Hd H n t d. unfold pp_depthCorrect in H.
  destruct (mustRecalc (tt_tModDepth s) adds depth) as [must| |] eqn:Em; cbn [bind] in H; try discriminate H.
  destruct must; cbn [negb] in H.
  - destruct (split_all fuel w _ true _ adds) as [[[[w1 orig] shared] t1]| |] eqn:E1; cbn [bind] in H; try discriminate H.
    destruct (tm_depthCorrect fuel w1 t1 depth) as [[[w2 self] d2]| |] eqn:E2; cbn [bind] in H; try discriminate H.
    destruct (recalcPhases show w2 _) as [s2| |] eqn:E3; cbn [bind] in H; try discriminate H. injection H as _ <-.
    apply recalc_tMod in E3. cbn [tt_tMod tt_tModDepth] in E3. destruct E3 as [_ E3].
    unfold d. cbn [tt_tMod tt_tModDepth tt_sourceDepth]. rewrite E3. clear d E3.
    destruct (split_all_near _ _ _ _ _ _ _ _ _ _ Hd E1) as [B1 [B2 [B3 [B4 [B5 [B6 [B7 [B8 [B9 B10]]]]]]]]].
    assert (Hd1 : decreasing (tm_rayParams t1)) by (rewrite B1; exact Hd).
    unfold tm_depthCorrect in E2. do 2 match type of E2 with (if ?b then _ else _) = _ => destruct b; [discriminate|] end.
    destruct (splitBranch fuel w1 t1 depth) as [[[w3 self3] d3]| |] eqn:E4; cbn [bind] in E2; try discriminate E2.
    destruct (findBranch d3 depth) as [sb| |]; cbn [bind] in E2; try discriminate E2. injection E2 as _ _ <-.
    destruct (splitBranch_P _ _ _ _ _ _ _ Hd1 E4) as [R1 [R2 [R3 _]]].
    destruct (split_near _ _ _ _ _ _ _ Hd1 E4) as [A1 [A2 [A3 [A4 [A5 [A6 A7]]]]]].
    cbn [tm_sourceDepth tm_rayParams tm_radius tm_P tm_S].
    split; [reflexivity|]. split; [reflexivity|]. split; [unfold same_tau, with_sMod; cbn; repeat (split; [reflexivity|]); reflexivity|].
    split; [intros a Ha; apply A2, B4; exact Ha|]. right. fold t in B1, B2, B6, B7, B8, B9, B10.
    split; [congruence|]. split; [congruence|]. split; [|split; [|split]].
    + apply (near_more 1); [unfold n; lia|exact A1].
    + intros c Hc. destruct (B7 c Hc) as [b1 [Hb1 Eb1]]. destruct (A4 b1 Hb1) as [b2 [Hb2 Eb2]]. exists b2. split; [exact Hb2|congruence].
    + intros b Hb. destruct (A3 b Hb) as [[c [Hc Ec]]|Ex]; [|right; exists depth; auto].
      destruct (B6 c Hc) as [[c' [Hc' Ec']]|[x [Hx Ex]]]; [left; exists c'; split; [exact Hc'|congruence]|].
      right. exists x. rewrite Ec. auto.
    + lia.
  - destruct (must_spec (tt_tModDepth s) adds depth) as [[M _] _]. destruct (M Em) as [Ms Ma]. clear M.
    unfold tt_depthCorrect in H. rewrite Ms in H. cbn [negb bind] in H. injection H as _ <-.
    unfold d. cbn [tt_tMod tt_tModDepth tt_sourceDepth]. apply Reqb_eq in Ms. split; [exact Ms|]. split; [reflexivity|].
    split; [unfold same_tau; repeat (split; [reflexivity|]); reflexivity|]. split; [|left; reflexivity].
    intros a Ha. destruct Ma as [->|[b [bs [EP Ma]]]]; [destruct Ha|]. apply (near_more 0); [lia|]. apply at_edge_near.
    exists b. split; [rewrite EP; left; reflexivity|]. left. apply Reqb_eq. specialize (Ma a Ha). apply Reqb_eq in Ma. congruence.
Qed.

(** A ray that passes a branch has a pierce point at the far end of it, if the leg takes more than 1e-10 s.
    So added depths become pierce points. *)
Theorem C62_pierce_point : forall (ph : phase R) a a' l1 s l2 b,
  calcPierceFromArrival ph a = Ok a' -> plain_name (ph_name ph) -> decreasing (tm_rayParams (ph_tMod ph)) ->
  ph_seq ph = l1 ++ s :: l2 -> leg_branch (ph_tMod ph) s b -> tb_top b <= tb_bot b ->
  exists i q p d0 d1, ray_number (tm_rayParams (ph_tMod ph)) (ar_rayParam a) i /\
    at_index (ph_dist ph) (ar_index a) d0 /\ at_index (ph_dist ph) (ar_index a + 1) d1 /\ d0 <> d1 /\ ar_dist a = mix q d0 d1 /\
    (forall pt, In pt (ar_pierce a') -> td_p pt = p) /\
    forall d tm d' tm', reached (ph_tMod ph) i (i + 1) q l1 d tm -> reached (ph_tMod ph) i (i + 1) q (l1 ++ [s]) d' tm' ->
      / 10 ^ 10 < Rabs (tm' - tm) -> p <= tb_maxRP b -> p <= tb_minRP b ->
      In (mkTD p tm' d' (if sg_down s then tb_bot b else tb_top b)) (ar_pierce a').
Proof.
  intros ph a a' l1 s l2 b H Hn Dec Es Hb Hu.
  destruct (C35_points ph a a' H Hn Dec) as [i [q [d0 [d1 [p0 [p1 [pts [Q1 [Q2 [Q3 [_ [_ [Q4 [Q5 [P ->]]]]]]]]]]]]]]].
  exists i, q, (mix q p0 p1), d0, d1. do 5 (split; [assumption|]). cbn [ar_pierce]. set (p := mix q p0 p1) in *. split.
  - assert (X : forall done todo pts, pierced (ph_tMod ph) i (i + 1) q p done todo pts -> forall pt, In pt pts -> td_p pt = p).
    { clear. intros done todo pts P. induction P as [|done s l d tm d' tm' z pts _ _ _ _ _ IH|done s l d tm d' tm' z pts _ _ _ _ _ IH]; intros pt Hp.
      - destruct Hp.
      - destruct Hp as [<-|Hp]; [reflexivity|exact (IH _ Hp)].
      - exact (IH _ Hp). }
    intros pt [<-|Hp]; [reflexivity|exact (X _ _ _ P _ Hp)].
  - intros u tu v tv Ru Rv Lt0 Lx Lm.
    assert (X : forall l done pts, pierced (ph_tMod ph) i (i + 1) q p done (l ++ s :: l2) pts -> done ++ l = l1 ->
      In (mkTD p tv v (if sg_down s then tb_bot b else tb_top b)) pts).
    { induction l as [|x l IH]; intros done pts' P' E; cbn [app] in P'.
      - rewrite app_nil_r in E. subst done. inversion P' as [|done' s' l' d tm d' tm' z pts1 R1 R2 Le Lt P1|done' s' l' d tm d' tm' z pts1 R1 R2 Le Lt P1]; subst.
        + destruct (reached_fun _ _ _ _ _ _ _ _ _ R2 Rv) as [-> ->].
          destruct Le as [b' [x [Hb' [G ->]]]].
          assert (Eb : b' = b) by (unfold leg_branch, at_index in *; destruct Hb as [[? ?]|[? ?]], Hb' as [[? ?]|[? ?]]; try lia; congruence). subst b'.
          left. apply f_equal. destruct G as [[G _]|[[_ [_ ->]]|[_ [G _]]]]; [lra| |lra].
          destruct (sg_down s); unfold Rmin; destruct (Rle_dec _ _); lra.
        + exfalso. destruct (reached_fun _ _ _ _ _ _ _ _ _ R2 Rv) as [-> ->].
          destruct (reached_fun _ _ _ _ _ _ _ _ _ R1 Ru) as [-> ->]. lra.
      - inversion P' as [|done' s' l' d tm d' tm' z pts1 R1 R2 Le Lt P1|done' s' l' d tm d' tm' z pts1 R1 R2 Le Lt P1]; subst.
        + right. apply (IH _ _ P1). rewrite <- app_assoc. reflexivity.
        + apply (IH _ _ P1). rewrite <- app_assoc. reflexivity. }
    right. rewrite Es in P. exact (X l1 [] pts P eq_refl).
Qed.

(** ** a concrete case *)
(** the ball of constant velocity in two layers, whose construction is carried out in TwoRun.v, with a source at the surface and
    the depth 1500 added *)
Example C62_ex : exists (t : tmodel R) r w', decreasing (tm_rayParams t) /\ map tb_bot (tm_P t) = [6371] /\
  pp_depthCorrect (fun _ => ""%string) 20 [] (tt_new t 0) [1500] 0 = Ok (w', r) /\
  map tb_bot (tm_P (tt_tModDepth r)) = [1500; 6371].
Proof.
  destruct in_all as [e [tA [xA [tB [xB [tC [xC [tD [xD [Hs [Ht [Hc _]]]]]]]]]]]].
  set (t := two_t e tA xA tB xB) in *. set (r0 := in_r e tA xA tB xB tC xC tD xD) in *.
  assert (Q : forall x : R, n_eqb x x = true) by (intro; apply Reqb_eq; lra).
  assert (NE : forall x y : R, x <> y -> n_eqb x y = false) by (intros; apply Reqb_ne; assumption).
  assert (NL : forall x y : R, y <= x -> n_ltb x y = false) by (intros; apply Rltb_ge; lra).
  assert (Le : forall x y : R, x <= y -> n_leb x y = true) by (intros; now apply Rleb_le).
  assert (LT : forall x y : R, x < y -> n_ltb x y = true) by (intros; now apply Rltb_lt).
  assert (Dc : decreasing (tm_rayParams t)) by (destruct (C24_ray_parameters _ _ _ Ht ltac:(intros; apply R_ok)) as [_ [Dec _]]; exact Dec).
  assert (Sp : exists self d1, splitBranch 20 [] t 1500 = Ok ([1500], self, d1) /\ tm_P d1 = tm_P r0 /\ tm_sourceDepth d1 = 0 /\ tm_radius d1 = 6371).
  { pose proof Hc as Hc'. unfold tm_depthCorrect in Hc'. do 2 match type of Hc' with (if ?b then _ else _) = _ => destruct b; [discriminate|] end.
    destruct (splitBranch 20 [] t 1500) as [[[w1 self] d1]| |] eqn:E3; cbn [bind] in Hc'; try discriminate Hc'.
    destruct (findBranch d1 1500) as [sb| |]; cbn [bind] in Hc'; try discriminate Hc'. injection Hc' as -> E4 E5 E6 E7.
    exists self, d1. split; [reflexivity|].
    destruct (splitBranch_P _ _ _ _ _ _ _ Dc E3) as [_ [Er [Es _]]].
    split; [exact E7|]. split; [exact Es|exact Er]. }
  destruct Sp as [self [d1 [E3 [EP [E0 Er]]]]].
  exists t. eexists. eexists. split; [exact Dc|]. split; [reflexivity|].
  unfold pp_depthCorrect, mustRecalc. cbn [tt_new tt_tModDepth tt_tMod]. change (tm_sourceDepth t) with 0. rewrite Q.
  change (getBranchDepths t) with (Ok [0]). cbn [bind look_for_all look_for]. rewrite NE by lra. cbn [bind negb].
  cbn [split_all]. rewrite E3. cbn [bind]. unfold tm_depthCorrect. rewrite E0, n_0_R, Q. cbn [negb]. rewrite Er, (NL 6371 0) by lra.
  unfold splitBranch. rewrite EP. change (tm_P r0) with [in_top tC xC tD xD true; in_bot tA xA tB xB tC xC tD xD true].
  cbn [existsb in_top in_bot tb_top tb_bot]. rewrite Q. cbn [orb bind].
  unfold findBranch. rewrite EP. change (tm_P r0) with [in_top tC xC tD xD true; in_bot tA xA tB xB tC xC tD xD true].
  cbn [findBranch_go in_top in_bot tb_top tb_bot]. rewrite Le, LT by lra. cbn [andb bind].
  split; [reflexivity|]. reflexivity.
Qed.

(** a leg down through the second branch in the example of C35: a pierce point at depth 2 *)
Example C62_pierce_ex : exists ph a' l1 s l2 b, newPhase x_show [] (y_t []) 0 "PcP" = Ok ph /\
  calcPierceFromArrival ph (y_a 106 84 3 0) = Ok a' /\ plain_name (ph_name ph) /\ ph_seq ph = l1 ++ s :: l2 /\
  leg_branch (ph_tMod ph) s b /\ tb_bot b = 2 /\ exists pt, In pt (ar_pierce a') /\ td_depth pt = 2.
Proof.
  destruct C35_ex as [ph [a' [Hp [Hcv [_ [Pn [_ [_ [Ha _]]]]]]]]].
  eassert (Hp2 : newPhase x_show [] (y_t []) 0 "PcP" = Ok _) by run. rewrite Hp in Hp2.
  match type of Hp2 with Ok ph = Ok ?p => assert (E : ph = p) by congruence end. clear Hp2. subst ph.
  match type of Ha with calcPierceFromArrival ?p _ = _ => set (ph := p) in * end.
  assert (Dc : decreasing (tm_rayParams (ph_tMod ph))) by apply (y_decreasing []).
  exists ph, a', (firstn 1 (ph_seq ph)), (nth 1 (ph_seq ph) (mkSeg 0 true true TURN)), (skipn 2 (ph_seq ph)), (nth 1 (y_bs true) (xb true 0 0 0 0 0 [] [])).
  split; [exact Hp|]. split; [exact Ha|]. split; [exact Pn|]. split; [reflexivity|].
  assert (Hl : leg_branch (ph_tMod ph) (nth 1 (ph_seq ph) (mkSeg 0 true true TURN)) (nth 1 (y_bs true) (xb true 0 0 0 0 0 [] [])))
    by (left; split; [cbn; lia|reflexivity]).
  split; [exact Hl|]. split; [reflexivity|].
  destruct (C62_pierce_point ph _ a' (firstn 1 (ph_seq ph)) _ (skipn 2 (ph_seq ph)) _ Ha Pn Dc ltac:(reflexivity) Hl ltac:(cbn; lra))
    as [i [q [p [d0 [d1 [Rn [I0 [I1 [_ [Ed [Hpt Pt]]]]]]]]]]].
  apply at_index_nonneg in I0; [|cbn; lia]. apply at_index_nonneg in I1; [|cbn; lia]. cbn in I0, I1. injection I0 as <-. injection I1 as <-.
  assert (Ei : i = 3%Z).
  { destruct Rn as [[Hi [[r0 [Hr0 Lr]] Hn]]|[_ F]]; cbn [y_a ar_rayParam] in *.
    - change (removelast (tm_rayParams (ph_tMod ph))) with [16; 12; 8; 4; 2] in *.
      destruct (Z.to_nat i) as [|[|[|[|[|k]]]]] eqn:Ek; cbn in Hr0; try (injection Hr0 as <-); try lra; try lia; try (destruct k; discriminate).
      + specialize (Hn 3%nat 4 ltac:(lia) eq_refl). lra.
      + specialize (Hn 3%nat 4 ltac:(lia) eq_refl). lra.
      + specialize (Hn 3%nat 4 ltac:(lia) eq_refl). lra.
    - specialize (F 16 ltac:(left; reflexivity)). lra. }
  assert (Eq : q = 1 / 2) by (unfold mix in Ed; cbn in Ed; lra). subst i q.
  assert (Ep : p <= 8).
  { destruct (C35_points ph _ a' Ha Pn Dc) as [i [q [e0 [e1 [p0 [p1 [pts [_ [J0 [J1 [K0 [K1 [_ [Ed' [_ Ea]]]]]]]]]]]]]]].
    apply at_index_nonneg in J0; [|cbn; lia]. apply at_index_nonneg in J1; [|cbn; lia]. apply at_index_nonneg in K0; [|cbn; lia]. apply at_index_nonneg in K1; [|cbn; lia].
    cbn in J0, J1, K0, K1. injection J0 as <-. injection J1 as <-. injection K0 as <-. injection K1 as <-.
    assert (q = 1 / 2) by (unfold mix in Ed'; cbn in Ed'; lra). subst q.
    rewrite <- (Hpt (mkTD (mix (1 / 2) 4 2) 0 0 (tm_sourceDepth (ph_tMod ph)))); [cbn [td_p]; unfold mix; lra|]. rewrite Ea. left. reflexivity. }
  eexists. split; [apply (Pt (mix (1 / 2) 16 20) (mix (1 / 2) 22 24) (mix (1 / 2) 30 38) (mix (1 / 2) 42 46))|reflexivity].
  - exists 16, 20, 22, 24. split; [replace 16 with (16+0) by lra; total_tac|]. split; [replace 20 with (20+0) by lra; total_tac|].
    split; [replace 22 with (22+0) by lra; total_tac|]. split; [replace 24 with (24+0) by lra; total_tac|]. split; reflexivity.
  - exists 30, 38, 42, 46. split; [replace 30 with (16+(14+0)) by lra; total_tac|]. split; [replace 38 with (20+(18+0)) by lra; total_tac|].
    split; [replace 42 with (22+(20+0)) by lra; total_tac|]. split; [replace 46 with (24+(22+0)) by lra; total_tac|]. split; reflexivity.
  - unfold mix. match goal with |- _ < Rabs ?x => replace x with 21 by lra end. rewrite Rabs_right by lra. lra.
  - cbn. lra.
  - cbn. lra.
Qed.

(** Runs in double precision numbers for two phases of the toy model: without and with an added depth. *)
Example C62_run_ex :
  let run adds := view_run no_show (calcPierce 100) 100 (fun l => l) [] (tt_new toy_tMod (d 0 0)) adds ["P"; "PcP"]%string (d 0 0) (Some (d 30 0)) None in
  match run [], run [d 500 0], tt_rerun no_show 100 (fun l => l) [] (tt_new toy_tMod (d 0 0)) ["P"; "PcP"]%string (d 0 0) (Some (d 30 0)) None with
  | Ok (_, s), Ok (_, s'), Ok (_, s0) =>
      map ar_time (tt_arrivals s) = map ar_time (tt_arrivals s0) /\
      map (fun a => map td_depth (ar_pierce a)) (tt_arrivals s) <> map (fun a => map td_depth (ar_pierce a)) (tt_arrivals s') /\
      map (fun a => List.length (filter (fun pt => n_eqb (td_depth pt) (d 500 0)) (ar_pierce a))) (tt_arrivals s') = [2; 2]%nat
  | _, _, _ => False
  end.
Proof. vm_compute. split; [reflexivity|]. split; [discriminate|reflexivity]. Qed.

Print Assumptions C62_again.
Print Assumptions C62_no_added_depths.
Print Assumptions C62_same_arrivals.
Print Assumptions C62_boundaries.
Print Assumptions C62_pierce_point.

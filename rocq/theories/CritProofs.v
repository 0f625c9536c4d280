(** Proofs about critical depths and fluid zones. *)
From Coq Require Import ZArith Bool List String Reals Lia Lra.
From Verif Require Import Base Num PyStr VelocityModel VelSpec VelProofs SlownessLayer SlownessModel
  SlowSpec SlowProofs SlowAddProofs CalcTimeProofs SlowBuildProofs CritSpec.
Import ListNotations.
Local Open Scope list_scope.
Local Open Scope num_scope.

Section Crit.
  Context {T : Type} {N : Num T}.

  Lemma evalTop_P : forall v : vlayer T, evaluateAtTop v "p" = Ok (vl_topP v).
  Proof. reflexivity. Qed.
  Lemma create_from_vlayer_iff : forall id (v : vlayer T) w y, create_from_vlayer id v w = Ok y ->
    sl_id y = id /\ sl_topDepth y = vl_topDepth v /\ sl_botDepth y = vl_botDepth v /\
    ends w v (sl_topP y) (sl_botP y).
  Proof.
    intros id v w y H. pose proof (create_from_vlayer_depths _ _ _ _ H) as [A [B C]].
    do 3 (split; [assumption|]). unfold create_from_vlayer in H. unfold ends.
    destruct w; cbn [evaluateAtTop evaluateAtBottom] in H.
    - change (evaluateAtTop v "p") with (Ok (vl_topP v)) in H.
      change (evaluateAtBottom v "p") with (Ok (vl_botP v)) in H. cbn [bind] in H.
      inv_as H as tp Ht. inv_as H as bp Hb. unfold new_slayer in H.
      if_in H; [|discriminate]. if_in H; inversion H; subst. auto.
    - change (evaluateAtTop v "s") with (Ok (vl_topS v)) in H.
      change (evaluateAtBottom v "s") with (Ok (vl_botS v)) in H. cbn [bind] in H.
      inv_as H as tp Ht. inv_as H as bp Hb. unfold new_slayer in H.
      if_in H; [|discriminate]. if_in H; inversion H; subst. auto.
  Qed.

  Definition jumps (pt pb ct cb : T) : bool := (pb <>? ct) || ((pt - pb) * (pb - cb) <? n_0).

  Lemma fc_step_out : forall (m : smodel T) s n v s', fc_step m s (n, v) = Ok s' ->
    let fl := vl_topS v =? n_0 in
    fc_prevBot s' = vl_botDepth v /\
    fc_below s' = (opt_is (fc_fluid s) && negb fl && (vm_iocb (sm_vMod m) <? fc_prevBot s)) || fc_below s /\
    fc_fluid s' = (if fl then Some (match fc_fluid s with Some ft => ft | None => vl_topDepth v end) else None) /\
    fc_zonesF s' = fc_zonesF s ++ (if fl then [] else match fc_fluid s with
                                     | Some ft => [mkDR ft (fc_prevBot s) (- n_1)] | None => [] end) /\
    ends true v (sl_topP (fc_P s')) (sl_botP (fc_P s')) /\
    ends (fl || (fc_below s' && negb (sm_allowInnerCoreS m))) v (sl_topP (fc_S s')) (sl_botP (fc_S s')) /\
    fc_crit s' = fc_crit s ++
      (if jumps (sl_topP (fc_S s)) (sl_botP (fc_S s)) (sl_topP (fc_S s')) (sl_botP (fc_S s'))
          || jumps (sl_topP (fc_P s)) (sl_botP (fc_P s)) (sl_topP (fc_P s')) (sl_botP (fc_P s'))
       then [mkCD (vl_topDepth v) n (-1) (-1)] else []).
  Proof.
    intros m s n v s' H. unfold fc_step in H. cbv zeta in H.
    inv_as H as cP HcP. inv_as H as cS HcS.
    pose proof (create_from_vlayer_iff _ _ _ _ HcP) as [_ [P1 [_ P2]]].
    match type of HcS with (if ?b then _ else _) = _ => destruct b eqn:Eb end.
    2: pose proof (create_from_vlayer_iff _ _ _ _ HcS) as [_ [S1 [_ S2]]].
    1: assert (cS = cP) by (inversion HcS; reflexivity); subst cS; pose proof P1 as S1.
    all: match type of H with (match ?e with (_, _) => _ end) = _ =>
      destruct e as [[[[[[crit hiP] hiS] zP] zS] mP] mS] eqn:Ee end.
    all: inv_as H as [hP zP'] H1; inv_as H as [hS zS'] H2; inversion H; subst s'; clear H;
      cbn [fc_prevBot fc_below fc_fluid fc_zonesF fc_P fc_S fc_crit]; cbv zeta.
    all: assert (F : (if negb (opt_is (fc_fluid s)) && (vl_topS v =? n_0)
                 then Some (vl_topDepth v) else fc_fluid s) =
        match fc_fluid s with Some ft => Some ft | None => if vl_topS v =? n_0 then Some (vl_topDepth v) else None end)
        by (destruct (fc_fluid s), (vl_topS v =? n_0); reflexivity).
    all: rewrite !F in *; clear F H1 H2 HcP.
    all: split; [reflexivity|].
    all: split; [destruct (fc_fluid s), (vl_topS v =? n_0), (_ <? _), (fc_below s); reflexivity|].
    all: split; [destruct (fc_fluid s), (vl_topS v =? n_0); reflexivity|].
    all: split; [destruct (fc_fluid s), (vl_topS v =? n_0); cbn [opt_is negb andb]; rewrite ?app_nil_r; reflexivity|].
    all: split; [exact P2|].
    all: split; [|].
    - replace (_ || _) with true; [exact P2|]. rewrite <- Eb. symmetry.
      destruct (fc_fluid s), (vl_topS v =? n_0), (_ <? _), (fc_below s), (sm_allowInnerCoreS m); reflexivity.
    - unfold jumps. destruct (sl_botP (fc_S s) <>? sl_topP cP) eqn:E1, (sl_botP (fc_P s) <>? sl_topP cP) eqn:E2,
        (((sl_topP (fc_S s) - sl_botP (fc_S s)) * (sl_botP (fc_S s) - sl_botP cP) <? n_0)) eqn:E3,
        (((sl_topP (fc_P s) - sl_botP (fc_P s)) * (sl_botP (fc_P s) - sl_botP cP) <? n_0)) eqn:E4;
      cbn [orb] in Ee; inversion Ee; subst; cbn [orb]; rewrite ?P1, ?app_nil_r; reflexivity.
    - replace (_ || _) with false; [exact S2|]. rewrite <- Eb. symmetry.
      destruct (fc_fluid s), (vl_topS v =? n_0), (_ <? _), (fc_below s), (sm_allowInnerCoreS m); reflexivity.
    - unfold jumps. destruct (sl_botP (fc_S s) <>? sl_topP cS) eqn:E1, (sl_botP (fc_P s) <>? sl_topP cP) eqn:E2,
        (((sl_topP (fc_S s) - sl_botP (fc_S s)) * (sl_botP (fc_S s) - sl_botP cS) <? n_0)) eqn:E3,
        (((sl_topP (fc_P s) - sl_botP (fc_P s)) * (sl_botP (fc_P s) - sl_botP cP) <? n_0)) eqn:E4;
      cbn [orb] in Ee; inversion Ee; subst; cbn [orb]; rewrite ?S1, ?app_nil_r; reflexivity.
  Qed.

  Definition closed (s : fcstate (T := T)) : list (drange T) :=
    fc_zonesF s ++ match fc_fluid s with Some ft => [mkDR ft (fc_prevBot s) (- n_1)] | None => [] end.

  Lemma fluid_fold : forall (m : smodel T) ls s s', foldM (fc_step m) ls s = Ok s' ->
    (fc_fluid s = None -> exists zs, closed s' = fc_zonesF s ++ zs /\ fluid_runs (map snd ls) zs) /\
    (forall ft, fc_fluid s = Some ft -> exists run rest zs, map snd ls = run ++ rest /\
       (forall u, In u run -> fluid_layer u) /\ (forall u us, rest = u :: us -> ~ fluid_layer u) /\
       fluid_runs rest zs /\
       closed s' = fc_zonesF s ++ mkDR ft (match run with [] => fc_prevBot s | u :: us => vl_botDepth (last us u) end)
                                       (- n_1) :: zs).
  Proof.
    intros m. induction ls as [|[n v] ls IH]; intros s s' H; cbn [foldM] in H.
    - inversion H; subst s'. unfold closed. split.
      + intros E. rewrite E. exists []. split; [reflexivity|constructor].
      + intros ft E. rewrite E. exists [], [], []. split; [reflexivity|]. split; [intros u []|].
        split; [intros u us E'; discriminate|]. split; [constructor|reflexivity].
    - inv_as H as s1 H1. apply IH in H. destruct H as [HN HS]. clear IH.
      apply fc_step_out in H1. cbv zeta in H1.
      destruct H1 as [B [_ [F [Z _]]]]. cbn [map snd].
      destruct (vl_topS v =? n_0) eqn:Ev.
      + destruct (HS _ F) as [run [rest [zs [A1 [A2 [A3 [A4 A5]]]]]]]. rewrite Z, app_nil_r, B in A5.
        assert (Hfl : forall u, In u (v :: run) -> fluid_layer u) by (intros u [<-|Hu]; [exact Ev|auto]).
        assert (EL : match run with [] => vl_botDepth v | u :: us => vl_botDepth (last us u) end
                     = vl_botDepth (last run v)) by (destruct run; [reflexivity|rewrite last_cons; reflexivity]).
        rewrite EL in A5. split.
        * intros E. rewrite E in *. eexists. split; [exact A5|]. rewrite A1.
          apply fr_run; assumption.
        * intros ft E. rewrite E in *. exists (v :: run), rest, zs. rewrite A1.
          split; [reflexivity|]. auto.
      + assert (Hnf : ~ fluid_layer v) by (unfold fluid_layer; congruence).
        destruct (HN F) as [zs [A1 A2]]. split.
        * intros E. rewrite E, app_nil_r in Z. exists zs. rewrite A1, Z. split; [reflexivity|].
          constructor; assumption.
        * intros ft E. rewrite E in Z. exists [], (v :: map snd ls), zs. split; [reflexivity|].
          split; [intros u []|]. split; [intros u us E'; inversion E'; subst; assumption|].
          split; [constructor; assumption|]. rewrite A1, Z, <- app_assoc. reflexivity.
  Qed.

  Fixpoint enum_from (i : nat) (l : list (vlayer T)) : list (Z * vlayer T) :=
    match l with [] => [] | v :: l => (Z.of_nat i, v) :: enum_from (S i) l end.
  Lemma enumerate_from : forall l : list (vlayer T), enumerate l = enum_from 0 l.
  Proof.
    assert (G : forall (l : list (vlayer T)) i, combine (map (fun k => (0 + Z.of_nat k)%Z) (seq i (List.length l))) l = enum_from i l).
    { induction l as [|v l IH]; intros i; [reflexivity|]. cbn [List.length seq map combine enum_from].
      rewrite IH. reflexivity. }
    intros l. unfold enumerate, zrange. rewrite Z.sub_0_r, Nat2Z.id. apply G.
  Qed.
  Lemma enum_from_snd : forall l i, map snd (enum_from i l) = l.
  Proof. induction l as [|v l IH]; intros i; [reflexivity|]. cbn [enum_from map snd]. rewrite IH. reflexivity. Qed.

  Lemma ends_fun : forall w (v : vlayer T) a b a' b', ends w v a b -> ends w v a' b' -> a' = a /\ b' = b.
  Proof. unfold ends. intros w v a b a' b' [H1 H2] [H3 H4]. split; congruence. Qed.
  Lemma ends_of_fun : forall vm innerS w i (v : vlayer T) a b a' b',
    ends_of vm innerS w i v a b -> ends_of vm innerS w i v a' b' -> a' = a /\ b' = b.
  Proof.
    unfold ends_of. intros vm innerS w i v a b a' b' H H'.
    destruct H as [[-> H]|[[-> [X H]]|[-> [X H]]]], H' as [[E H']|[[E [X' H']]|[E [X' H']]]];
      try discriminate; try contradiction; eapply ends_fun; eassumption.
  Qed.

  Definition at_layer (m : smodel T) (i : nat) (u : vlayer T) (s : fcstate) : Prop :=
    let vm := sm_vMod m in let innerS := sm_allowInnerCoreS m in
    fc_prevBot s = vl_botDepth u /\ opt_is (fc_fluid s) = (vl_topS u =? n_0) /\
    (fc_below s = true <-> below_fluid vm i) /\
    ends_of vm innerS true i u (sl_topP (fc_P s)) (sl_botP (fc_P s)) /\
    ends_of vm innerS false i u (sl_topP (fc_S s)) (sl_botP (fc_S s)).

  Lemma ends_of_false : forall vm innerS i (v : vlayer T) tp bp b,
    (b = true <-> s_as_p vm innerS i v) -> ends b v tp bp -> ends_of vm innerS false i v tp bp.
  Proof.
    intros vm innerS i v tp bp b Hb H. right. destruct b.
    - left. split; [reflexivity|]. split; [apply Hb; reflexivity|assumption].
    - right. split; [reflexivity|]. split; [|assumption]. intros X. apply Hb in X. discriminate.
  Qed.

  Lemma below_S : forall (vm : vmodel T) i u v, nth_error (vm_layers vm) i = Some u ->
    nth_error (vm_layers vm) (S i) = Some v ->
    (below_fluid vm (S i) <-> below_fluid vm i \/
       (fluid_layer u /\ ~ fluid_layer v /\ vm_iocb vm <? vl_botDepth u = true)).
  Proof.
    intros vm i u v Hu Hv. unfold below_fluid. split.
    - intros [j [a [b [Hj [Ha [Hb Hx]]]]]]. destruct (Nat.eq_dec j i) as [->|Hne].
      + right. assert (a = u) by congruence. assert (b = v) by congruence. subst. assumption.
      + left. exists j, a, b. split; [lia|]. auto.
    - intros [[j [a [b [Hj Hx]]]]|H]; [exists j, a, b; split; [lia|assumption]|].
      exists i, u, v. split; [lia|]. auto.
  Qed.

  Lemma at_layer_step : forall (m : smodel T) i u v s n s', at_layer m i u s ->
    nth_error (vm_layers (sm_vMod m)) i = Some u -> nth_error (vm_layers (sm_vMod m)) (S i) = Some v ->
    fc_step m s (n, v) = Ok s' ->
    at_layer m (S i) v s' /\
    ((critical (sm_vMod m) (sm_allowInnerCoreS m) i /\ fc_crit s' = fc_crit s ++ [mkCD (vl_topDepth v) n (-1) (-1)]) \/
     (~ critical (sm_vMod m) (sm_allowInnerCoreS m) i /\ fc_crit s' = fc_crit s)).
  Proof.
    intros m i u v s n s' [B [F [L [EP ES]]]] Hu Hv H. apply fc_step_out in H. cbv zeta in H.
    destruct H as [B' [L' [F' [_ [EP' [ES' C']]]]]].
    assert (Lw : fc_below s' = true <-> below_fluid (sm_vMod m) (S i)).
    { rewrite (below_S _ _ _ _ Hu Hv), L', F, B. unfold fluid_layer.
      rewrite orb_true_iff, L, !andb_true_iff, negb_true_iff. destruct (vl_topS v =? n_0); intuition congruence. }
    assert (EPo : ends_of (sm_vMod m) (sm_allowInnerCoreS m) true (S i) v (sl_topP (fc_P s')) (sl_botP (fc_P s')))
      by (left; auto).
    assert (ESo : ends_of (sm_vMod m) (sm_allowInnerCoreS m) false (S i) v (sl_topP (fc_S s')) (sl_botP (fc_S s'))).
    { eapply ends_of_false; [|exact ES']. unfold s_as_p, fluid_layer.
      rewrite orb_true_iff, andb_true_iff, Lw, negb_true_iff. intuition. }
    split.
    - split; [assumption|]. split; [rewrite F'; destruct (vl_topS v =? n_0); reflexivity|]. auto.
    - assert (J : (jumps (sl_topP (fc_S s)) (sl_botP (fc_S s)) (sl_topP (fc_S s')) (sl_botP (fc_S s'))
          || jumps (sl_topP (fc_P s)) (sl_botP (fc_P s)) (sl_topP (fc_P s')) (sl_botP (fc_P s'))) = true <->
          critical (sm_vMod m) (sm_allowInnerCoreS m) i).
      { assert (K : forall pt pb ct cb : T, jumps pt pb ct cb = true <-> (pb =? ct = false \/ (pt - pb) * (pb - cb) <? n_0 = true)).
        { intros. unfold jumps. rewrite orb_true_iff, negb_true_iff. reflexivity. }
        rewrite orb_true_iff, !K. unfold critical, jump_or_turn. split.
        - intros [X|X]; exists u, v; [exists false|exists true];
            (split; [assumption|]; split; [assumption|]; do 4 eexists; split; [eassumption|split; [eassumption|exact X]]).
        - intros [u' [v' [w [Hu' [Hv' [ut [ub [vt [vb [E1 [E2 X]]]]]]]]]]].
          assert (u' = u) by congruence. assert (v' = v) by congruence. subst.
          destruct w; [right|left].
          + destruct (ends_of_fun _ _ _ _ _ _ _ _ _ EP E1) as [-> ->].
            destruct (ends_of_fun _ _ _ _ _ _ _ _ _ EPo E2) as [-> ->]. exact X.
          + destruct (ends_of_fun _ _ _ _ _ _ _ _ _ ES E1) as [-> ->].
            destruct (ends_of_fun _ _ _ _ _ _ _ _ _ ESo E2) as [-> ->]. exact X. }
      destruct (_ || _) in C', J.
      + left. split; [apply J; reflexivity|assumption].
      + right. split; [intros X; apply J in X; discriminate|]. rewrite app_nil_r in C'. assumption.
  Qed.

  Definition cd_of (nv : nat * vlayer T) : critdepth T := mkCD (vl_topDepth (snd nv)) (Z.of_nat (fst nv)) (-1) (-1).

  Lemma crit_fold : forall (m : smodel T) ls i u s s', at_layer m i u s ->
    nth_error (vm_layers (sm_vMod m)) i = Some u ->
    (forall k v, nth_error ls k = Some v -> nth_error (vm_layers (sm_vMod m)) (S i + k) = Some v) ->
    foldM (fc_step m) (enum_from (S i) ls) s = Ok s' ->
    exists out, picks (critical_top (sm_vMod m) (sm_allowInnerCoreS m)) (S i) ls out /\
      fc_crit s' = fc_crit s ++ map cd_of out.
  Proof.
    intros m. induction ls as [|v ls IH]; intros i u s s' Hat Hu Hls H; cbn [enum_from foldM] in H.
    - inversion H; subst. exists []. split; [constructor|]. symmetry. apply app_nil_r.
    - inv_as H as s1 H1. pose proof (Hls 0%nat v eq_refl) as Hv. rewrite Nat.add_0_r in Hv.
      destruct (at_layer_step _ _ _ _ _ _ _ Hat Hu Hv H1) as [Hat' C].
      destruct (IH (S i) v s1 s' Hat' Hv) as [out [O1 O2]].
      { intros k x Hx. replace (S (S i) + k)%nat with (S i + S k)%nat by lia. apply Hls. assumption. }
      { assumption. }
      destruct C as [[C E]|[C E]].
      + exists ((S i, v) :: out). split; [constructor; assumption|]. rewrite O2, E, <- app_assoc. reflexivity.
      + exists out. split; [constructor; assumption|]. rewrite O2, E. reflexivity.
  Qed.

  Lemma findCritical_exact : forall (m m' : smodel T), findCriticalPoints m = Ok m' ->
    exists out, picks (critical_top (sm_vMod m) (sm_allowInnerCoreS m)) 0 (vm_layers (sm_vMod m)) out /\
      sm_crit m' = mkCD n_0 0 0 0 :: map cd_of out
                   ++ [mkCD (sm_radius m) (Z.of_nat (List.length (vm_layers (sm_vMod m)))) (-1) (-1)] /\
      fluid_runs (vm_layers (sm_vMod m)) (sm_fluid m').
  Proof.
    intros m m' H. unfold findCriticalPoints in H. inv_as H as first Hf. inv_as H as cS HcS. inv_as H as cP HcP.
    cbv zeta in H. inv_as H as s Hs. inv_as H as ok Hok. destruct ok; inversion H; subst m'.
    cbn [sm_set_zones sm_crit sm_fluid]. clear H Hok.
    apply create_from_vlayer_iff in HcS. destruct HcS as [_ [_ [_ HcS]]].
    apply create_from_vlayer_iff in HcP. destruct HcP as [_ [_ [_ HcP]]].
    assert (Nf : vl_topS first =? n_0 = false).
    { destruct HcS as [X _]. unfold py_div in X. cbn [vl_surface vl_topS] in X.
      destruct (vl_topS first =? n_0); [discriminate|reflexivity]. }
    cbn [vl_surface vl_topS vl_topDepth vl_botDepth] in Hs. rewrite Nf in Hs.
    set (s0 := mkFC _ _ _ _ _ _ _ _ _ _ _ _ _ _) in Hs.
    assert (Efl : fluid_runs (vm_layers (sm_vMod m))
       match fc_fluid s with Some ft => fc_zonesF s ++ [mkDR ft (fc_prevBot s) (- n_1)] | None => fc_zonesF s end).
    { destruct (fluid_fold _ _ _ _ Hs) as [A _]. destruct (A eq_refl) as [zs [A1 A2]].
      rewrite enumerate_from, enum_from_snd in A2. cbn [fc_zonesF s0 app] in A1.
      replace (match fc_fluid s with Some ft => _ | None => _ end) with zs; [assumption|].
      rewrite <- A1. unfold closed. destruct (fc_fluid s); [reflexivity|apply app_nil_r]. }
    rewrite enumerate_from in Hs. destruct (vm_layers (sm_vMod m)) as [|f ls] eqn:El; [discriminate|].
    assert (f = first) by (cbn in Hf; congruence). subst f.
    cbn [enum_from foldM] in Hs. inv_as Hs as s1 H1.
    pose proof (fc_step_out _ _ _ _ _ H1) as Q. cbv zeta in Q. rewrite Nf in Q.
    cbn [s0 fc_fluid fc_below opt_is andb orb fc_P fc_S fc_crit fc_prevBot] in Q.
    destruct Q as [B' [L' [F' [_ [EP' [ES' C']]]]]]. rewrite L' in ES'. cbn [andb] in ES'.
    assert (N0 : nth_error (vm_layers (sm_vMod m)) 0 = Some first) by (rewrite El; reflexivity).
    assert (Nb : ~ below_fluid (sm_vMod m) 0) by (intros [j [a [b [Hj _]]]]; lia).
    assert (EPo : ends_of (sm_vMod m) (sm_allowInnerCoreS m) true 0 first (sl_topP (fc_P s1)) (sl_botP (fc_P s1)))
      by (left; auto).
    assert (ESo : ends_of (sm_vMod m) (sm_allowInnerCoreS m) false 0 first (sl_topP (fc_S s1)) (sl_botP (fc_S s1))).
    { eapply ends_of_false; [|exact ES']. unfold s_as_p, fluid_layer. rewrite Nf. intuition discriminate. }
    assert (At : at_layer m 0 first s1).
    { split; [assumption|]. split; [rewrite F', Nf; reflexivity|].
      split; [rewrite L'; intuition discriminate|]. auto. }
    assert (TS : sl_topP cS = sl_topP (fc_S s1) /\ sl_botP cS = sl_topP (fc_S s1)).
    { destruct HcS as [X1 X2], ES' as [X3 _]. cbn [vl_surface vl_topS vl_botS vl_topDepth vl_botDepth] in X1, X2.
      split; congruence. }
    assert (TP : sl_topP cP = sl_topP (fc_P s1) /\ sl_botP cP = sl_topP (fc_P s1)).
    { destruct HcP as [X1 X2], EP' as [X3 _]. cbn [vl_surface vl_topP vl_botP vl_topDepth vl_botDepth] in X1, X2.
      split; congruence. }
    destruct TS as [TS1 TS2], TP as [TP1 TP2]. rewrite TS1, TS2, TP1, TP2 in C'.
    assert (J : (jumps (sl_topP (fc_S s1)) (sl_topP (fc_S s1)) (sl_topP (fc_S s1)) (sl_botP (fc_S s1))
          || jumps (sl_topP (fc_P s1)) (sl_topP (fc_P s1)) (sl_topP (fc_P s1)) (sl_botP (fc_P s1))) = true <->
          surface_quirk (sm_vMod m) (sm_allowInnerCoreS m)).
    { assert (K : forall pt pb ct cb : T, jumps pt pb ct cb = true <-> (pb =? ct = false \/ (pt - pb) * (pb - cb) <? n_0 = true)).
      { intros. unfold jumps. rewrite orb_true_iff, negb_true_iff. reflexivity. }
      rewrite orb_true_iff, !K. unfold surface_quirk. split.
      - intros [X|X]; exists first; [exists false|exists true]; do 2 eexists;
          (split; [assumption|]; split; [eassumption|exact X]).
      - intros [v [w [tp [bp [Hv [E X]]]]]]. assert (v = first) by congruence. subst.
        destruct w; [right|left].
        + destruct (ends_of_fun _ _ _ _ _ _ _ _ _ EPo E) as [-> ->]. exact X.
        + destruct (ends_of_fun _ _ _ _ _ _ _ _ _ ESo E) as [-> ->]. exact X. }
    destruct (crit_fold m ls 0 first s1 s At N0) as [out [O1 O2]].
    { intros k v Hk. rewrite El. exact Hk. }
    { exact Hs. }
    destruct (_ || _) in C', J.
    - exists ((0%nat, first) :: out). split; [constructor; [apply J; reflexivity|assumption]|].
      split; [|assumption]. rewrite O2, C'. unfold getNumLayers. rewrite El. cbn [map cd_of fst snd].
      rewrite <- !app_assoc. reflexivity.
    - exists out. split; [constructor; [intros X; apply J in X; discriminate|assumption]|].
      split; [|assumption]. rewrite O2, C'. unfold getNumLayers. rewrite El.
      rewrite <- !app_assoc. reflexivity.
  Qed.
End Crit.

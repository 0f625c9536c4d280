(** Proofs for property C62. *)
From Coq Require Import ZArith Bool List String Reals Lia Lra Permutation.
From Verif Require Import Base Num PyStr VelocityModel SlowRealProofs SlownessLayer SlownessModel TauModel Legs SeismicPhase Pierce
  TauPTime Views TauSpec SplitSpec TauSplitProofs TauProps AddSpec.
Import ListNotations.
Local Open Scope list_scope.
Local Open Scope num_scope.

Section Free.
  Context {T : Type} {N : Num T} {L : Libm T}.
  Variable show : T -> string.

  Lemma look_true : forall (a : T) l, look_for a true l = true.
  Proof. intros a. induction l as [|b l IH]; [reflexivity|]. cbn [look_for]. destruct (a =? b); [reflexivity|assumption]. Qed.

  Lemma look_all_spec : forall (adds : list T) b l,
    look_for_all adds false (b :: l) = negb (forallb (fun a => a =? b) adds).
  Proof.
    induction adds as [|a adds IH]; intros b l; [reflexivity|]. cbn [look_for_all look_for forallb].
    destruct (a =? b); cbn [andb negb].
    - apply IH.
    - rewrite look_true. reflexivity.
  Qed.

  (** a model is used again only if all added depths are at the top *)
  Lemma must_spec : forall (t : tmodel T) adds depth,
    (mustRecalc t adds depth = Ok false <->
      tm_sourceDepth t =? depth = true /\
      (adds = [] \/ exists b bs, tm_P t = b :: bs /\ forall a, In a adds -> a =? tb_top b = true)) /\
    (mustRecalc t adds depth = Ok true <->
      tm_sourceDepth t =? depth = false \/
      exists b bs a, tm_P t = b :: bs /\ In a adds /\ a =? tb_top b = false).
  Proof.
    intros t adds depth. unfold mustRecalc.
    destruct (tm_sourceDepth t =? depth) eqn:Es.
    2:{ split; split; try discriminate; [intros [F _]; discriminate|auto|auto]. }
    destruct adds as [|x adds].
    { split; split; auto; try discriminate. intros [F|[? [? [? [_ [[] _]]]]]]. discriminate. }
    assert (HA : x :: adds <> []) by discriminate. remember (x :: adds) as A eqn:EA.
    clear EA x adds. destruct (tm_P t) as [|b bs] eqn:EP.
    - rewrite (proj2 (C25_branch_depths t) EP). cbn [bind]. split; split; try discriminate.
      + intros [_ [F|[? [? [F _]]]]]; [contradiction|discriminate].
      + intros [F|[? [? [? [F _]]]]]; discriminate.
    - rewrite (proj2 (proj1 (C25_branch_depths t) _) (ex_intro _ b (ex_intro _ bs (conj EP eq_refl)))). cbn [bind].
      rewrite look_all_spec. split; split.
      + intros H. injection H as H. split; [reflexivity|]. right. exists b, bs. split; [reflexivity|].
        apply negb_false_iff in H. rewrite forallb_forall in H. exact H.
      + intros [_ [F|[b' [bs' [E F]]]]]; [contradiction|]. injection E as <- <-. apply f_equal, negb_false_iff.
        apply forallb_forall. exact F.
      + intros H. injection H as H. right. apply negb_true_iff in H.
        assert (X : exists a, In a A /\ a =? tb_top b = false).
        { clear - H. induction A as [|a A IH]; [discriminate|]. cbn [forallb] in H. apply andb_false_iff in H. destruct H as [H|H].
          - exists a. split; [left; reflexivity|assumption].
          - destruct (IH H) as [a' [Hi Ha]]. exists a'. split; [right; assumption|assumption]. }
        destruct X as [a [Hi Ha]]. exists b, bs, a. auto.
      + intros [F|[b' [bs' [a [E [Hi Ha]]]]]]; [discriminate|]. injection E as <- <-. apply f_equal, negb_true_iff.
        destruct (forallb _ A) eqn:F; [|reflexivity]. rewrite forallb_forall in F. rewrite (F _ Hi) in Ha. discriminate.
  Qed.

  (** splitBranch changes only the slowness model of its receiver *)
  Lemma splitBranch_self : forall fuel w (t : tmodel T) x w' self d,
    splitBranch fuel w t x = Ok (w', self, d) -> self = with_sMod t (tm_sMod self).
  Proof.
    intros fuel w t x w' self d H. unfold splitBranch in H. if_eq H E.
    - injection H as _ <- _. destruct t; reflexivity.
    - destruct (splitLayer fuel (tm_sMod t) x false) as [[self1 iS]| |]; cbn [bind] in H; try discriminate H.
      destruct (insert_rp iS _ _) as [rp1 i1]. destruct (splitLayer fuel _ x true) as [[recv2 iP]| |]; cbn [bind] in H; try discriminate H.
      destruct (insert_rp iP _ _) as [rp2 i2]. destruct (findBranch t x) as [nb| |]; cbn [bind] in H; try discriminate H.
      destruct (split_branches _ _ true _ _ _ _ _ _ _ _) as [P| |]; cbn [bind] in H; try discriminate H.
      destruct (split_branches _ _ false _ _ _ _ _ _ _ _) as [S'| |]; cbn [bind] in H; try discriminate H.
      injection H as _ <- _. reflexivity.
  Qed.
  Lemma depthCorrect_self : forall fuel w (t : tmodel T) x w' self d,
    tm_depthCorrect fuel w t x = Ok (w', self, d) -> self = with_sMod t (tm_sMod self).
  Proof.
    intros fuel w t x w' self d H. unfold tm_depthCorrect in H. if_eq H E; [discriminate|]. if_eq H E2; [discriminate|].
    destruct (splitBranch fuel w t x) as [[[w1 s1] d1]| |] eqn:E3; cbn [bind] in H; try discriminate H.
    destruct (findBranch d1 x) as [sb| |]; cbn [bind] in H; try discriminate H. injection H as _ <- _.
    exact (splitBranch_self _ _ _ _ _ _ _ E3).
  Qed.
  Lemma recalc_tMod : forall w (s s' : ttime T), recalcPhases show w s = Ok s' -> tt_tMod s' = tt_tMod s /\ tt_tModDepth s' = tt_tModDepth s.
  Proof.
    intros w s s' H. unfold recalcPhases in H.
    match type of H with bind ?c _ = _ => destruct c as [phs| |]; cbn [bind] in H; try discriminate H end.
    injection H as <-. auto.
  Qed.

  (** without added depths everything is done as for travel times *)
  Lemma no_adds : forall fuel w (s : ttime T) depth,
    pp_depthCorrect show fuel w s [] depth = tt_depthCorrect show fuel w s depth.
  Proof.
    intros fuel w s depth. unfold pp_depthCorrect, mustRecalc.
    destruct (tm_sourceDepth (tt_tModDepth s) =? depth) eqn:E; cbn [bind negb]; [reflexivity|].
    unfold tt_depthCorrect. rewrite E. cbn [negb split_all bind].
    destruct (tm_depthCorrect fuel w (tt_tMod s) depth) as [[[w1 self] d1]| |] eqn:Ed; cbn [bind]; [|reflexivity|reflexivity].
    destruct (recalcPhases show w1 _) as [s'| |] eqn:Er; cbn [bind]; [|reflexivity|reflexivity].
    apply recalc_tMod in Er. cbn [tt_tMod] in Er. destruct Er as [Er _].
    rewrite <- (depthCorrect_self _ _ _ _ _ _ _ Ed). rewrite Er. reflexivity.
  Qed.

  Lemma pierce_same : forall fuel (ph : phase T) deg l, calcPierce fuel ph deg = Ok l ->
    exists l0, ph_calcTime fuel ph deg = Ok l0 /\ Forall2 same_arrival l0 l.
  Proof.
    intros fuel ph deg l H. unfold calcPierce in H. destruct (ph_calcTime fuel ph deg) as [l0| |]; cbn [bind] in H; try discriminate H.
    exists l0. split; [reflexivity|]. revert l H. induction l0 as [|a l0 IH]; intros l H; cbn [mapM] in H.
    - injection H as <-. constructor.
    - destruct (calcPierceFromArrival ph a) as [a'| |] eqn:Ea; cbn [bind] in H; try discriminate H.
      destruct (mapM _ l0) as [l'| |]; cbn [bind] in H; try discriminate H. injection H as <-.
      constructor; [|apply IH; reflexivity]. clear IH. unfold calcPierceFromArrival in Ea.
      repeat match type of Ea with bind ?c _ = _ => destruct c as [?| |]; cbn [bind] in Ea; try discriminate Ea end.
      injection Ea as <-. repeat (split; [reflexivity|]). reflexivity.
  Qed.
  Lemma path_same : forall fuel (ph : phase T) deg l, calcPath fuel ph deg = Ok l ->
    exists l0, ph_calcTime fuel ph deg = Ok l0 /\ Forall2 same_arrival l0 l.
  Proof.
    intros fuel ph deg l H. unfold calcPath in H. destruct (ph_calcTime fuel ph deg) as [l0| |]; cbn [bind] in H; try discriminate H.
    exists l0. split; [reflexivity|]. revert l H. induction l0 as [|a l0 IH]; intros l H; cbn [mapM] in H.
    - injection H as <-. constructor.
    - destruct (calcPathFromArrival fuel ph a) as [a'| |] eqn:Ea; cbn [bind] in H; try discriminate H.
      destruct (mapM _ l0) as [l'| |]; cbn [bind] in H; try discriminate H. injection H as <-.
      constructor; [|apply IH; reflexivity]. clear IH. unfold calcPathFromArrival in Ea.
      repeat match type of Ea with bind ?c _ = _ => destruct c as [?| |]; cbn [bind] in Ea; try discriminate Ea end.
      injection Ea as <-. repeat (split; [reflexivity|]). reflexivity.
  Qed.

  Lemma insert_perm : forall (a : arrival T) l, Permutation (insert_arrival a l) (a :: l).
  Proof.
    intros a. induction l as [|b l IH]; [reflexivity|]. cbn [insert_arrival]. destruct (ar_time b <? ar_time a); [|reflexivity].
    rewrite IH. apply perm_swap.
  Qed.
  Lemma sort_perm : forall (l : list (arrival T)), Permutation (sortArrivals l) l.
  Proof. induction l as [|a l IH]; [reflexivity|]. cbn [sortArrivals fold_right]. rewrite insert_perm. constructor. exact IH. Qed.

  Lemma run_same : forall (calc : nat -> phase T -> T -> result (list (arrival T))) fuel order w (s : ttime T) pl depth degrees coords w' s',
    (forall ph deg l, calc fuel ph deg = Ok l -> exists l0, ph_calcTime fuel ph deg = Ok l0 /\ Forall2 same_arrival l0 l) ->
    view_run show (calc fuel) fuel order w s [] pl depth degrees coords = Ok (w', s') ->
    exists arrs s0, tt_rerun show fuel order w s pl depth degrees coords = Ok (w', s0) /\
      tt_tMod s0 = tt_tMod s' /\ tt_tModDepth s0 = tt_tModDepth s' /\ tt_phases s0 = tt_phases s' /\
      tt_arrivals s0 = sortArrivals arrs /\ Forall2 same_arrival arrs (tt_arrivals s').
  Proof.
    intros calc fuel order w s pl depth degrees coords w' s' Hs H. unfold view_run in H. unfold tt_rerun.
    destruct (query_degrees degrees coords) as [deg| |]; cbn [bind] in *; try discriminate H.
    rewrite no_adds in H. destruct (tt_depthCorrect show fuel w _ depth) as [[w1 s1]| |]; cbn [bind] in *; try discriminate H.
    unfold view_calculate in H. unfold calculate. rewrite no_adds in H.
    destruct (tt_depthCorrect show fuel w1 s1 _) as [[w2 s2]| |]; cbn [bind] in *; try discriminate H.
    destruct (recalcPhases show w2 s2) as [s3| |]; cbn [bind] in *; try discriminate H.
    unfold view_calc in H. unfold tt_calcTime.
    destruct (mapM (fun ph => calc fuel ph deg) (tt_phases s3)) as [ls| |] eqn:El; cbn [bind] in H; try discriminate H.
    injection H as <- <-.
    assert (X : exists ls0, mapM (fun ph => ph_calcTime fuel ph deg) (tt_phases s3) = Ok ls0 /\ Forall2 same_arrival (List.concat ls0) (List.concat ls)).
    { revert ls El. generalize (tt_phases s3). induction l as [|ph l IH]; intros ls El; cbn [mapM] in El.
      - injection El as <-. exists []. split; [reflexivity|constructor].
      - destruct (calc fuel ph deg) as [l1| |] eqn:E1; cbn [bind] in El; try discriminate El.
        destruct (mapM _ l) as [l2| |] eqn:E2; cbn [bind] in El; try discriminate El. injection El as <-.
        destruct (Hs _ _ _ E1) as [l0 [E0 F0]]. destruct (IH _ eq_refl) as [ls0 [E3 F3]].
        exists (l0 :: ls0). cbn [mapM]. rewrite E0. cbn [bind]. rewrite E3. cbn [bind List.concat]. split; [reflexivity|].
        apply Forall2_app; assumption. }
    destruct X as [ls0 [E0 F0]]. rewrite E0. cbn [bind].
    exists (List.concat ls0). eexists. split; [reflexivity|]. cbn [tt_tMod tt_tModDepth tt_phases tt_arrivals]. auto 6.
  Qed.
End Free.

(** ** added depths become branch boundaries *)
Section Added.
  Context {T : Type} {N : Num T} {O : NumOrd T} {L : Libm T}.
  Lemma splitBranch_P : forall fuel w (t : tmodel T) x w' self d, decreasing (tm_rayParams t) ->
    splitBranch fuel w t x = Ok (w', self, d) ->
    tm_rayParams d = tm_rayParams t /\ tm_radius d = tm_radius t /\ tm_sourceDepth d = tm_sourceDepth t /\
    ((at_edge (tm_P t) x /\ d = t) \/
     (~ at_edge (tm_P t) x /\ exists n b top bot, nth_error (tm_P t) n = Some b /\
        tm_P d = firstn n (tm_P t) ++ top :: bot :: skipn (S n) (tm_P t) /\
        parts x (tm_sMod d) true (tm_rayParams t) b top bot /\
        List.length (tm_S d) = S (List.length (tm_S t)))).
  Proof.
    intros fuel w t x w' self d Hd Hs. unfold splitBranch in Hs. if_eq Hs E3.
    - injection Hs as _ _ <-. do 3 (split; [reflexivity|]). left. split; [apply at_edge_b; assumption|reflexivity].
    - destruct (splitLayer fuel (tm_sMod t) x false) as [[self1 iS]| |]; cbn [bind] in Hs; try discriminate Hs.
      rewrite insert_rp_none in Hs by assumption.
      destruct (splitLayer fuel _ x true) as [[recv2 iP]| |]; cbn [bind] in Hs; try discriminate Hs.
      rewrite insert_rp_none in Hs by assumption.
      destruct (findBranch t x) as [nb| |]; cbn [bind] in Hs; try discriminate Hs.
      destruct (split_branches _ _ true _ _ _ _ _ _ _ _) as [P| |] eqn:HP; cbn [bind] in Hs; try discriminate Hs.
      destruct (split_branches _ _ false _ _ _ _ _ _ _ _) as [S'| |] eqn:HS; cbn [bind] in Hs; try discriminate Hs.
      injection Hs as _ _ <-. cbn [tm_rayParams tm_radius tm_sourceDepth tm_P tm_S tm_sMod].
      do 3 (split; [reflexivity|]). right.
      split; [intros F; apply at_edge_b in F; congruence|].
      apply split_branches_spec in HP. destruct HP as [b [top [bot [Hb [-> Hp]]]]].
      apply split_branches_spec in HS. destruct HS as [b' [top' [bot' [Hb' [-> _]]]]].
      exists (Z.to_nat nb), b, top, bot. split; [assumption|]. split; [reflexivity|]. split; [assumption|].
      assert (Ln : (Z.to_nat nb < List.length (tm_S t))%nat) by (apply nth_error_Some; congruence).
      rewrite app_length, firstn_length. cbn [List.length]. rewrite skipn_length. lia.
  Qed.
End Added.

Local Open Scope R_scope.
Section Near.
  Context {L : Libm R}.
  Local Notation mm := (/ 10 ^ 6).
  Lemma mm_R : @n_lit R Num_R 1 (-6) = mm.
  Proof. change (@n_lit R Num_R) with Rlit. unfold Rlit, powerRZ. simpl. lra. Qed.
  Lemma mm_pos : 0 < mm.
  Proof. apply Rinv_0_lt_compat, pow_lt. lra. Qed.
  Lemma close_R : forall x y : R, close x y -> Rabs (x - y) < mm.
  Proof. intros x y H. unfold close in H. rewrite mm_R in H. apply Rltb_lt in H. exact H. Qed.

  Lemma parts_R : forall x m w rp (b top bot : tbranch R), parts x m w rp b top bot ->
    tb_top bot = tb_bot top /\ tb_bot bot = tb_bot b /\
    Rabs (tb_bot top - x) < mm /\ Rabs (tb_top top - tb_top b) < mm.
  Proof.
    intros x m w rp b top bot P. pose proof mm_pos as Hm. unfold parts in P.
    destruct P as [_ [_ [_ [P1 [P2 [_ [_ [_ [_ [_ [_ [_ [_ [_ [_ [_ [_ [y [z [_ [_ P]]]]]]]]]]]]]]]]]]]]].
    split; [exact P1|]. split; [exact P2|].
    assert (Z0 : forall u : R, Rabs (u - u) < mm) by (intros u; replace (u - u) with 0 by ring; rewrite Rabs_R0; exact Hm).
    destruct P as [[_ [_ [-> ->]]]|[[-> [_ [C ->]]]|[-> [_ [C ->]]]]]; auto using close_R.
  Qed.

  Lemma near_more : forall n m bs a, (n <= m)%nat -> edge_near n bs a -> edge_near m bs a.
  Proof.
    intros n m bs a Hn [b [Hb H]]. exists b. split; [exact Hb|].
    assert (INR n * mm <= INR m * mm) by (apply Rmult_le_compat_r; [left; exact mm_pos|apply le_INR; exact Hn]).
    destruct H; [left|right]; lra.
  Qed.
  Lemma in_parts : forall (l : list (tbranch R)) n b c, nth_error l n = Some b -> In c l -> c = b \/ In c (firstn n l) \/ In c (skipn (S n) l).
  Proof.
    intros l n b c Hn Hc. apply nth_error_split in Hn. destruct Hn as [l1 [l2 [-> <-]]].
    rewrite firstn_app, Nat.sub_diag, firstn_all, app_nil_r.
    replace (S (List.length l1)) with (List.length (l1 ++ [b])) by (rewrite app_length; cbn [List.length]; lia).
    replace (l1 ++ b :: l2)%list with ((l1 ++ [b]) ++ l2)%list by (rewrite <- app_assoc; reflexivity).
    rewrite skipn_app, skipn_all, Nat.sub_diag. cbn [app skipn].
    apply in_app_iff in Hc. destruct Hc as [Hc|Hc]; [auto|]. destruct Hc as [<-|Hc]; auto.
  Qed.
  Lemma near_split : forall k l n b top bot x m w rp a, nth_error l n = Some b -> parts x m w rp b top bot ->
    edge_near k l a -> edge_near (S k) (firstn n l ++ top :: bot :: skipn (S n) l)%list a.
  Proof.
    intros k l n b top bot x m w rp a Hn P [c [Hc H]]. destruct (parts_R _ _ _ _ _ _ _ P) as [P1 [P2 [P3 P4]]].
    assert (Ek : INR (S k) * mm = INR k * mm + mm) by (rewrite S_INR; ring). pose proof mm_pos as Hm.
    destruct (in_parts _ _ _ _ Hn Hc) as [->|I].
    - destruct H as [H|H].
      + exists top. split; [apply in_or_app; right; left; reflexivity|]. left. rewrite Ek.
        replace (a - tb_top top) with ((a - tb_top b) - (tb_top top - tb_top b)) by ring.
        eapply Rle_trans; [apply Rabs_triang|]. rewrite Rabs_Ropp. lra.
      + exists bot. split; [apply in_or_app; right; right; left; reflexivity|]. right. rewrite P2, Ek. lra.
    - exists c. split; [apply in_or_app; destruct I as [I|I]; [left|right; right; right]; exact I|]. rewrite Ek. destruct H; [left|right]; lra.
  Qed.
  Lemma at_edge_near : forall l (x : R), at_edge l x -> edge_near 0 l x.
  Proof.
    intros l x [b [Hb H]]. exists b. split; [exact Hb|]. cbn [INR].
    destruct H as [H|H]; apply Reqb_eq in H; rewrite <- H; [left|right];
    (match goal with |- Rabs (?u - ?u) <= _ => replace (u - u) with 0 by ring end); rewrite Rabs_R0; lra.
  Qed.

  (** what splitting at [x] does to the branches *)
  Lemma split_near : forall fuel w (t : tmodel R) x w' self d, decreasing (tm_rayParams t) ->
    splitBranch fuel w t x = Ok (w', self, d) ->
    edge_near 1 (tm_P d) x /\ (forall k a, edge_near k (tm_P t) a -> edge_near (S k) (tm_P d) a) /\
    (forall b, In b (tm_P d) -> (exists c, In c (tm_P t) /\ tb_bot b = tb_bot c) \/ Rabs (tb_bot b - x) < mm) /\
    (forall c, In c (tm_P t) -> exists b, In b (tm_P d) /\ tb_bot b = tb_bot c) /\
    (List.length (tm_P d) - List.length (tm_P t) = List.length (tm_S d) - List.length (tm_S t))%nat /\
    (List.length (tm_P t) <= List.length (tm_P d))%nat /\ (List.length (tm_S t) <= List.length (tm_S d))%nat.
  Proof.
    intros fuel w t x w' self d Hd H. destruct (splitBranch_P _ _ _ _ _ _ _ Hd H) as [_ [_ [_ [[He ->]|[_ [n [b [top [bot [Hn [E [P Ls]]]]]]]]]]]].
    - split; [apply (near_more 0); [lia|apply at_edge_near; exact He]|].
      split; [intros k a; apply near_more; lia|]. split; [intros b Hb; left; exists b; auto|]. split; [intros c Hc; exists c; auto|]. lia.
    - destruct (parts_R _ _ _ _ _ _ _ P) as [P1 [P2 [P3 P4]]].
      assert (Ln : (n < List.length (tm_P t))%nat) by (apply nth_error_Some; congruence).
      assert (Le : List.length (tm_P d) = S (List.length (tm_P t))).
      { rewrite E, app_length, firstn_length. cbn [List.length]. rewrite skipn_length. lia. }
      split; [|split; [|split; [|split]]].
      + exists top. rewrite E. split; [apply in_or_app; right; left; reflexivity|]. right. cbn [INR].
        rewrite Rabs_minus_sym. lra.
      + intros k a Ha. rewrite E. exact (near_split _ _ _ _ _ _ _ _ _ _ _ Hn P Ha).
      + intros c Hc. rewrite E in Hc. apply in_app_iff in Hc. destruct Hc as [Hc|[<-|[<-|Hc]]].
        * left. exists c. split; [|reflexivity]. rewrite <- (firstn_skipn n). apply in_or_app. left. exact Hc.
        * right. exact P3.
        * left. exists b. split; [exact (nth_error_In _ _ Hn)|exact P2].
        * left. exists c. split; [|reflexivity]. rewrite <- (firstn_skipn (S n)). apply in_or_app. right. exact Hc.
      + intros c Hc. rewrite E. destruct (in_parts _ _ _ _ Hn Hc) as [->|[I|I]].
        * exists bot. split; [apply in_or_app; right; right; left; reflexivity|exact P2].
        * exists c. split; [apply in_or_app; left; exact I|reflexivity].
        * exists c. split; [apply in_or_app; right; right; right; exact I|reflexivity].
      + lia.
  Qed.

  Lemma split_all_near : forall fuel adds w orig shared (t : tmodel R) w' orig' shared' d, decreasing (tm_rayParams t) ->
    split_all fuel w orig shared t adds = Ok (w', orig', shared', d) ->
    tm_rayParams d = tm_rayParams t /\ tm_radius d = tm_radius t /\ tm_sourceDepth d = tm_sourceDepth t /\
    (forall a, In a adds -> edge_near (List.length adds) (tm_P d) a) /\
    (forall k a, edge_near k (tm_P t) a -> edge_near (List.length adds + k) (tm_P d) a) /\
    (forall b, In b (tm_P d) -> (exists c, In c (tm_P t) /\ tb_bot b = tb_bot c) \/ exists x, In x adds /\ Rabs (tb_bot b - x) < mm) /\
    (forall c, In c (tm_P t) -> exists b, In b (tm_P d) /\ tb_bot b = tb_bot c) /\
    (List.length (tm_P d) - List.length (tm_P t) = List.length (tm_S d) - List.length (tm_S t))%nat /\
    (List.length (tm_P t) <= List.length (tm_P d))%nat /\ (List.length (tm_S t) <= List.length (tm_S d))%nat.
  Proof.
    intros fuel adds. induction adds as [|x adds IH]; intros w orig shared t w' orig' shared' d Hd H; cbn [split_all] in H.
    - injection H as _ _ _ <-. do 3 (split; [reflexivity|]). split; [intros a []|]. split; [intros k a Ha; exact Ha|].
      split; [intros b Hb; left; exists b; auto|]. split; [intros c Hc; exists c; auto|]. lia.
    - destruct (splitBranch fuel w t x) as [[[w1 self] t1]| |] eqn:E1; cbn [bind] in H; try discriminate H.
      destruct (splitBranch_P _ _ _ _ _ _ _ Hd E1) as [R1 [R2 [R3 _]]].
      destruct (split_near _ _ _ _ _ _ _ Hd E1) as [A1 [A2 [A3 [A4 [A5 [A6 A7]]]]]].
      assert (Hd1 : decreasing (tm_rayParams t1)) by (rewrite R1; exact Hd).
      destruct (IH _ _ _ _ _ _ _ _ Hd1 H) as [B1 [B2 [B3 [B4 [B5 [B6 [B7 [B8 [B9 B10]]]]]]]]].
      split; [congruence|]. split; [congruence|]. split; [congruence|].
      split; [|split; [|split; [|split; [|lia]]]].
      + intros a [<-|Ha].
        * apply B5 in A1. revert A1. apply near_more. cbn [List.length]. lia.
        * apply (near_more (List.length adds)); [cbn [List.length]; lia|apply B4; exact Ha].
      + intros k a Ha. apply A2, B5 in Ha. revert Ha. apply near_more. cbn [List.length]. lia.
      + intros b Hb. destruct (B6 b Hb) as [[c [Hc Ec]]|[y [Hy Ey]]].
        * destruct (A3 c Hc) as [[c' [Hc' Ec']]|Ec']; [left; exists c'; split; [exact Hc'|congruence]|].
          right. exists x. split; [left; reflexivity|]. rewrite Ec. exact Ec'.
        * right. exists y. split; [right; exact Hy|exact Ey].
      + intros c Hc. destruct (A4 c Hc) as [b1 [Hb1 E2]]. destruct (B7 b1 Hb1) as [b2 [Hb2 E3]]. exists b2. split; [exact Hb2|congruence].
  Qed.
End Near.

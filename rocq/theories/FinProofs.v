(** Which parts of the code always come to an end: lemmas (property C68). *)
From Coq Require Import ZArith Bool List String Arith Lia Reals Lra.
From Verif Require Import Base Num PyStr VelocityModel SlownessLayer SlownessModel TauModel Legs
  SeismicPhase Pierce TauPTime SlowSpec SlowProofs SlowAddProofs SlowProps TimeProps StackProofs.
Import ListNotations.

(** the call returns or raises an exception *)
Definition fin {A} (r : result A) : Prop := r <> Diverge.

Lemma fin_bind : forall A B (r : result A) (f : A -> result B), fin r -> (forall a, r = Ok a -> fin (f a)) -> fin (bind r f).
Proof. intros A B [a|e|] f Hr Hf; cbn [bind]; [apply Hf; reflexivity|discriminate|destruct (Hr eq_refl)]. Qed.
Lemma fin_foldM : forall A B (f : B -> A -> result B) l, (forall b a, fin (f b a)) -> forall b, fin (foldM f l b).
Proof.
  intros A B f l H. induction l as [|a l IH]; intros b; cbn [foldM]; [discriminate|]. apply fin_bind; [apply H|]. intros. apply IH.
Qed.
Lemma fin_mapM : forall A B (f : A -> result B) l, (forall a, fin (f a)) -> fin (mapM f l).
Proof.
  intros A B f l H. induction l as [|a l IH]; cbn [mapM]; [discriminate|]. apply fin_bind; [apply H|]. intros.
  apply fin_bind; [exact IH|]. intros. discriminate.
Qed.

Create HintDb fin discriminated.
#[global] Hint Constants Opaque : fin.
#[global] Hint Variables Opaque : fin.
Ltac fins :=
  cbv beta zeta;
  repeat first
    [ lazymatch goal with
      | |- fin (Ok _) => discriminate
      | |- fin (Raise _) => discriminate
      | |- fin (bind _ _) => apply fin_bind; [|intros]
      | |- fin (foldM _ _ _) => apply fin_foldM; intros
      | |- fin (mapM _ _) => apply fin_mapM; intros
      | |- fin (match ?x with _ => _ end) =>
          first [ let H := fresh in
                  assert (H : fin x) by (solve [auto 2 with fin]); revert H; destruct x; intros H;
                  [ | | exfalso; exact (H eq_refl) ]
                | destruct x ]
      | |- fin ((fun _ => _) _) => cbv beta
      end
    | solve [auto 2 with fin] ].

Section Basics.
  Lemma f_index : forall A (l : list A) i, fin (py_index l i).
  Proof. intros. unfold py_index. fins. Qed.
  Lemma f_set : forall A (l : list A) i a, fin (py_setitem l i a).
  Proof. intros. unfold py_setitem. fins. Qed.
  Lemma f_guard : forall b e, fin (guard b e).
  Proof. intros. unfold guard. fins. Qed.
  Lemma f_get : forall s i, fin (str_get s i).
  Proof. intros. unfold str_get. fins. Qed.
  Lemma f_npdiv : forall a b : R, fin (np_div a b).
  Proof. intros. cbn [np_div Num_R]. fins. Qed.
  Lemma f_div : forall a b : R, fin (py_div a b).
  Proof. intros. unfold py_div. fins. Qed.
  Lemma f_pow_e : forall e x y, fin (Rpow_e e x y).
  Proof. intros. unfold Rpow_e. fins. Qed.
  Lemma f_sqrt : forall x : R, fin (m_sqrt x).
  Proof. intros. cbn [m_sqrt Libm_R]. fins. Qed.
  Lemma f_log : forall x : R, fin (m_log x).
  Proof. intros. cbn [m_log Libm_R]. fins. Qed.
  Lemma f_exp : forall x : R, fin (m_exp x).
  Proof. intros. cbn [m_exp Libm_R]. fins. Qed.
  Lemma f_pow : forall x y : R, fin (m_pow x y).
  Proof. intros. cbn [m_pow Libm_R]. apply f_pow_e. Qed.
  Lemma f_nppow : forall x y : R, fin (m_nppow x y).
  Proof. intros. cbn [m_nppow Libm_R]. apply f_pow_e. Qed.
  Lemma f_sin : forall x : R, fin (m_sin x).
  Proof. intros. cbn [m_sin Libm_R]. fins. Qed.
  Lemma f_cos : forall x : R, fin (m_cos x).
  Proof. intros. cbn [m_cos Libm_R]. fins. Qed.
  Lemma f_asin : forall x : R, fin (m_asin x).
  Proof. intros. cbn [m_asin Libm_R]. fins. Qed.
  Lemma f_acos : forall x : R, fin (m_acos x).
  Proof. intros. cbn [m_acos Libm_R]. fins. Qed.
  Lemma f_atan2 : forall x y : R, fin (m_atan2 x y).
  Proof. intros. cbn [m_atan2 Libm_R]. fins. Qed.
  Lemma f_mod : forall x y : R, fin (m_mod x y).
  Proof. intros. cbn [m_mod Libm_R]. fins. Qed.
  Lemma f_none : forall A (o : option A), fin (not_none o).
  Proof. intros. unfold not_none. fins. Qed.
End Basics.
#[global] Hint Resolve f_index f_set f_guard f_get f_npdiv f_div f_sqrt f_log f_exp f_pow f_nppow f_sin f_cos f_asin f_acos f_atan2 f_mod f_none : fin.

Section Layers.
  Implicit Types m : smodel R.
  Lemma f_vtop : forall (l : vlayer R) s, fin (evaluateAtTop l s).
  Proof. intros. unfold evaluateAtTop. fins. Qed.
  Lemma f_vbot : forall (l : vlayer R) s, fin (evaluateAtBottom l s).
  Proof. intros. unfold evaluateAtBottom. fins. Qed.
  Lemma f_vat : forall (l : vlayer R) d s, fin (evaluateAt l d s).
  Proof. intros. unfold evaluateAt. fins. Qed.
  Lemma f_vago : forall (l : list (vlayer R)) i d, fin (v_above_go i l d).
  Proof. intros l. induction l; intros; cbn [v_above_go]; fins. Qed.
  Lemma f_vbgo : forall (l : list (vlayer R)) i d, fin (v_below_go i l d).
  Proof. intros l. induction l; intros; cbn [v_below_go]; fins. Qed.
  Hint Resolve f_vtop f_vbot f_vat f_vago f_vbgo : fin.
  Lemma f_vabove : forall (v : vmodel R) d, fin (v_layerNumberAbove v d).
  Proof. intros. unfold v_layerNumberAbove. fins. Qed.
  Lemma f_vbelow : forall (v : vmodel R) d, fin (v_layerNumberBelow v d).
  Proof. intros. unfold v_layerNumberBelow. fins. Qed.
  Hint Resolve f_vabove f_vbelow : fin.
  Lemma f_evabove : forall (v : vmodel R) d s, fin (evaluateAbove v d s).
  Proof. intros. unfold evaluateAbove. fins. Qed.
  Lemma f_evbelow : forall (v : vmodel R) d s, fin (evaluateBelow v d s).
  Proof. intros. unfold evaluateBelow. fins. Qed.
  Lemma f_vval : forall v : vmodel R, fin (v_validate v).
  Proof. intros. unfold v_validate. fins. Qed.
  Lemma f_dtop : forall (v : vmodel R) i, fin (depthAtTop v i).
  Proof. intros. unfold depthAtTop. fins. Qed.
  Lemma f_dbot : forall (v : vmodel R) i, fin (depthAtBottom v i).
  Proof. intros. unfold depthAtBottom. fins. Qed.
  Lemma f_deg : forall a : timedist R, fin (td_distDeg a).
  Proof. intros. unfold td_distDeg. fins. Qed.
  Lemma f_slval : forall l : slayer R, fin (sl_validate l).
  Proof. intros. unfold sl_validate. fins. Qed.
  Hint Resolve f_slval : fin.
  Lemma f_new : forall i (a b c d : R), fin (new_slayer i a b c d).
  Proof. intros. unfold new_slayer. fins. Qed.
  Lemma f_bullen : forall (l : slayer R) p rad, fin (bullenRadialSlowness l p rad).
  Proof. intros. unfold bullenRadialSlowness. fins. Qed.
  Lemma f_inf : fin (np_inf : result R).
  Proof. unfold np_inf. fins. Qed.
  Lemma f_temp : forall i (l : slayer R) p rad, fin i -> fin (bullen_tempDepth i l p rad).
  Proof. intros i l p rad Hi. unfold bullen_tempDepth. fins; try exact Hi. Qed.
  Hint Resolve f_inf f_temp f_new f_bullen f_evabove f_evbelow f_vval f_dtop f_dbot f_deg : fin.
  Lemma f_depthfor : forall (l : slayer R) p rad, fin (bullenDepthFor l p rad).
  Proof. intros. unfold bullenDepthFor. fins. Qed.
  Lemma f_evbullen : forall (l : slayer R) d rad, fin (evaluateAtBullen l d rad).
  Proof. intros. unfold evaluateAtBullen. fins. Qed.
  Lemma f_from : forall i (v : vlayer R) w, fin (create_from_vlayer i v w).
  Proof. intros. unfold create_from_vlayer. fins. Qed.
  Lemma f_layer : forall m i w, fin (getSlownessLayer m i w).
  Proof. intros. unfold getSlownessLayer. fins. Qed.
  Lemma f_toslow : forall r v d : R, fin (toSlowness r v d).
  Proof. intros. unfold toSlowness. fins. Qed.
  Lemma f_interp : forall r p v d s : R, fin (interpolate r p v d s).
  Proof. intros. unfold interpolate. fins. Qed.
  Hint Resolve f_depthfor f_evbullen f_from f_layer f_toslow f_interp : fin.
  Lemma f_fdgo : forall l (v : vmodel R) r tol fl p t w b, fin (findDepth_go v r tol fl p t w l b).
  Proof. intros l. induction l; intros; cbn [findDepth_go]; fins. Qed.
  Hint Resolve f_fdgo : fin.
  Lemma f_fd : forall m fl p t b w, fin (findDepth m fl p t b w).
  Proof. intros. unfold findDepth. fins. Qed.
  Hint Resolve f_fd : fin.
  Lemma f_fdd : forall m p t b w, fin (findDepth_from_depths m p t b w).
  Proof. intros. unfold findDepth_from_depths. fins. Qed.
  Lemma f_fc : forall m s nl, fin (fc_step m s nl).
  Proof. intros. unfold fc_step. fins. Qed.
  Lemma f_sval : forall (l : list (slayer R)) r a b, fin (slayers_validate r a b l).
  Proof. intros l. induction l; intros; cbn [slayers_validate]; fins. Qed.
  Hint Resolve f_fdd f_fc f_sval : fin.
  Lemma f_check : forall r (l : list (slayer R)), fin (slayers_check r l).
  Proof. intros. unfold slayers_check. fins. Qed.
  Hint Resolve f_check : fin.
  Lemma f_valid : forall m, fin (sm_validate m).
  Proof. intros. unfold sm_validate. fins. Qed.
  Hint Resolve f_valid : fin.
  Lemma f_crit : forall m, fin (findCriticalPoints m).
  Proof. intros. unfold findCriticalPoints. fins. Qed.
  Lemma f_up : forall n m w d t, fin (walk_up m w d n t).
  Proof. intros n. induction n; intros; cbn [walk_up]; fins. Qed.
  Lemma f_down : forall n m w d c t, fin (walk_down m w d n c t).
  Proof. intros n. induction n; intros; cbn [walk_down]; fins. Qed.
  Lemma f_lv : forall (v : vmodel R) w s, fin (layer_velocities v w s).
  Proof. intros. unfold layer_velocities. fins. Qed.
  Lemma f_pair : forall r p tv bv (s : slayer R) n, fin (split_pair r p tv bv s n).
  Proof. intros. unfold split_pair. fins. Qed.
  Lemma f_add : forall m p w, fin (addSlowness m p w).
  Proof. intros. exact (C21_terminates _ _ _). Qed.
  Hint Resolve f_crit f_up f_down f_lv f_pair f_add : fin.
  Lemma f_cs : forall m st l, fin (coarse_step m st l).
  Proof. intros. unfold coarse_step. fins. Qed.
  Lemma f_both : forall m p, fin (addBoth m p).
  Proof. intros. unfold addBoth. fins. Qed.
  Hint Resolve f_cs f_both : fin.
  Lemma f_ray : forall m y, fin (rayInc_body m y).
  Proof. intros. unfold rayInc_body. fins. Qed.
  Lemma f_dp : forall m b d, fin (depthInc_p m b d).
  Proof. intros. unfold depthInc_p. fins. Qed.
  Hint Resolve f_dp : fin.
  Lemma f_dep : forall b m y, fin (depthInc_body b m y).
  Proof. intros. unfold depthInc_body. fins. Qed.
  Lemma f_const : forall t p a b c : R, fin (constVelTimeDist t p a b c).
  Proof. intros. unfold constVelTimeDist. fins. Qed.
  Hint Resolve f_const : fin.
  Lemma f_ltd : forall m p n w, fin (layerTimeDist m p n w).
  Proof. intros. unfold layerTimeDist. fins. Qed.
  Hint Resolve f_ltd : fin.
  Lemma f_approx : forall m n p w, fin (approxDistance m n p w).
  Proof. intros. unfold approxDistance. fins. Qed.
  Lemma f_far : forall a b c d e f : R, fin (interp_far a b c d e f).
  Proof.
    intros. unfold interp_far. pose proof (f_npdiv d e). destruct (np_div d e) as [|x|]; [discriminate|destruct x; discriminate|contradiction].
  Qed.
  Hint Resolve f_approx f_far : fin.
  Lemma f_dcb : forall w s, fin (dc_body w s : result (dcstate + smodel R)).
  Proof. intros. unfold dc_body. fins. Qed.
  Lemma f_mt : forall (l : list (slayer R)) r d p, fin (minTurn_go r d l p).
  Proof. intros l. induction l; intros; cbn [minTurn_go]; fins. Qed.
  Lemma f_fo : forall r p w st (ny : Z * slayer R), fin (fixOther_step r p w st ny).
  Proof. intros. unfold fixOther_step. fins. Qed.
  Hint Resolve f_mt f_fo : fin.
  Lemma f_fol : forall r ls p (a b c : slayer R) cr w n, fin (fixOtherLayers r ls p a b c cr w n).
  Proof. intros. unfold fixOtherLayers. fins. Qed.
  Lemma f_ctd : forall n m w p k y td, fin (ctd_go m w p n k y td).
  Proof. intros n. induction n; intros; cbn [ctd_go]; fins. Qed.
  Hint Resolve f_fol f_ctd : fin.
  Lemma f_ct : forall m w mx a b p, fin (calcTimeDist m w mx a b p).
  Proof. intros. unfold calcTimeDist. fins. Qed.
  Lemma f_ends : forall t b (x y : slayer R), fin (branch_ends t b x y).
  Proof. intros. unfold branch_ends. fins. Qed.
  Lemma f_sum : forall l m w rp td, fin (insert_sum m w rp l td).
  Proof. intros l. induction l; intros; cbn [insert_sum]; fins. Qed.
  Lemma f_db : forall (o t : list R) n i j a b, fin (diff_both o t n i j a b).
  Proof. intros. unfold diff_both. fins. Qed.
  Lemma f_push : forall c acc (x : timedist R), fin (path_push c acc x).
  Proof. intros. unfold path_push. fins. Qed.
  Lemma f_turn : forall m y p, fin (turn_td m y p).
  Proof. intros. unfold turn_td. fins. Qed.
  Hint Resolve f_ct f_ends f_sum f_db f_push f_turn : fin.
  Lemma f_pd : forall n m w p c k y acc, fin (path_down m w p c n k y acc).
  Proof. intros n. induction n; intros; cbn [path_down]; fins. Qed.
  Lemma f_pus : forall n m w p k y, fin (path_up_skip m w p k n y).
  Proof. intros n. induction n; intros; cbn [path_up_skip]; fins. Qed.
  Lemma f_pu : forall n m w p k c y acc, fin (path_up m w p k c n y acc).
  Proof. intros n. induction n; intros; cbn [path_up]; fins. Qed.
  Hint Resolve f_pd f_pus f_pu : fin.
  Lemma f_rp : forall m, fin (tauRayParams m).
  Proof. intros. unfold tauRayParams. fins. Qed.
  Lemma f_closest : forall s d (l : list (tbranch R)), fin (closestBranch s d l).
  Proof. intros. unfold closestBranch. fins. Qed.
  Lemma f_find : forall (t : tmodel R) d, fin (findBranch t d).
  Proof. intros. unfold findBranch. fins. Qed.
  Lemma f_tb : forall (t : tmodel R) i w, fin (getTauBranch t i w).
  Proof. intros. unfold getTauBranch. fins. Qed.
End Layers.
#[global] Hint Resolve f_slval f_inf f_temp f_new f_bullen f_evabove f_evbelow f_vval f_dtop f_dbot f_deg f_depthfor f_evbullen f_from
  f_layer f_toslow f_interp f_fd f_fdd f_fc f_sval f_check f_valid f_crit f_up f_down f_lv f_pair f_add f_cs f_both f_dp f_dep f_ray f_const f_ltd
  f_approx f_far f_dcb f_mt f_fo f_fol f_ctd f_ct f_ends f_sum f_db f_push f_turn f_pd f_pus f_pu f_rp f_closest f_find f_tb : fin.

(** the layers of one wave type follow each other from the top down, and there are steps enough to search them *)
Definition sound_list (fuel : nat) (ls : list (slayer R)) : Prop :=
  s_meet ls /\ s_upright ls /\ (List.length ls <= fuel)%nat.

Section Search.
  Variable fuel : nat.
  Implicit Types m : smodel R.
  Lemma f_num : forall m w x, sound_list fuel (sm_layers m w) -> fin (layerNumForDepth fuel m x w).
  Proof.
    intros m w x [Hm [Hu Hf]]. destruct (sm_layers m w) as [|f ls] eqn:E.
    - unfold layerNumForDepth. rewrite E. discriminate.
    - destruct (n_ltb x (sl_topDepth f)) eqn:E1; [|destruct (n_ltb (sl_botDepth (last ls f)) x) eqn:E2].
      + destruct (C20_search_outside fuel m w f ls x E (or_introl E1)) as [-> _]. discriminate.
      + destruct (C20_search_outside fuel m w f ls x E (or_intror E2)) as [-> _]. discriminate.
      + rewrite <- E in Hm, Hu, Hf.
        destruct (C20_search_terminates fuel m w f ls x E Hm Hu Hf) as [i [_ [_ [-> _]]]]; [| |discriminate].
        * apply ltb_false_leb; auto using R_ok.
        * apply ltb_false_leb; auto using R_ok.
  Qed.
  Lemma f_above : forall m w x, sound_list fuel (sm_layers m w) -> fin (layerNumberAbove fuel m x w).
  Proof. intros m w x H. pose proof (f_num m w x H). unfold layerNumberAbove. fins. Qed.
  Lemma f_below : forall m w x, sound_list fuel (sm_layers m w) -> fin (layerNumberBelow fuel m x w).
  Proof. intros m w x H. pose proof (f_num m w x H). unfold layerNumberBelow. fins. Qed.
  Lemma f_split : forall m w x, sound_list fuel (sm_layers m w) -> fin (splitLayer fuel m x w).
  Proof. intros m w x H. pose proof (f_above m w x H). unfold splitLayer. fins. Qed.
End Search.

Section Sound.
  Variables (fuel : nat) (m : smodel R).
  Hypothesis Hs : forall w, sound_list fuel (sm_layers m w).
  Let A : forall w x, fin (layerNumberAbove fuel m x w). Proof. auto using f_above. Qed.
  Let B : forall w x, fin (layerNumberBelow fuel m x w). Proof. auto using f_below. Qed.
  Hint Resolve A B : fin.
  Lemma f_fixnum : forall x w, fin (fix_crit_num fuel m x w).
  Proof. intros. unfold fix_crit_num. fins. Qed.
  Hint Resolve f_fixnum : fin.
  Lemma f_fixcrit : fin (fixCriticalPoints fuel m).
  Proof. unfold fixCriticalPoints. fins. Qed.
  Lemma f_minturn : forall x w, fin (getMinTurnRayParam fuel m x w).
  Proof. intros. unfold getMinTurnRayParam. fins. Qed.
  Hint Resolve f_minturn : fin.
  Lemma f_minrp : forall x w, fin (getMinRayParam fuel m x w).
  Proof. intros. unfold getMinRayParam. fins. Qed.
  Hint Resolve f_minrp : fin.
  Lemma f_create : forall t b w p rps, fin (createBranch fuel m t b w p rps).
  Proof. intros. unfold createBranch. fins. Qed.
  Lemma f_insert : forall b rp i, fin (tb_insert fuel b rp m i).
  Proof. intros. unfold tb_insert. fins. Qed.
  Lemma f_checks : forall a b i j rps, fin (diff_checks fuel a b i j m rps).
  Proof. intros. unfold diff_checks. fins. Qed.
  Hint Resolve f_create f_insert f_checks : fin.
  Lemma f_diff : forall a b i j rps, fin (tb_difference fuel a b i j m rps).
  Proof. intros. unfold tb_difference. fins. Qed.
  Lemma f_path : forall b rp d, fin (tb_path fuel b rp d m).
  Proof. intros. unfold tb_path. fins. Qed.
  Lemma f_step : forall w rps st tb, fin (branch_step fuel m w rps st tb).
  Proof. intros. unfold branch_step. fins. Qed.
  Hint Resolve f_diff f_step : fin.
  Lemma f_make : forall w rps, fin (make_branches fuel m w rps).
  Proof. intros. unfold make_branches. fins. Qed.
  Hint Resolve f_make : fin.
  Lemma f_newT : fin (newTauModel fuel m).
  Proof. unfold newTauModel. fins. Qed.
  Lemma f_insnew : forall s iS iP rS rP b, fin (insert_new fuel m s iS iP rS rP b).
  Proof. intros. unfold insert_new. fins. Qed.
  Hint Resolve f_insnew : fin.
  Lemma f_splitbs : forall w j d rps iS iP rS rP l, fin (split_branches fuel m w j d rps iS iP rS rP l).
  Proof. intros. unfold split_branches. fins. Qed.
End Sound.

(** correcting for a source depth, when the cuts leave layers that can be searched *)
Lemma f_splitB : forall fuel wd (t : tmodel R) x,
  sound_list fuel (sm_S (tm_sMod t)) ->
  (forall mS iS, splitLayer fuel (tm_sMod t) x false = Ok (mS, iS) -> sound_list fuel (sm_P (si_sMod iS)) /\
     forall mP iP, splitLayer fuel (si_sMod iS) x true = Ok (mP, iP) -> forall w, sound_list fuel (sm_layers (si_sMod iP) w)) ->
  fin (splitBranch fuel wd t x).
Proof.
  intros fuel wd t x H1 H2. unfold splitBranch. destruct (existsb _ _); [discriminate|].
  apply fin_bind; [exact (f_split fuel (tm_sMod t) false x H1)|]. intros [mS iS] E1. destruct (H2 _ _ E1) as [H3 H4].
  destruct (insert_rp iS _ _) as [rp1 iS'].
  apply fin_bind; [exact (f_split fuel (si_sMod iS) true x H3)|]. intros [mP iP] E2. specialize (H4 _ _ E2).
  destruct (insert_rp iP _ _) as [rp2 iP']. cbv zeta.
  apply fin_bind; [apply f_find|]. intros nb _.
  apply fin_bind; [apply f_splitbs; exact H4|]. intros P _.
  apply fin_bind; [apply f_splitbs; exact H4|]. intros Q _. discriminate.
Qed.
Lemma f_correct : forall fuel wd (t : tmodel R) x,
  sound_list fuel (sm_S (tm_sMod t)) ->
  (forall mS iS, splitLayer fuel (tm_sMod t) x false = Ok (mS, iS) -> sound_list fuel (sm_P (si_sMod iS)) /\
     forall mP iP, splitLayer fuel (si_sMod iS) x true = Ok (mP, iP) -> forall w, sound_list fuel (sm_layers (si_sMod iP) w)) ->
  fin (tm_depthCorrect fuel wd t x).
Proof.
  intros fuel wd t x H1 H2. pose proof (f_splitB fuel wd t x H1 H2) as H. unfold tm_depthCorrect. fins.
Qed.

(** -- phases --------------------------------------------------------------------- *)
Lemma f_legs : forall s, fin (leg_go s).
Proof.
  assert (H : forall n s, (String.length s <= n)%nat -> fin (leg_go s)); [|intros s; exact (H _ s (Nat.le_refl _))].
  induction n as [|n IH]; intros s Hn.
  - destruct s as [|c s]; [discriminate|cbn in Hn; lia].
  - destruct s as [|c s1]; [discriminate|]. cbn [String.length] in Hn.
    assert (I1 : fin (leg_go s1)) by (apply IH; lia). cbn [leg_go]. destruct (leg_easy c); [fins|].
    destruct s1 as [|d s2]; [discriminate|]. cbn [String.length] in Hn. destruct (leg_one_next d); [fins|].
    destruct (chr_mem d _); [discriminate|].
    assert (I2 : fin (leg_go s2)) by (apply IH; lia). destruct (chr_mem d _); [fins|].
    destruct s2 as [|e [|f [|g s5]]]; [discriminate..|]. cbn [String.length] in Hn. cbv zeta.
    assert (I5 : fin (leg_go s5)) by (apply IH; lia). destruct (_ || _); [fins|discriminate].
Qed.
Lemma f_puller : forall s, fin (legPuller s).
Proof. intros. pose proof (f_legs s). unfold legPuller. fins. Qed.
#[global] Hint Resolve f_puller : fin.
Section Phases.
  Variable show : R -> string.
  Lemma f_cbd : forall wd (t : tmodel R) s, fin (closestBranchToDepth wd t s).
  Proof. intros. unfold closestBranchToDepth. fins. Qed.
  Lemma f_second : forall s, fin (second_char s).
  Proof. intros. unfold second_char. fins. Qed.
  Hint Resolve f_cbd f_second : fin.
  Lemma f_pleg : forall wd (t : tmodel R) s, fin (purist_leg show wd t s).
  Proof. intros. unfold purist_leg. fins. Qed.
  Hint Resolve f_pleg : fin.
  Lemma f_purist : forall wd (t : tmodel R) s l, fin (createPuristName show wd t s l).
  Proof. intros. unfold createPuristName. fins. Qed.
  Lemma f_atb : forall (t : tmodel R) s b w a, fin (addToBranch t s b w a).
  Proof. intros. unfold addToBranch. fins. Qed.
  Lemma f_conv : forall (t : tmodel R) s b w, fin (phaseConversion t s b w).
  Proof. intros. unfold phaseConversion. fins. Qed.
  Hint Resolve f_purist f_atb f_conv : fin.
  Lemma f_next : forall r : result (pstate R), fin r -> fin (next r).
  Proof. intros r H. unfold next. fins. Qed.
  Hint Resolve f_next : fin.
  Lemma f_lup : forall wd (t : tmodel R) s w c n d, fin (leg_up wd t s w c n d).
  Proof. intros. unfold leg_up. fins. Qed.
  Lemma f_lps : forall wd (t : tmodel R) s w c n d rest, fin (leg_PS wd t s w c n d rest).
  Proof. intros. unfold leg_PS. fins. Qed.
  Lemma f_llong : forall (t : tmodel R) s w c n, fin (leg_long t s w c n).
  Proof. intros. unfold leg_long. fins. Qed.
  Lemma f_lk : forall (t : tmodel R) s w c n, fin (leg_K t s w c n).
  Proof. intros. unfold leg_K. fins. Qed.
  Lemma f_lij : forall (t : tmodel R) s w n, fin (leg_IJ t s w n).
  Proof. intros. unfold leg_IJ. fins. Qed.
  Hint Resolve f_lup f_lps f_llong f_lk f_lij : fin.
  Lemma f_pl : forall wd (t : tmodel R) s a b d p c n rest, fin (parse_leg wd t s a b d p c n rest).
  Proof. intros. unfold parse_leg. fins. Qed.
  Hint Resolve f_pl : fin.
  Lemma f_pg : forall rest wd (t : tmodel R) p c a d s, fin (parse_go wd t rest p c a d s).
  Proof. intros rest. induction rest; intros; cbn [parse_go]; fins. Qed.
  Hint Resolve f_pg : fin.
  Lemma f_pn : forall wd (t : tmodel R) s l, fin (parseName wd t s l).
  Proof. intros. unfold parseName. fins. Qed.
  Lemma f_cb : forall n w l, fin (count_branches n w l).
  Proof. intros. unfold count_branches. fins. Qed.
  Lemma f_at : forall k (s : list R) lo hi acc, fin (add_times k s lo hi acc).
  Proof. intros. unfold add_times. fins. Qed.
  Hint Resolve f_at : fin.
  Lemma f_sbl : forall (f : tbranch R -> list R) lo hi l acc, fin (sum_branch_list f lo hi l acc).
  Proof. intros. unfold sum_branch_list. fins. Qed.
  Lemma f_lmin : forall l : list R, fin (list_min l).
  Proof. intros. unfold list_min. fins. Qed.
  Lemma f_lmax : forall l : list R, fin (list_max l).
  Proof. intros. unfold list_max. fins. Qed.
  Lemma f_lidx : forall l (x : R) i, fin (list_index x i l).
  Proof. intros l. induction l; intros; cbn [list_index]; fins. Qed.
  Lemma f_az : forall (f : tbranch R -> list R) d k l, fin (above_zone f d k l).
  Proof. intros. unfold above_zone. fins. Qed.
  Hint Resolve f_pn f_cb f_sbl f_lmin f_lmax f_lidx f_az : fin.
  Lemma f_shadow : forall (t : tmodel R) s i w l st z, fin (shadow_step t s i w l st z).
  Proof. intros. unfold shadow_step. fins. Qed.
  Lemma f_special : forall (t : tmodel R) n s i j d u, fin (sum_special t n s i j d u).
  Proof. intros. unfold sum_special. fins. Qed.
  Hint Resolve f_shadow f_special : fin.
  Lemma f_newphase : forall wd (t : tmodel R) i s, fin (newPhase show wd t i s).
  Proof. intros wd t i s. unfold newPhase. fins. Qed.
  Hint Resolve f_newphase : fin.
  Lemma del_le : forall A (l : list A) i, (List.length (list_del l i) <= List.length l)%nat.
  Proof. intros A l. induction l as [|a l IH]; intros [|i]; cbn [list_del List.length]; auto with arith. Qed.
  Lemma f_scan : forall fuel nm d id i (l : list (phase R)), (List.length l - i < fuel)%nat -> fin (cache_scan fuel nm d id i l).
  Proof.
    induction fuel as [|fuel IH]; intros nm d id i l Hl; cbn [cache_scan]; [lia|].
    destruct (nth_error l i) as [ph|] eqn:E; [|discriminate]. assert (i < List.length l)%nat by (apply nth_error_Some; congruence).
    pose proof (del_le _ l i). fins; apply IH; lia.
  Qed.
  Lemma f_rego : forall names wd (t : tmodel R) id d first phases, fin (recalc_go show wd t id d first names phases).
  Proof.
    induction names as [|nm names IH]; intros; cbn [recalc_go]; [discriminate|]. apply fin_bind; [apply f_scan; lia|].
    intros [kept found] _. fins.
  Qed.
  Hint Resolve f_rego : fin.
  Lemma f_recalc : forall wd (s : ttime R), fin (recalcPhases show wd s).
  Proof. intros. unfold recalcPhases. fins. Qed.
  Lemma f_great : forall a b c d : R, fin (great_circle_dist a b c d).
  Proof. intros. unfold great_circle_dist. fins. Qed.
  Hint Resolve f_great : fin.
  Lemma f_degrees : forall (o : option R) c, fin (query_degrees o c).
  Proof. intros. unfold query_degrees. fins. Qed.
  Lemma f_tdo : forall (t : tmodel R) b w p, fin (turnDepth_of t b w p).
  Proof. intros. unfold turnDepth_of. fins. Qed.
  Hint Resolve f_tdo : fin.
  Lemma f_pstep : forall (t : tmodel R) hd k q p st s, fin (pierce_step t hd k q p st s).
  Proof. intros. unfold pierce_step. fins. Qed.
  Lemma f_hseg : forall s, fin (head_segment s).
  Proof. intros. unfold head_segment. fins. Qed.
  Lemma f_hstep : forall (a b c : R) n st td, fin (head_step a b c n st td).
  Proof. intros. unfold head_step. fins. Qed.
  Hint Resolve f_pstep f_hseg f_hstep : fin.
  Lemma f_head : forall (ph : phase R) a l, fin (handleHeadOrDiffractedWave ph a l).
  Proof. intros. unfold handleHeadOrDiffractedWave. fins. Qed.
  Hint Resolve f_head : fin.
  Lemma f_pfa : forall (ph : phase R) a, fin (calcPierceFromArrival ph a).
  Proof. intros. unfold calcPierceFromArrival. fins. Qed.
  Lemma f_extra : forall (ph : phase R) a s o, fin (path_extra ph a s o).
  Proof. intros. unfold path_extra. fins. Qed.
  Hint Resolve f_extra : fin.
  Lemma f_pieces : forall fuel (ph : phase R) a l, (forall w, sound_list fuel (sm_layers (tm_sMod (ph_tMod ph)) w)) -> fin (path_pieces fuel ph a l).
  Proof.
    intros fuel ph a l H. pose proof (f_path fuel _ H) as P. induction l as [|s l IH]; cbn [path_pieces]; [discriminate|]. fins.
  Qed.
  Lemma f_pathfa : forall fuel (ph : phase R) a, (forall w, sound_list fuel (sm_layers (tm_sMod (ph_tMod ph)) w)) -> fin (calcPathFromArrival fuel ph a).
  Proof. intros fuel ph a H. pose proof (fun l => f_pieces fuel ph a l H). unfold calcPathFromArrival. fins. Qed.
End Phases.

(** Proofs about the ray parameter ranges of standard phases. *)
From Coq Require Import ZArith Bool List String Ascii Lia.
From Verif Require Import Base Num PyStr VelocityModel SlownessLayer SlownessModel TauModel Legs SeismicPhase
  NameSpec NameProofs RouteSpec RouteProofs RangeSpec.
Import ListNotations.
Local Open Scope string_scope.
Local Open Scope list_scope.

(** ** The legs are those of the textbook rays *)
Section Cover.
  Variables sb moho cmb iocb n : Z.
  Lemma inner_cover : forall a l v bs, inner_b iocb n a l v bs -> exists path, inner_core iocb n l v path.
  Proof.
    induction 1 as [a x v Hx|a x v l v' bs Hx Hl [p IH]]; eexists; [apply ic_one; eassumption|apply ic_more; eassumption].
  Qed.
  Lemma bounce_cover : forall v l v' bs, bounce_b cmb iocb n v l v' bs -> exists path, bounce cmb iocb n v l v' path.
  Proof.
    destruct 1 as [| |l v' bs H]; [eexists; apply bo_turn|eexists; apply bo_reflect|].
    destruct (inner_cover _ _ _ _ H) as [p Hp]. eexists. apply bo_inner. exact Hp.
  Qed.
  Lemma core_cover : forall v l v' bs, core_b cmb iocb n v l v' bs -> exists path, core cmb iocb n v l v' path.
  Proof.
    induction 1 as [v l v' bs H|v l v1 bs l' v2 bs' H Hc [p' IH]]; destruct (bounce_cover _ _ _ _ H) as [p Hp]; eexists.
    - apply co_one. exact Hp.
    - eapply co_more; eassumption.
  Qed.
  Lemma ray_cover : forall start a l v bs, ray_b moho cmb iocb n start a l v bs -> exists path, ray moho cmb iocb n start l path.
  Proof.
    destruct 1 as [x v Hx|x v y u Hx Hy|x v l v' bs y u Hx Hc Hy|x v Hx].
    - eexists. apply ra_turn. exact Hx.
    - eexists. eapply ra_reflect; eassumption.
    - destruct (core_cover _ _ _ _ Hc) as [p Hp]. eexists. eapply ra_core; eassumption.
    - eexists. apply ra_moho. exact Hx.
  Qed.
  Lemma slow_cover : forall start a l v bs, slow_b moho cmb start a l v bs -> exists path, slow_ray moho cmb start l path.
  Proof. destruct 1 as [x v Hx|x v Hx]; eexists; [apply sr_diff|apply sr_crust]; exact Hx. Qed.
  Lemma rays_cover : forall start a l bs, rays_b moho cmb iocb n start a l bs -> exists path, rays moho cmb iocb n start l path.
  Proof.
    induction 1 as [start a l v bs H|start a l v bs l' bs' H Hr [p' IH]]; destruct (ray_cover _ _ _ _ _ H) as [p Hp]; eexists.
    - apply rs_one. exact Hp.
    - apply rs_more; eassumption.
  Qed.
  Lemma all_cover : forall start a l bs, all_b moho cmb iocb n start a l bs -> exists path, all_rays_from moho cmb iocb n start l path.
  Proof.
    induction 1 as [start a l bs H|start a l v bs H|start a l v bs l' bs' H Hr [p' IH]].
    - destruct (rays_cover _ _ _ _ H) as [p Hp]. eexists. apply ar_plain. exact Hp.
    - destruct (slow_cover _ _ _ _ _ H) as [p Hp]. eexists. apply ar_one. exact Hp.
    - destruct (slow_cover _ _ _ _ _ H) as [p Hp]. eexists. eapply ar_more; eassumption.
  Qed.
  Lemma bounds_cover : forall l v bs, bounds sb moho cmb iocb n l v bs -> exists path, textbook sb moho cmb iocb n l path.
  Proof.
    destruct 1 as [l v bs H _|x v Hx|x v l bs Hx H].
    - destruct (all_cover _ _ _ _ H) as [p Hp]. eexists. apply te_down. exact Hp.
    - eexists. apply te_up. exact Hx.
    - destruct (all_cover _ _ _ _ H) as [p Hp]. eexists. eapply te_depth; eassumption.
  Qed.

  Lemma inner_bounds : forall l v path, inner_core iocb n l v path -> forall a, exists bs, inner_b iocb n a l v bs.
  Proof.
    induction 1 as [x v Hx|x v l v' path Hx Hl IH]; intros a.
    - eexists. apply ib_one. exact Hx.
    - destruct (IH (From Bounced iocb v)) as [bs Hb]. eexists. eapply ib_more; eassumption.
  Qed.
  Lemma bounce_bounds : forall v l v' path, bounce cmb iocb n v l v' path -> exists bs, bounce_b cmb iocb n v l v' bs.
  Proof.
    destruct 1 as [| |l v' p H]; [eexists; apply bb_turn|eexists; apply bb_reflect|].
    destruct (inner_bounds _ _ _ H (From Downwards (iocb - 1) v)) as [bs Hb]. eexists. apply bb_inner. exact Hb.
  Qed.
  Lemma core_bounds : forall v l v' path, core cmb iocb n v l v' path -> exists bs, core_b cmb iocb n v l v' bs.
  Proof.
    induction 1 as [v l v' p H|v l v1 p l' v2 p' H Hc [bs' IH]]; destruct (bounce_bounds _ _ _ _ H) as [bs Hb]; eexists.
    - apply cb_one. exact Hb.
    - eapply cb_more; eassumption.
  Qed.
  Lemma ray_bounds : forall start l path, ray moho cmb iocb n start l path -> forall a, exists v bs, ray_b moho cmb iocb n start a l v bs.
  Proof.
    destruct 1 as [x v Hx|x v y u Hx Hy|x v l v' p y u Hx Hc Hy|x v Hx]; intros a.
    - eexists _, _. apply rb_turn. exact Hx.
    - eexists _, _. eapply rb_reflect; eassumption.
    - destruct (core_bounds _ _ _ _ Hc) as [bs Hb]. eexists _, _. eapply rb_core; eassumption.
    - eexists _, _. apply rb_moho. exact Hx.
  Qed.
  Lemma slow_bounds : forall start l path, slow_ray moho cmb start l path -> forall a, exists v bs, slow_b moho cmb start a l v bs.
  Proof. destruct 1 as [x v Hx|x v Hx]; intros a; eexists _, _; [apply sb_diff|apply sb_crust]; exact Hx. Qed.
  Lemma rays_bounds : forall start l path, rays moho cmb iocb n start l path -> forall a, exists bs, rays_b moho cmb iocb n start a l bs.
  Proof.
    induction 1 as [start l p H|start l p l' p' H Hr IH]; intros a; destruct (ray_bounds _ _ _ H a) as [v [bs Hb]].
    - eexists. eapply rsb_one. exact Hb.
    - destruct (IH (From Bounced 0 v)) as [bs' Hb']. eexists. eapply rsb_more; eassumption.
  Qed.
  Lemma all_bounds : forall start l path, all_rays_from moho cmb iocb n start l path -> forall a, exists bs, all_b moho cmb iocb n start a l bs.
  Proof.
    induction 1 as [start l p H|start l p H|start l p l' p' H Hr IH]; intros a.
    - destruct (rays_bounds _ _ _ H a) as [bs Hb]. eexists. apply alb_plain. exact Hb.
    - destruct (slow_bounds _ _ _ H a) as [v [bs Hb]]. eexists. eapply alb_one. exact Hb.
    - destruct (slow_bounds _ _ _ H a) as [v [bs Hb]]. destruct (IH (From Bounced 0 v)) as [bs' Hb'].
      eexists. eapply alb_more; eassumption.
  Qed.
  Lemma all_heads : forall start l path, all_rays_from moho cmb iocb n start l path ->
    exists v, exists c x r, l = String c x :: r /\ (c = "P"%char /\ v = true \/ c = "S"%char /\ v = false).
  Proof.
    intros start l path H. destruct (all_read moho cmb iocb n _ _ _ H) as [[x [r [-> Hx]]] _].
    cbn [mantle_heads In] in Hx. repeat destruct Hx as [<-|Hx]; try contradiction; eauto 10.
  Qed.
  Lemma bounds_exist : forall l path, textbook sb moho cmb iocb n l path -> exists v bs, bounds sb moho cmb iocb n l v bs.
  Proof.
    destruct 1 as [l p H|x v Hx|x v l p Hx H].
    - destruct (all_bounds _ _ _ H Source) as [bs Hb]. destruct (all_heads _ _ _ H) as [v Hv].
      exists v. eexists. apply bd_down; eassumption.
    - eexists _, _. apply bd_up. exact Hx.
    - destruct (all_bounds _ _ _ H (From Bounced 0 v)) as [bs Hb]. eexists _, _. eapply bd_depth; eassumption.
  Qed.
End Cover.

(** ** Following the parser *)
Section Parse.
  Context {T : Type} {N : Num T} {O : NumOrd T}.
  Variable w : list T.
  Variable t : tmodel T.
  Let sb := tm_sourceBranch t.
  Let moho := tm_mohoBranch t.
  Let cmb := tm_cmbBranch t.
  Let iocb := tm_iocbBranch t.
  Let n := Z.of_nat (List.length (tm_P t)).
  Hypothesis Hsb : (0 <= sb < cmb)%Z.
  Hypothesis Hmoho : (0 <= moho < cmb)%Z.
  Hypothesis Hiocb : (cmb < iocb < n)%Z.
  Hypothesis HS : List.length (tm_S t) = List.length (tm_P t).
  Hypothesis Hok : forall b, In b (tm_P t) \/ In b (tm_S t) -> n_ok (tb_maxRP b) /\ n_ok (tb_minTurnRP b) /\ n_ok (tb_minRP b).
  (** the condition on the ray parameter at the source *)
  Variable base : T -> Prop.

  Notation meets := (RangeSpec.meets t).
  Notation branch_at := (RangeSpec.branch_at t).

  Lemma branch_get : forall i v, (0 <= i < n)%Z -> exists b, getTauBranch t i v = Ok b /\ branch_at i v = Some b /\ forall k, n_ok (limit_of k b).
  Proof.
    clear Hsb Hmoho Hiocb. intros i v Hi. unfold getTauBranch, py_index, branch_at. cbv zeta.
    assert (El : Z.of_nat (List.length (if v then tm_P t else tm_S t)) = n) by (destruct v; unfold n; lia).
    destruct (Z.ltb_spec i 0); [lia|]. destruct (Z.ltb_spec i 0); [lia|].
    destruct (nth_error (if v then tm_P t else tm_S t) (Z.to_nat i)) as [b|] eqn:En; [|apply nth_error_None in En; lia].
    exists b. split; [reflexivity|]. split; [reflexivity|]. apply nth_error_In in En.
    destruct (Hok b) as [A [B C]]; [destruct v; auto|]. intros []; assumption.
  Qed.
  Lemma le_min : forall p a b : T, n_ok p -> n_ok a -> n_ok b ->
    n_ok (py_min a b) /\ (n_leb p (py_min a b) = true <-> n_leb p a = true /\ n_leb p b = true).
  Proof.
    intros p a b Hp Ha Hb. unfold py_min. destruct (n_ltb b a) eqn:E; (split; [assumption|]); split.
    - intros H. split; [|exact H]. eapply ord_trans; [exact H|apply ltb_leb; exact E].
    - tauto.
    - intros H. split; [exact H|]. eapply ord_trans; [exact H|]. apply ltb_false_leb; assumption.
    - tauto.
  Qed.
  Lemma max_le : forall p a b : T, n_ok p -> n_ok a -> n_ok b ->
    n_ok (py_max a b) /\ (n_leb (py_max a b) p = true <-> n_leb a p = true /\ n_leb b p = true).
  Proof.
    intros p a b Hp Ha Hb. unfold py_max. destruct (n_ltb a b) eqn:E; (split; [assumption|]); split.
    - intros H. split; [|exact H]. eapply ord_trans; [apply ltb_leb; exact E|exact H].
    - tauto.
    - intros H. split; [exact H|]. eapply ord_trans; [apply ltb_false_leb; [| |exact E]; assumption|exact H].
    - tauto.
  Qed.
  Lemma ok_min : forall a b : T, n_ok a -> n_ok b -> n_ok (py_min a b).
  Proof. intros a b Ha Hb. unfold py_min. destruct (n_ltb b a); assumption. Qed.
  Lemma ok_max : forall a b : T, n_ok a -> n_ok b -> n_ok (py_max a b).
  Proof. intros a b Ha Hb. unfold py_max. destruct (n_ltb a b); assumption. Qed.

  (** the range of the state so far: the ray stands at branch [c] and has met the bounds [bs] *)
  Definition sat (bs : list bound) (p : T) : Prop := base p /\ Forall (meets p) bs.
  Definition ranged (s : pstate T) (bs : list bound) : Prop :=
    n_ok (ps_max s) /\ n_ok (ps_min s) /\
    forall p, n_ok p -> (n_leb (ps_min s) p = true /\ n_leb p (ps_max s) = true <-> sat bs p).
  Definition lim (s : pstate T) (c : Z) (bs : list bound) : Prop := ps_curr s = c /\ ranged s bs.
  Definition act_of (h : how) : action :=
    match h with Bounced => REFLECTTOP | Reflected => REFLECTBOT | Upwards => TRANSUP | Downwards => TRANSDOWN end.
  Definition stands (a : place) (pp : bool) (s : pstate T) : Prop :=
    match a with
    | Source => ps_end s = TRANSDOWN /\ ps_seq s = []
    | From h i v => v = pp /\ ps_end s = act_of h /\
        (exists l x, ps_seq s = l ++ [x] /\ sg_branch x = i) /\ (0 <= i < n)%Z /\
        (h = Upwards -> 1 <= i)%Z /\ (h = Downwards -> i < n - 1)%Z
    end.

  Lemma sat_app : forall bs bs' p, sat (bs ++ bs') p <-> sat bs p /\ Forall (meets p) bs'.
  Proof. clear Hsb Hmoho Hiocb HS Hok. intros bs bs' p. unfold sat. rewrite Forall_app. tauto. Qed.
  Lemma meets_one : forall p c, Forall (meets p) [c] <-> meets p c.
  Proof. intros p c. split; [intros H; inversion H; assumption|auto]. Qed.
  Lemma meets_two : forall p c c', Forall (meets p) [c; c'] <-> meets p c /\ meets p c'.
  Proof. intros p c c'. rewrite (Forall_cons_iff (meets p) c [c']), meets_one. reflexivity. Qed.
  Lemma at_most : forall p k i v b, branch_at i v = Some b -> (meets p (AtMost k i v) <-> n_leb p (limit_of k b) = true).
  Proof.
    intros p k i v b E. cbn [meets]. split; [intros [b' [E' H]]; congruence|]. eauto.
  Qed.
  Lemma at_least : forall p k i v b, branch_at i v = Some b -> (meets p (AtLeast k i v) <-> n_leb (limit_of k b) p = true).
  Proof. intros p k i v b E. cbn [meets]. split; [intros [b' [E' H]]; congruence|]. eauto. Qed.
  Lemma exactly : forall p k i v b, branch_at i v = Some b -> (meets p (Exactly k i v) <-> n_eqb p (limit_of k b) = true).
  Proof. intros p k i v b E. cbn [meets]. split; [intros [b' [E' H]]; congruence|]. eauto. Qed.

  Lemma ranged_most : forall s bs k i v b, ranged s bs -> branch_at i v = Some b -> n_ok (limit_of k b) -> forall c e l,
    ranged (mkPS (py_min (ps_max s) (limit_of k b)) (ps_min s) c e l) (bs ++ [AtMost k i v]).
  Proof.
    intros s bs k i v b [H1 [H2 H3]] Eb Ok_ c e l. unfold ranged. cbn [ps_max ps_min].
    split; [apply ok_min; assumption|]. split; [assumption|]. intros p Hp.
    rewrite sat_app, meets_one, (at_most _ _ _ _ _ Eb), <- (H3 p Hp).
    destruct (le_min p (ps_max s) (limit_of k b) Hp H1 Ok_) as [_ E]. rewrite E. tauto.
  Qed.
  Lemma ranged_least : forall s bs k i v b, ranged s bs -> branch_at i v = Some b -> n_ok (limit_of k b) -> forall c e l,
    ranged (mkPS (ps_max s) (py_max (ps_min s) (limit_of k b)) c e l) (bs ++ [AtLeast k i v]).
  Proof.
    intros s bs k i v b [H1 [H2 H3]] Eb Ok_ c e l. unfold ranged. cbn [ps_max ps_min].
    split; [assumption|]. split; [apply ok_max; assumption|]. intros p Hp.
    rewrite sat_app, meets_one, (at_least _ _ _ _ _ Eb), <- (H3 p Hp).
    destruct (max_le p (ps_min s) (limit_of k b) Hp H2 Ok_) as [_ E]. rewrite E. tauto.
  Qed.

  Lemma last_down : forall (l : list seg) c e (f : Z -> seg), (c <= e)%Z -> (forall i, sg_branch (f i) = i) ->
    exists l' x, l ++ map f (zrange c (e + 1)) = l' ++ [x] /\ sg_branch x = e.
  Proof.
    intros l c e f H Hf. rewrite zrange_snoc by lia. rewrite map_app, app_assoc. cbn [map]. eauto.
  Qed.
  Lemma down_last : forall k c e, (c - e = Z.of_nat k)%Z -> exists l, zrange_down c (e - 1) = l ++ [e].
  Proof.
    induction k as [|k IH]; intros c e H.
    - rewrite zrange_down_cons by lia. rewrite zrange_down_nil by lia. exists []. replace c with e by lia. reflexivity.
    - rewrite zrange_down_cons by lia. destruct (IH (c - 1)%Z e) as [l ->]; [lia|]. exists (c :: l). reflexivity.
  Qed.
  Lemma last_up : forall (l : list seg) c e (f : Z -> seg), (e <= c)%Z -> (forall i, sg_branch (f i) = i) ->
    exists l' x, l ++ map f (zrange_down c (e - 1)) = l' ++ [x] /\ sg_branch x = e.
  Proof.
    intros l c e f H Hf. destruct (down_last (Z.to_nat (c - e)) c e) as [l0 ->]; [lia|].
    rewrite map_app, app_assoc. cbn [map]. eauto.
  Qed.

  Lemma add_turn : forall s e v c bs, lim s c bs -> (0 <= e < n)%Z ->
    exists s', addToBranch t s e v TURN = Ok s' /\ lim s' e (bs ++ [AtLeast Turn e v]).
  Proof.
    intros s e v c bs [E H] He. unfold addToBranch. destruct (branch_get e v He) as [b [Hb [Eb Ok_]]].
    rewrite Hb. cbn [bind]. eexists. split; [reflexivity|]. split; [cbn [ps_curr]; lia|].
    apply (ranged_least s bs Turn e v b H Eb (Ok_ Turn)).
  Qed.
  Lemma add_reflect : forall s e v c bs, lim s c bs -> (c <= e)%Z -> (0 <= e < n)%Z ->
    exists s', addToBranch t s e v REFLECTBOT = Ok s' /\ lim s' e (bs ++ [AtMost Turn e v]) /\ stands (From Reflected e v) v s'.
  Proof.
    intros s e v c bs [E H] Hc He. unfold addToBranch. destruct (branch_get e v He) as [b [Hb [Eb Ok_]]].
    rewrite Hb. cbn [bind]. eexists. split; [reflexivity|]. split; [split; [cbn [ps_curr]; lia|]|].
    - apply (ranged_most s bs Turn e v b H Eb (Ok_ Turn)).
    - cbn [stands ps_end ps_seq act_of]. rewrite E.
      split; [reflexivity|]. split; [reflexivity|]. split; [apply last_down; [assumption|reflexivity]|].
      split; [assumption|]. split; discriminate.
  Qed.
  Lemma add_through : forall s e v c bs, lim s c bs -> (c <= e)%Z -> (0 <= e < n - 1)%Z ->
    exists s', addToBranch t s e v TRANSDOWN = Ok s' /\ lim s' (e + 1) (bs ++ [AtMost Through e v]) /\ stands (From Downwards e v) v s'.
  Proof.
    intros s e v c bs [E H] Hc He. unfold addToBranch. destruct (branch_get e v ltac:(lia)) as [b [Hb [Eb Ok_]]].
    rewrite Hb. cbn [bind]. eexists. split; [reflexivity|]. split; [split; [cbn [ps_curr]; lia|]|].
    - apply (ranged_most s bs Through e v b H Eb (Ok_ Through)).
    - cbn [stands ps_end ps_seq act_of]. rewrite E.
      split; [reflexivity|]. split; [reflexivity|]. split; [apply last_down; [assumption|reflexivity]|].
      split; [lia|]. split; [discriminate|lia].
  Qed.
  Lemma add_top : forall s e v c bs, lim s c bs -> (e <= c)%Z -> (0 <= e < n)%Z ->
    exists s', addToBranch t s e v REFLECTTOP = Ok s' /\ lim s' e (bs ++ [AtMost Top e v]) /\ stands (From Bounced e v) v s'.
  Proof.
    intros s e v c bs [E H] Hc He. unfold addToBranch. destruct (branch_get e v He) as [b [Hb [Eb Ok_]]].
    rewrite Hb. cbn [bind]. eexists. split; [reflexivity|]. split; [split; [cbn [ps_curr]; lia|]|].
    - apply (ranged_most s bs Top e v b H Eb (Ok_ Top)).
    - cbn [stands ps_end ps_seq act_of]. rewrite E.
      split; [reflexivity|]. split; [reflexivity|]. split; [apply last_up; [assumption|reflexivity]|].
      split; [assumption|]. split; discriminate.
  Qed.
  Lemma add_out : forall s e v c bs, lim s c bs -> (e <= c)%Z -> (1 <= e < n)%Z ->
    exists s', addToBranch t s e v TRANSUP = Ok s' /\ lim s' (e - 1) (bs ++ [AtMost Top e v]) /\ stands (From Upwards e v) v s'.
  Proof.
    intros s e v c bs [E H] Hc He. unfold addToBranch. destruct (branch_get e v ltac:(lia)) as [b [Hb [Eb Ok_]]].
    rewrite Hb. cbn [bind]. eexists. split; [reflexivity|]. split; [split; [cbn [ps_curr]; lia|]|].
    - apply (ranged_most s bs Top e v b H Eb (Ok_ Top)).
    - cbn [stands ps_end ps_seq act_of]. rewrite E.
      split; [reflexivity|]. split; [reflexivity|]. split; [apply last_up; [assumption|reflexivity]|].
      split; [lia|]. split; [lia|discriminate].
  Qed.

  Lemma ranged_two : forall s bs k i v b k' i' v' b', ranged s bs -> branch_at i v = Some b -> n_ok (limit_of k b) ->
    branch_at i' v' = Some b' -> n_ok (limit_of k' b') -> forall c e l,
    ranged (mkPS (py_min (py_min (ps_max s) (limit_of k b)) (limit_of k' b')) (ps_min s) c e l) (bs ++ [AtMost k i v; AtMost k' i' v']).
  Proof.
    intros s bs k i v b k' i' v' b' H Eb Ok_ Eb' Ok_' c e l.
    change [AtMost k i v; AtMost k' i' v'] with ([AtMost k i v] ++ [AtMost k' i' v']). rewrite app_assoc.
    pose proof (ranged_most s bs k i v b H Eb Ok_ c e l) as H1.
    exact (ranged_most _ _ k' i' v' b' H1 Eb' Ok_' c e l).
  Qed.
  Lemma convert_lim : forall s pp v c a bs, lim s c bs -> stands a pp s ->
    exists s', convert t s pp v = Ok s' /\ lim s' c (bs ++ conversion a v) /\ stands a pp s'.
  Proof.
    intros s pp v c a bs [E H] St. unfold convert. destruct a as [|h i u].
    - pose proof St as [_ Es]. rewrite Es. cbn [rev conversion]. rewrite app_nil_r.
      exists s. split; [reflexivity|]. split; [split; assumption|assumption].
    - pose proof St as [-> [Ee [[l [x [Es Ex]]] [Hi [Hu Hd]]]]]. rewrite Es, rev_app_distr. cbn [rev app conversion].
      destruct (Bool.eqb pp v) eqn:Ev; cbn [negb].
      + rewrite app_nil_r. exists s. split; [reflexivity|]. split; [split; assumption|assumption].
      + assert (Hv : v = negb pp) by (destruct pp, v; (reflexivity || discriminate)). subst v. rewrite Ex.
        unfold phaseConversion. cbv zeta. rewrite Ee.
        assert (K : forall mx mn, stands (From h i pp) pp (mkPS mx mn (ps_curr s) (ps_end s) (ps_seq s))) by (intros; exact St).
        rewrite Ee in K.
        destruct h; cbn [act_of] in *; try specialize (Hu eq_refl); try specialize (Hd eq_refl);
          (match goal with |- context [getTauBranch t ?j pp] => destruct (branch_get j pp) as [b1 [H1 [Eb1 Ok1]]]; [lia|] end);
          rewrite H1; cbn [bind];
          (match goal with |- context [getTauBranch t ?j (negb pp)] =>
             destruct (branch_get j (negb pp)) as [b2 [H2 [Eb2 Ok2]]]; [lia|] end);
          rewrite H2; cbn [bind]; eexists; (split; [reflexivity|]); (split; [split; [exact E|]|apply K]).
        * apply (ranged_two s bs Top i pp b1 Top i (negb pp) b2 H Eb1 (Ok1 _) Eb2 (Ok2 _)).
        * apply (ranged_two s bs Turn i pp b1 Turn i (negb pp) b2 H Eb1 (Ok1 _) Eb2 (Ok2 _)).
        * apply (ranged_two s bs Top i pp b1 Turn (i - 1) (negb pp) b2 H Eb1 (Ok1 _) Eb2 (Ok2 _)).
        * apply (ranged_two s bs Through i pp b1 Top (i + 1) (negb pp) b2 H Eb1 (Ok1 _) Eb2 (Ok2 _)).
  Qed.

  Ltac tests :=
    repeat (match goal with
    | |- context [seq_ ?a ?b] => let v := eval vm_compute in (seq_ a b) in
        match v with true => change (seq_ a b) with true | false => change (seq_ a b) with false end
    | |- context [sw ?a ?b] => let v := eval vm_compute in (sw a b) in
        match v with true => change (sw a b) with true | false => change (sw a b) with false end
    | |- context [one_of ?a ?b] => let v := eval vm_compute in (one_of a b) in
        match v with true => change (one_of a b) with true | false => change (one_of a b) with false end
    | |- context [leg_float ?a] => change (leg_float (T := T) a) with (@None T)
    end); cbn [orb andb negb act_eqb].

  (** one leg of type [v] moves the ray to [c] *)
  Definition leg_to (x : result legres) (v : bool) (c : Z) (a : place) (bs : list bound) : Prop :=
    exists s', x = Ok (Next s') /\ lim s' c bs /\ stands a v s'.
  Notation leg_ := (RouteProofs.leg_ w t).

  Ltac conv A St :=
    unfold leg_to, RouteProofs.leg_, parse_leg; cbv zeta; unfold leg_wave; tests;
    match goal with |- context [match rev (ps_seq ?s) with _ => _ end] =>
      match goal with |- context [negb (Bool.eqb ?pp ?p)] =>
        change (match rev (ps_seq s) with [] => Ok s
                | last :: _ => if negb (Bool.eqb pp p) then phaseConversion t s (sg_branch last) pp else Ok s end)
          with (convert t s pp p);
        let s1 := fresh "s" in let C := fresh "C" in let A1 := fresh "A" in let S1 := fresh "St" in
        destruct (convert_lim s pp p _ _ _ A St) as [s1 [C [A1 S1]]];
        rewrite C; cbn [bind]; clear C
      end
    end.
  Ltac add1 s e v act A :=
    let s1 := fresh "s" in let C := fresh "C" in let A1 := fresh "A" in let S1 := fresh "St" in
    lazymatch act with
    | TURN => destruct (add_turn s e v _ _ A ltac:(lia)) as [s1 [C A1]]
    | REFLECTBOT => destruct (add_reflect s e v _ _ A ltac:(lia) ltac:(lia)) as [s1 [C [A1 S1]]]
    | TRANSDOWN => destruct (add_through s e v _ _ A ltac:(lia) ltac:(lia)) as [s1 [C [A1 S1]]]
    | REFLECTTOP => destruct (add_top s e v _ _ A ltac:(lia) ltac:(lia)) as [s1 [C [A1 S1]]]
    | TRANSUP => destruct (add_out s e v _ _ A ltac:(lia) ltac:(lia)) as [s1 [C [A1 S1]]]
    end; rewrite C; cbn [bind]; clear C.
  Ltac add :=
    fold n iocb cmb moho; unfold next;
    match goal with |- context [addToBranch t ?s ?e ?p ?act] =>
      match goal with A : lim s _ _ |- _ => add1 s e p act A end
    end.
  Lemma lim_eq : forall s c bs c' bs', lim s c bs -> c = c' -> bs = bs' -> lim s c' bs'.
  Proof. intros s c bs c' bs' H -> ->. exact H. Qed.
  Ltac fin := eexists; split; [reflexivity|]; split; [eapply lim_eq; [eassumption|lia|rewrite <- ?app_assoc; reflexivity]|eassumption].

  Lemma leg_inner : forall x v nxt s pp ld prev rest a bs, inner_leg x v -> lim s iocb bs -> stands a pp s ->
    (nxt = "I" \/ nxt = "J" -> leg_to (leg_ s pp ld prev x nxt rest) v iocb (From Bounced iocb v)
       (bs ++ conversion a v ++ [AtLeast Turn (n - 1) v; AtMost Top iocb v])) /\
    (nxt = "K" -> leg_to (leg_ s pp ld prev x nxt rest) v (iocb - 1) (From Upwards iocb v)
       (bs ++ conversion a v ++ [AtLeast Turn (n - 1) v; AtMost Top iocb v])).
  Proof.
    intros x v nxt s pp ld prev rest a bs Hx A St. split; intros Hn.
    - destruct Hx; destruct Hn as [-> | ->]; conv A St; unfold leg_IJ; add; tests; add; fin.
    - destruct Hx; subst nxt; conv A St; unfold leg_IJ; add; tests; add; fin.
  Qed.
  Lemma same_type : forall s a v, stands a v s -> conversion a v = [].
  Proof. intros s [|h i u] v H; [reflexivity|]. destruct H as [-> _]. cbn [conversion]. rewrite eqb_reflx. reflexivity. Qed.
  Lemma leg_K_down : forall nxt s v ld prev rest a bs, lim s cmb bs -> stands a v s ->
    prev = "P" \/ prev = "S" \/ prev = "K" ->
    (nxt = "P" \/ nxt = "S" -> leg_to (leg_ s v ld prev "K" nxt rest) v (cmb - 1) (From Upwards cmb v)
       (bs ++ [AtLeast Turn (iocb - 1) v; AtMost Top cmb v])) /\
    (nxt = "K" -> leg_to (leg_ s v ld prev "K" nxt rest) v cmb (From Bounced cmb v)
       (bs ++ [AtLeast Turn (iocb - 1) v; AtMost Top cmb v])) /\
    (nxt = "I" \/ nxt = "J" -> leg_to (leg_ s v ld prev "K" nxt rest) v iocb (From Downwards (iocb - 1) v)
       (bs ++ [AtMost Through (iocb - 1) v])) /\
    (nxt = "i" -> leg_to (leg_ s v ld prev "K" nxt rest) v (iocb - 1) (From Reflected (iocb - 1) v)
       (bs ++ [AtMost Turn (iocb - 1) v])).
  Proof.
    intros nxt s v ld prev rest a bs A St Hp. pose proof (same_type _ _ _ St) as Ec. split; [|split; [|split]]; intros Hn.
    - destruct Hn as [-> | ->]; destruct Hp as [-> |[-> | ->]]; conv A St; rewrite Ec, app_nil_r in A0; unfold leg_K; cbv zeta; tests; add; add; fin.
    - subst nxt; destruct Hp as [-> |[-> | ->]]; conv A St; rewrite Ec, app_nil_r in A0; unfold leg_K; cbv zeta; tests; add; add; fin.
    - destruct Hn as [-> | ->]; conv A St; rewrite Ec, app_nil_r in A0; unfold leg_K; cbv zeta; tests; add; fin.
    - subst nxt; conv A St; rewrite Ec, app_nil_r in A0; unfold leg_K; cbv zeta; tests; add; fin.
  Qed.
  Lemma leg_K_up : forall nxt s v ld prev rest a bs, lim s (iocb - 1) bs -> stands a v s ->
    prev = "I" \/ prev = "J" \/ prev = "i" ->
    (nxt = "P" \/ nxt = "S" -> leg_to (leg_ s v ld prev "K" nxt rest) v (cmb - 1) (From Upwards cmb v) (bs ++ [AtMost Top cmb v])) /\
    (nxt = "K" -> leg_to (leg_ s v ld prev "K" nxt rest) v cmb (From Bounced cmb v) (bs ++ [AtMost Top cmb v])).
  Proof.
    intros nxt s v ld prev rest a bs A St Hp. pose proof (same_type _ _ _ St) as Ec. split; intros Hn.
    - destruct Hn as [-> | ->]; destruct Hp as [-> |[-> | ->]]; conv A St; rewrite Ec, app_nil_r in A0; unfold leg_K; cbv zeta; tests; cbn [bind]; add; fin.
    - subst nxt; destruct Hp as [-> |[-> | ->]]; conv A St; rewrite Ec, app_nil_r in A0; unfold leg_K; cbv zeta; tests; cbn [bind]; add; fin.
  Qed.
  Lemma leg_boundary : forall x nxt s v ld prev rest c a bs, x = "c" \/ x = "i" -> lim s c bs -> stands a v s ->
    leg_to (leg_ s v ld prev x nxt rest) v c a bs.
  Proof.
    intros x nxt s v ld prev rest c a bs Hx A St. pose proof (same_type _ _ _ St) as Ec.
    destruct Hx as [-> | ->]; conv A St; rewrite Ec, app_nil_r in A0; eexists; (split; [reflexivity|]); split; assumption.
  Qed.

  Definition downward (a : place) : Prop :=
    match a with Source => True | From h _ _ => h = Downwards \/ h = Bounced end.
  Definition upward (a : place) : Prop :=
    match a with Source => False | From h _ _ => h = Upwards \/ h = Reflected end.
  Lemma downward_end : forall a pp s, downward a -> stands a pp s -> act_eqb (ps_end s) TRANSDOWN || act_eqb (ps_end s) REFLECTTOP = true.
  Proof.
    intros [|h i u] pp s H St; [destruct St as [-> _]; reflexivity|].
    destruct St as [_ [-> _]]. destruct H as [-> | ->]; reflexivity.
  Qed.
  Lemma upward_end : forall a pp s, upward a -> stands a pp s -> act_eqb (ps_end s) TRANSDOWN || act_eqb (ps_end s) REFLECTTOP = false.
  Proof.
    intros [|h i u] pp s H St; [contradiction|].
    destruct St as [_ [-> _]]. destruct H as [-> | ->]; reflexivity.
  Qed.

  Lemma leg_PS_down : forall x v nxt s pp ld prev rest c a bs, mantle_leg x v -> lim s c bs -> stands a pp s ->
    (0 <= c < cmb)%Z -> downward a ->
    (In nxt stops -> leg_to (leg_ s pp ld prev x nxt rest) v 0 (From Bounced 0 v)
       (bs ++ conversion a v ++ [AtLeast Turn (cmb - 1) v; AtMost Top 0 v])) /\
    (nxt = "c" -> leg_to (leg_ s pp ld prev x nxt rest) v (cmb - 1) (From Reflected (cmb - 1) v)
       (bs ++ conversion a v ++ [AtMost Turn (cmb - 1) v])) /\
    (nxt = "K" -> leg_to (leg_ s pp ld prev x nxt rest) v cmb (From Downwards (cmb - 1) v)
       (bs ++ conversion a v ++ [AtMost Through (cmb - 1) v])).
  Proof.
    intros x v nxt s pp ld prev rest c a bs Hx A St Hc Ha. split; [|split]; intros Hn.
    - destruct Hx; cbn [stops In] in Hn; repeat destruct Hn as [<-|Hn]; try contradiction;
        conv A St; unfold leg_PS; tests; rewrite (downward_end _ _ _ Ha St0); add; add; fin.
    - subst nxt. destruct Hx; conv A St; unfold leg_PS; tests; add; fin.
    - subst nxt. destruct Hx; conv A St; unfold leg_PS; tests; add; fin.
  Qed.
  Lemma leg_PS_up : forall x v nxt s pp ld prev rest a bs, mantle_leg x v -> lim s (cmb - 1) bs -> stands a pp s ->
    upward a -> In nxt stops ->
    leg_to (leg_ s pp ld prev x nxt rest) v 0 (From Bounced 0 v) (bs ++ conversion a v ++ [AtMost Top 0 v]).
  Proof.
    intros x v nxt s pp ld prev rest a bs Hx A St Ha Hn.
    destruct Hx; cbn [stops In] in Hn; repeat destruct Hn as [<-|Hn]; try contradiction;
      conv A St; unfold leg_PS; tests; rewrite (upward_end _ _ _ Ha St0); cbn [bind]; add; fin.
  Qed.
  Lemma leg_up_source : forall x v nxt s pp ld prev rest bs, up_leg x v -> lim s (sb - 1) bs -> stands Source pp s -> (0 < sb)%Z ->
    In nxt all_stops ->
    leg_to (leg_ s pp ld prev x nxt rest) v 0 (From Bounced 0 v) (bs ++ [AtMost Top 0 v]).
  Proof.
    intros x v nxt s pp ld prev rest bs Hx A St H0 Hn.
    destruct Hx; cbn [all_stops stops In app] in Hn; repeat destruct Hn as [<-|Hn]; try contradiction;
      conv A St; cbn [conversion] in A0; rewrite app_nil_r in A0; unfold leg_up; tests; add; fin.
  Qed.

  (** no ray meets the bounds *)
  Definition empty (bs : list bound) : Prop := forall p, n_ok p -> ~ sat bs p.
  Lemma empty_app : forall bs bs', empty bs -> empty (bs ++ bs').
  Proof. intros bs bs' H p Hp S1. apply sat_app in S1. exact (H p Hp (proj1 S1)). Qed.
  Definition no_leg (x : result legres) (bs : list bound) : Prop := RouteProofs.no_ray x /\ empty bs.
  Lemma never : forall bs bs', empty (bs ++ Never :: bs').
  Proof. intros bs bs' p Hp S1. apply sat_app in S1. destruct S1 as [_ S1]. apply Forall_inv in S1. exact S1. Qed.

  Lemma ranged_exact : forall s bs k i v b, ranged s bs -> branch_at i v = Some b -> n_ok (limit_of k b) ->
    n_leb (ps_min s) (limit_of k b) = true -> n_leb (limit_of k b) (ps_max s) = true -> forall m c e l,
    n_eqb m (limit_of k b) = true -> ranged (mkPS m m c e l) (bs ++ [Exactly k i v]).
  Proof.
    intros s bs k i v b [H1 [H2 H3]] Eb Ok_ L1 L2 m c e l Em. unfold ranged. cbn [ps_max ps_min].
    rewrite ord_eqb in Em. apply andb_true_iff in Em. destruct Em as [Em1 Em2].
    assert (Om : n_ok m) by (apply ord_leb_ok in Em1; tauto).
    split; [exact Om|]. split; [exact Om|]. intros p Hp.
    rewrite sat_app, meets_one, (exactly _ _ _ _ _ Eb), <- (H3 p Hp), ord_eqb, andb_true_iff. split.
    - intros [A B].
      assert (A' : n_leb (limit_of k b) p = true) by (eapply ord_trans; [exact Em2|exact A]).
      assert (B' : n_leb p (limit_of k b) = true) by (eapply ord_trans; [exact B|exact Em1]).
      split; [|split; assumption]. split; [eapply ord_trans; [exact L1|exact A']|eapply ord_trans; [exact B'|exact L2]].
    - intros [_ [A B]]. split; [eapply ord_trans; [exact Em1|exact B]|eapply ord_trans; [exact A|exact Em2]].
  Qed.
  Lemma ranged_none : forall s bs k i v b, ranged s bs -> branch_at i v = Some b -> n_ok (limit_of k b) ->
    n_leb (limit_of k b) (ps_max s) && n_leb (ps_min s) (limit_of k b) = false -> empty (bs ++ [Exactly k i v]).
  Proof.
    intros s bs k i v b [H1 [H2 H3]] Eb Ok_ L p Hp Sp. apply sat_app in Sp. destruct Sp as [Sp E].
    rewrite meets_one, (exactly _ _ _ _ _ Eb), ord_eqb, andb_true_iff in E. destruct E as [E1 E2].
    apply (H3 p Hp) in Sp. destruct Sp as [S1 S2]. apply andb_false_iff in L. destruct L as [L|L].
    - assert (F : n_leb (limit_of k b) (ps_max s) = true) by (eapply ord_trans; [exact E2|exact S2]). congruence.
    - assert (F : n_leb (ps_min s) (limit_of k b) = true) by (eapply ord_trans; [exact S1|exact E1]). congruence.
  Qed.
  Lemma eq_max : forall a b : T, n_ok a -> n_ok b -> n_leb a b = true -> n_eqb (py_max a b) b = true.
  Proof.
    intros a b Ha Hb H. rewrite ord_eqb. unfold py_max. destruct (n_ltb a b) eqn:E; apply andb_true_iff.
    - split; apply leb_refl; assumption.
    - split; [assumption|]. apply ltb_false_leb; assumption.
  Qed.
  Lemma eq_min : forall a b : T, n_ok a -> n_ok b -> n_leb b a = true -> n_eqb (py_min a b) b = true.
  Proof.
    intros a b Ha Hb H. rewrite ord_eqb. unfold py_min. destruct (n_ltb b a) eqn:E; apply andb_true_iff.
    - split; apply leb_refl; assumption.
    - split; [|assumption]. apply ltb_false_leb; assumption.
  Qed.

  (** the limits after a turn at [e], and after leaving through its top *)
  Lemma turn_lim : forall s e v, (0 <= e < n)%Z -> forall b, getTauBranch t e v = Ok b ->
    exists s', addToBranch t s e v TURN = Ok s' /\ ps_curr s' = e /\
      ps_max s' = ps_max s /\ ps_min s' = py_max (ps_min s) (tb_minTurnRP b).
  Proof.
    intros s e v He b Hb. unfold addToBranch. rewrite Hb. cbn [bind]. eexists. split; [reflexivity|].
    cbn [ps_curr ps_max ps_min]. split; [lia|]. auto.
  Qed.
  Lemma out_lim : forall s e v, (0 <= e < n)%Z -> forall b, getTauBranch t e v = Ok b ->
    exists s', addToBranch t s e v TRANSUP = Ok s' /\ ps_curr s' = (e - 1)%Z /\
      ps_max s' = py_min (ps_max s) (tb_maxRP b) /\ ps_min s' = ps_min s.
  Proof.
    intros s e v He b Hb. unfold addToBranch. rewrite Hb. cbn [bind]. eexists. split; [reflexivity|].
    cbn [ps_curr ps_max ps_min]. split; [lia|]. auto.
  Qed.

  Lemma leg_special : forall x v nxt s pp ld prev rest c a bs, mantle_leg x v -> lim s c bs -> stands a pp s ->
    (0 <= c < cmb)%Z -> In nxt all_stops ->
    (let bs' := bs ++ conversion a v ++ [Exactly Turn (cmb - 1) v] ++ [AtMost Top 0 v] in
     leg_to (leg_ s pp ld prev (x ++ "diff")%string nxt rest) v 0 (From Bounced 0 v) bs' \/
     no_leg (leg_ s pp ld prev (x ++ "diff")%string nxt rest) bs') /\
    (let bs' := bs ++ conversion a v ++ (if (c <? moho)%Z then [AtLeast Turn (moho - 1) v] else [Never]) ++ [AtMost Top 0 v] in
     leg_to (leg_ s pp ld prev (x ++ "g")%string nxt rest) v 0 (From Bounced 0 v) bs' \/
     no_leg (leg_ s pp ld prev (x ++ "g")%string nxt rest) bs') /\
    (let bs' := bs ++ conversion a v ++ (if (c <? moho)%Z then [Exactly Top moho v] else [Never]) ++ [AtMost Top 0 v] in
     leg_to (leg_ s pp ld prev (x ++ "n")%string nxt rest) v 0 (From Bounced 0 v) bs' \/
     no_leg (leg_ s pp ld prev (x ++ "n")%string nxt rest) bs').
  Proof.
    intros x v nxt s pp ld prev rest c a bs Hx A St Hc Hn.
    assert (En : (seq_ nxt "END" || sw nxt "P" || sw nxt "S") = true).
    { cbn [all_stops stops In app] in Hn; repeat destruct Hn as [<-|Hn]; try contradiction; reflexivity. }
    assert (Ef : leg_float (T := T) nxt = None).
    { cbn [all_stops stops In app] in Hn; repeat destruct Hn as [<-|Hn]; try contradiction; reflexivity. }
    split; [|split]; cbv zeta.
    - destruct Hx; cbn [append]; unfold no_leg, no_ray; conv A St; unfold leg_long; cbv zeta; rewrite En; tests;
        fold n iocb cmb moho;
        (match goal with |- context [getTauBranch t ?i ?p] =>
           destruct (branch_get i p) as [b [Hb [Eb Ok_]]]; [lia|]; rewrite Hb; cbn [bind];
           destruct (turn_lim s0 i p ltac:(lia) b Hb) as [s1 [C1 [C2 [C3 C4]]]];
           destruct (n_leb (tb_minTurnRP b) (ps_max s0) && n_leb (ps_min s0) (tb_minTurnRP b)) eqn:Ei;
           [left; apply andb_true_iff in Ei; destruct Ei as [Ei1 Ei2]; rewrite C1; cbn [bind];
            pose proof (ranged_exact s0 _ Turn i p b (proj2 A0) Eb (Ok_ Turn) Ei2 Ei1 (ps_min s1) (ps_curr s1) (ps_end s1) (ps_seq s1)) as A2;
            rewrite C4 in A2 at 1;
            specialize (A2 (eq_max _ _ (proj1 (proj2 (proj2 A0))) (Ok_ Turn) Ei2));
            set (s2 := mkPS (ps_min s1) (ps_min s1) (ps_curr s1) (ps_end s1) (ps_seq s1)) in *;
            assert (A3 : lim s2 i ((bs ++ conversion a p) ++ [Exactly Turn i p])) by (split; [exact C2|exact A2]);
            add; fin
           |right; split; [eexists; split; reflexivity|];
            rewrite !app_assoc; apply empty_app;
            apply (ranged_none s0 _ Turn i p b (proj2 A0) Eb (Ok_ Turn) Ei)]
         end).
    - destruct Hx; cbn [append]; unfold no_leg, no_ray; conv A St; unfold leg_long; cbv zeta; rewrite En; tests;
        fold n iocb cmb moho; (assert (Ec : ps_curr s0 = c) by apply A0); rewrite Ec in *;
        (destruct (Z.leb_spec moho c);
         [right; split; [eexists; split; reflexivity|]; destruct (Z.ltb_spec c moho); [lia|]; cbn [app]; rewrite app_assoc; apply never|
          left; destruct (Z.ltb_spec c moho); [|lia]; add; add; fin]).
    - destruct Hx; cbn [append]; unfold no_leg, no_ray; conv A St; unfold leg_long; cbv zeta; rewrite En; tests;
        fold n iocb cmb moho; (assert (Ec : ps_curr s0 = c) by apply A0); rewrite Ec in *;
        (destruct (Z.leb_spec moho c);
         [right; split; [eexists; split; reflexivity|]; destruct (Z.ltb_spec c moho); [lia|]; cbn [app]; rewrite app_assoc; apply never|]);
        (destruct (Z.ltb_spec c moho); [|lia]);
        (match goal with |- context [getTauBranch t ?i ?p] =>
           destruct (branch_get i p) as [b [Hb [Eb Ok_]]]; [lia|]; rewrite Hb; cbn [bind];
           destruct (n_leb (tb_maxRP b) (ps_max s0) && n_leb (ps_min s0) (tb_maxRP b)) eqn:Ei;
           [left; apply andb_true_iff in Ei; destruct Ei as [Ei1 Ei2];
            destruct (turn_lim s0 i p ltac:(lia) b Hb) as [s1 [C1 [C2 [C3 C4]]]]; rewrite C1; cbn [bind];
            destruct (out_lim s1 i p ltac:(lia) b Hb) as [s2 [D1 [D2 [D3 D4]]]]; rewrite D1; cbn [bind];
            pose proof (ranged_exact s0 _ Top i p b (proj2 A0) Eb (Ok_ Top) Ei2 Ei1 (ps_max s2) (ps_curr s2) (ps_end s2) (ps_seq s2)) as A2;
            (assert (Em : n_eqb (ps_max s2) (limit_of Top b) = true) by (rewrite D3, C3; apply (eq_min _ _ (proj1 (proj2 A0)) (Ok_ Top) Ei1)));
            specialize (A2 Em);
            set (s3 := mkPS (ps_max s2) (ps_max s2) (ps_curr s2) (ps_end s2) (ps_seq s2)) in *;
            assert (A3 : lim s3 (i - 1) ((bs ++ conversion a p) ++ [Exactly Top i p])) by (split; [exact D2|exact A2]);
            add; fin
           |right; split; [eexists; split; reflexivity|];
            rewrite !app_assoc; apply empty_app;
            apply (ranged_none s0 _ Top i p b (proj2 A0) Eb (Ok_ Top) Ei)]
         end).
  Qed.

  (** the loop goes on with leg [curr], after a leg of type [v] *)
  Definition runs (x : result (pstate T)) (rest : list string) (prev curr : string) (v : bool) (c : Z) (a : place) (bs : list bound) : Prop :=
    exists ld s', x = parse_go w t rest prev curr v ld s' /\ lim s' c bs /\ stands a v s'.
  Lemma run_leg : forall s pp ld prev curr nxt rest v c a bs, leg_wave pp curr = v ->
    leg_to (leg_ s pp ld prev curr nxt rest) v c a bs ->
    runs (parse_go w t (nxt :: rest) prev curr pp ld s) rest curr nxt v c a bs.
  Proof.
    intros s pp ld prev curr nxt rest v c a bs Ev [s' [E [A St]]]. unfold RouteProofs.leg_ in E. cbn [parse_go]. rewrite E. cbn [bind].
    rewrite Ev. eexists _, s'. split; [reflexivity|]. split; assumption.
  Qed.
  Lemma wave_inner : forall x v pp, inner_leg x v -> leg_wave pp x = v.
  Proof. intros x v pp []; reflexivity. Qed.
  Lemma wave_up : forall x v pp, up_leg x v -> leg_wave pp x = v.
  Proof. intros x v pp []; reflexivity. Qed.
  Lemma wave_mantle : forall x v pp, mantle_leg x v -> leg_wave pp x = v.
  Proof. intros x v pp []; reflexivity. Qed.

  Lemma inner_run : forall a legs v' bs', inner_b iocb n a legs v' bs' -> forall s bs prev pp ld rest,
    lim s iocb bs -> stands a pp s ->
    exists x r lst, legs = x :: r /\ (x = "I" \/ x = "J") /\ (lst = "I" \/ lst = "J") /\
      runs (parse_go w t (r ++ "K" :: rest) prev x pp ld s) rest lst "K" v' (iocb - 1) (From Upwards iocb v') (bs ++ bs').
  Proof.
    induction 1 as [a x v Hx|a x v r v' bs' Hx Hl IH]; intros s bs prev pp ld rest A St.
    - exists x, [], x. split; [reflexivity|]. split; [destruct Hx; auto|]. split; [destruct Hx; auto|]. cbn [app].
      apply run_leg; [apply wave_inner; assumption|]. apply (leg_inner x v "K" s pp ld prev rest a bs Hx A St). reflexivity.
    - assert (Ex : exists y r', r = y :: r' /\ (y = "I" \/ y = "J")).
      { destruct Hl as [a' y u Hy|a' y u r' ? ? Hy _]; exists y; eexists; (split; [reflexivity|destruct Hy; auto]). }
      destruct Ex as [y [r' [-> Hy]]].
      destruct (leg_inner x v y s pp ld prev (r' ++ "K" :: rest) a bs Hx A St) as [Hr _].
      specialize (Hr Hy). destruct (run_leg _ _ _ _ _ _ _ _ _ _ _ (wave_inner _ _ _ Hx) Hr) as [ld' [s' [E [A' St']]]].
      destruct (IH s' _ x v ld' rest A' St') as [y' [r'' [lst' [E' [_ [Hlst R]]]]]].
      injection E' as <- <-. exists x, (y :: r'), lst'. split; [reflexivity|].
      split; [destruct Hx; auto|]. split; [assumption|]. cbn [app]. rewrite E.
      rewrite <- !app_assoc in R. cbn [app] in R |- *. exact R.
  Qed.

  Lemma bounce_run : forall v legs v' bs', bounce_b cmb iocb n v legs v' bs' -> forall s a bs prev ld nxt rest,
    lim s cmb bs -> stands a v s -> prev = "P" \/ prev = "S" \/ prev = "K" -> nxt = "P" \/ nxt = "S" \/ nxt = "K" ->
    exists r, legs = "K" :: r /\
      runs (parse_go w t (r ++ nxt :: rest) prev "K" v ld s) rest "K" nxt v'
           (if seq_ nxt "K" then cmb else cmb - 1) (From (if seq_ nxt "K" then Bounced else Upwards) cmb v') (bs ++ bs').
  Proof.
    destruct 1 as [| |r v' bs' Hi]; intros s a bs prev ld nxt rest A St Hp Hn.
    - exists []. split; [reflexivity|]. cbn [app]. apply run_leg; [reflexivity|].
      destruct (leg_K_down nxt s v ld prev rest a bs A St Hp) as [H1 [H2 _]].
      destruct Hn as [-> |[-> | ->]]; cbn [seq_ String.eqb Ascii.eqb Bool.eqb]; [apply H1; auto|apply H1; auto|apply H2; auto].
    - exists ["i"; "K"]. split; [reflexivity|]. cbn [app].
      destruct (leg_K_down "i" s v ld prev ("K" :: nxt :: rest) a bs A St Hp) as [_ [_ [_ H]]].
      destruct (run_leg _ _ _ _ _ _ _ _ _ _ _ eq_refl (H eq_refl)) as [ld1 [s1 [E1 [A1 S1]]]].
      change (leg_wave v "K") with v in E1, S1. rewrite E1.
      pose proof (leg_boundary "i" "K" s1 v ld1 "K" (nxt :: rest) _ _ _ (or_intror eq_refl) A1 S1) as H2.
      destruct (run_leg _ _ _ _ _ _ _ _ _ _ _ eq_refl H2) as [ld2 [s2 [E2 [A2 S2]]]].
      change (leg_wave v "i") with v in E2, S2. rewrite E2.
      change [AtMost Turn (iocb - 1) v; AtMost Top cmb v] with ([AtMost Turn (iocb - 1) v] ++ [AtMost Top cmb v]). rewrite app_assoc.
      apply run_leg; [reflexivity|].
      destruct (leg_K_up nxt s2 v ld2 "i" rest _ _ A2 S2 ltac:(auto)) as [H3 H4].
      destruct Hn as [-> |[-> | ->]]; cbn [seq_ String.eqb Ascii.eqb Bool.eqb]; [apply H3; auto|apply H3; auto|apply H4; auto].
    - exists (r ++ ["K"]). split; [reflexivity|]. rewrite <- app_assoc. cbn [app].
      assert (Ex : exists x r', r = x :: r' /\ (x = "I" \/ x = "J")).
      { destruct Hi as [a' x u Hx|a' x u r' ? ? Hx _]; exists x; eexists; (split; [reflexivity|destruct Hx; auto]). }
      destruct Ex as [x [r' [-> Hx]]]. cbn [app].
      destruct (leg_K_down x s v ld prev (r' ++ "K" :: nxt :: rest) a bs A St Hp) as [_ [_ [H _]]].
      destruct (run_leg _ _ _ _ _ _ _ _ _ _ _ eq_refl (H Hx)) as [ld1 [s1 [E1 [A1 S1]]]].
      change (leg_wave v "K") with v in E1, S1. rewrite E1.
      destruct (inner_run _ _ _ _ Hi s1 _ "K" v ld1 (nxt :: rest) A1 S1)
        as [x' [r'' [lst [E' [_ [Hlst [ld2 [s2 [E2 [A2 S2]]]]]]]]]].
      injection E' as <- <-. rewrite E2.
      change (AtMost Through (iocb - 1) v :: bs' ++ [AtMost Top cmb v']) with ([AtMost Through (iocb - 1) v] ++ bs' ++ [AtMost Top cmb v']).
      rewrite !app_assoc. apply run_leg; [reflexivity|].
      destruct (leg_K_up nxt s2 v' ld2 lst rest _ _ A2 S2 ltac:(tauto)) as [H3 H4].
      destruct Hn as [-> |[-> | ->]]; cbn [seq_ String.eqb Ascii.eqb Bool.eqb]; [apply H3; auto|apply H3; auto|apply H4; auto].
  Qed.

  Lemma core_run : forall v legs v' bs', core_b cmb iocb n v legs v' bs' -> forall s a bs prev ld nxt rest,
    lim s cmb bs -> stands a v s -> prev = "P" \/ prev = "S" \/ prev = "K" -> nxt = "P" \/ nxt = "S" ->
    exists r, legs = "K" :: r /\
      runs (parse_go w t (r ++ nxt :: rest) prev "K" v ld s) rest "K" nxt v' (cmb - 1) (From Upwards cmb v') (bs ++ bs').
  Proof.
    induction 1 as [v legs v' bs' Hb|v legs v1 bs1 legs' v2 bs2 Hb Hc IH];
      intros s a bs prev ld nxt rest A St Hp Hn.
    - destruct (bounce_run _ _ _ _ Hb s a bs prev ld nxt rest A St Hp ltac:(tauto)) as [r [-> R]].
      exists r. split; [reflexivity|]. destruct Hn as [-> | ->]; exact R.
    - assert (E0 : exists r', legs' = "K" :: r').
      { destruct (core_cover _ _ _ _ _ _ _ Hc) as [p Hp']. apply (core_read _ _ _ _ _ _ _ Hp'). }
      destruct E0 as [r' ->].
      destruct (bounce_run _ _ _ _ Hb s a bs prev ld "K" (r' ++ nxt :: rest) A St Hp ltac:(tauto)) as [r [-> R]].
      destruct R as [ld1 [s1 [E1 [A1 S1]]]]. cbn [seq_ String.eqb Ascii.eqb Bool.eqb] in A1, S1.
      exists (r ++ "K" :: r'). split; [reflexivity|]. rewrite <- app_assoc. cbn [app]. rewrite E1.
      destruct (IH s1 _ _ "K" ld1 nxt rest A1 S1 ltac:(auto) Hn) as [r2 [E2 R2]].
      injection E2 as <-. rewrite <- !app_assoc in R2. exact R2.
  Qed.

  (** either the loop goes on from the surface, or it has ended without a ray *)
  Definition goes (x : result (pstate T)) (rest : list string) (nxt : string) (v : bool) (bs : list bound) : Prop :=
    exists prev, runs x rest prev nxt v 0 (From Bounced 0 v) bs.
  Definition ended (x : result (pstate T)) (bs : list bound) : Prop :=
    exists s', x = Ok s' /\ ps_max s' = n_lit (-1) 0 /\ empty bs.
  Lemma run_none : forall s pp ld prev curr nxt rest bs, no_leg (leg_ s pp ld prev curr nxt rest) bs ->
    ended (parse_go w t (nxt :: rest) prev curr pp ld s) bs.
  Proof.
    intros s pp ld prev curr nxt rest bs [[s' [E A]] Em]. unfold RouteProofs.leg_ in E. cbn [parse_go]. rewrite E. cbn [bind].
    exists s'. auto.
  Qed.
  Lemma wave_ext : forall x v pp, mantle_leg x v -> leg_wave pp (x ++ "n") = v /\ leg_wave pp (x ++ "g") = v /\ leg_wave pp (x ++ "diff") = v.
  Proof. intros x v pp []; repeat split. Qed.

  Lemma ray_run : forall start a legs u bs', ray_b moho cmb iocb n start a legs u bs' -> forall s bs prev pp ld nxt rest,
    lim s start bs -> stands a pp s -> (0 <= start < cmb)%Z -> downward a -> In nxt stops ->
    exists x r, legs = x :: r /\ In x ["P"; "S"; "Pn"; "Sn"] /\
      (goes (parse_go w t (r ++ nxt :: rest) prev x pp ld s) rest nxt u (bs ++ bs') \/
       ended (parse_go w t (r ++ nxt :: rest) prev x pp ld s) (bs ++ bs')).
  Proof.
    intros start a legs u bs' H s bs prev pp ld nxt rest A St Hs Ha Hn.
    destruct H as [x v Hx|x v y u Hx Hy|x v r v' bs' y u Hx Hc Hy|x v Hx].
    - exists x, []. split; [reflexivity|]. split; [destruct Hx; cbn; auto|]. left. cbn [app].
      exists x. apply run_leg; [apply wave_mantle; assumption|].
      apply (leg_PS_down x v nxt s pp ld prev rest start a bs Hx A St Hs Ha). exact Hn.
    - exists x, ["c"; y]. split; [reflexivity|]. split; [destruct Hx; cbn; auto|]. left. cbn [app].
      destruct (leg_PS_down x v "c" s pp ld prev (y :: nxt :: rest) start a bs Hx A St Hs Ha) as [_ [H _]].
      destruct (run_leg _ _ _ _ _ _ _ _ _ _ _ (wave_mantle _ _ _ Hx) (H eq_refl)) as [ld1 [s1 [E1 [A1 S1]]]]. rewrite E1.
      pose proof (leg_boundary "c" y s1 v ld1 x (nxt :: rest) _ _ _ (or_introl eq_refl) A1 S1) as H2.
      destruct (run_leg _ _ _ _ _ _ _ _ _ _ _ eq_refl H2) as [ld2 [s2 [E2 [A2 S2]]]].
      change (leg_wave v "c") with v in E2, S2. rewrite E2.
      exists y.
      replace (bs ++ conversion a v ++ AtMost Turn (cmb - 1) v :: conversion (From Reflected (cmb - 1) v) u ++ [AtMost Top 0 u])
        with ((bs ++ conversion a v ++ [AtMost Turn (cmb - 1) v]) ++ conversion (From Reflected (cmb - 1) v) u ++ [AtMost Top 0 u])
        by (rewrite <- !app_assoc; reflexivity).
      apply run_leg; [apply wave_mantle; assumption|].
      apply (leg_PS_up y u nxt s2 _ ld2 "c" rest _ _ Hy A2 S2); [cbn; auto|exact Hn].
    - assert (E0 : exists r', r = "K" :: r').
      { destruct (core_cover _ _ _ _ _ _ _ Hc) as [p Hp']. apply (core_read _ _ _ _ _ _ _ Hp'). }
      destruct E0 as [r' ->].
      exists x, (("K" :: r') ++ [y]). split; [reflexivity|]. split; [destruct Hx; cbn; auto|]. left.
      rewrite <- app_assoc. cbn [app].
      destruct (leg_PS_down x v "K" s pp ld prev (r' ++ y :: nxt :: rest) start a bs Hx A St Hs Ha) as [_ [_ H]].
      destruct (run_leg _ _ _ _ _ _ _ _ _ _ _ (wave_mantle _ _ _ Hx) (H eq_refl)) as [ld1 [s1 [E1 [A1 S1]]]]. rewrite E1.
      destruct (core_run _ _ _ _ Hc s1 _ _ x ld1 y (nxt :: rest) A1 S1) as [r2 [E2 R2]];
        [destruct Hx; auto|destruct Hy; auto|].
      injection E2 as <-. destruct R2 as [ld2 [s2 [E2 [A2 S2]]]]. rewrite E2.
      exists y.
      replace (bs ++ conversion a v ++ AtMost Through (cmb - 1) v :: bs' ++ conversion (From Upwards cmb v') u ++ [AtMost Top 0 u])
        with (((bs ++ conversion a v ++ [AtMost Through (cmb - 1) v]) ++ bs') ++ conversion (From Upwards cmb v') u ++ [AtMost Top 0 u])
        by (rewrite <- !app_assoc; reflexivity).
      apply run_leg; [apply wave_mantle; assumption|].
      apply (leg_PS_up y u nxt s2 _ ld2 "K" rest _ _ Hy A2 S2); [cbn; auto|exact Hn].
    - exists (x ++ "n")%string, []. split; [reflexivity|]. split; [destruct Hx; cbn; auto|]. cbn [app].
      destruct (leg_special x v nxt s pp ld prev rest start a bs Hx A St Hs) as [_ [_ [H|H]]].
      + unfold all_stops. apply in_or_app. auto.
      + left. eexists. apply run_leg; [apply wave_ext; assumption|]. exact H.
      + right. apply run_none. exact H.
  Qed.
  Lemma slow_run : forall start a legs u bs', slow_b moho cmb start a legs u bs' -> forall s bs prev pp ld nxt rest,
    lim s start bs -> stands a pp s -> (0 <= start < cmb)%Z -> In nxt all_stops ->
    exists x, legs = [x] /\ In x ["Pdiff"; "Sdiff"; "Pg"; "Sg"] /\
      (goes (parse_go w t (nxt :: rest) prev x pp ld s) rest nxt u (bs ++ bs') \/
       ended (parse_go w t (nxt :: rest) prev x pp ld s) (bs ++ bs')).
  Proof.
    intros start a legs u bs' H s bs prev pp ld nxt rest A St Hs Hn.
    destruct H as [x v Hx|x v Hx]; eexists; (split; [reflexivity|]; split; [destruct Hx; cbn; tauto|]);
      destruct (leg_special x v nxt s pp ld prev rest start a bs Hx A St Hs Hn) as [H1 [H2 _]].
    - destruct H1 as [H|H].
      + left. eexists. apply run_leg; [apply wave_ext; assumption|]. exact H.
      + right. apply run_none. exact H.
    - destruct H2 as [H|H].
      + left. eexists. apply run_leg; [apply wave_ext; assumption|]. exact H.
      + right. apply run_none. exact H.
  Qed.

  (** the result of the loop *)
  Definition final (x : result (pstate T)) (bs : list bound) : Prop :=
    exists s', x = Ok s' /\ (ranged s' bs \/ (ps_max s' = n_lit (-1) 0 /\ empty bs)).
  Lemma run_end : forall x v bs, goes x [] "END" v bs \/ ended x bs -> final x bs.
  Proof.
    intros x v bs [[prev [ld [s' [E [A St]]]]]|[s' [E H]]]; exists s'.
    - cbn [parse_go] in E. split; [exact E|]. left. apply A.
    - auto.
  Qed.
  Lemma rays_run : forall start a legs bs', rays_b moho cmb iocb n start a legs bs' -> forall s bs prev pp ld,
    lim s start bs -> stands a pp s -> (0 <= start < cmb)%Z -> downward a ->
    exists x r, legs = x :: r /\ In x ["P"; "S"; "Pn"; "Sn"] /\
      final (parse_go w t (r ++ ["END"]) prev x pp ld s) (bs ++ bs').
  Proof.
    induction 1 as [start a legs v bs' Hr|start a legs v bs1 legs' bs2 Hr Hrs IH]; intros s bs prev pp ld A St Hs Ha.
    - destruct (ray_run _ _ _ _ _ Hr s bs prev pp ld "END" [] A St Hs Ha ltac:(cbn; tauto)) as [x [r [-> [Hx R]]]].
      exists x, r. split; [reflexivity|]. split; [assumption|]. eapply run_end. exact R.
    - assert (E0 : exists y r', legs' = y :: r' /\ In y ["P"; "S"; "Pn"; "Sn"]).
      { clear - Hrs. destruct Hrs as [? ? ? ? ? H|? ? ? ? ? ? ? H _];
          (destruct H as [x v' Hx|x v' y u Hx Hy|x v' l v'' bs y u Hx Hc Hy|x v' Hx];
           eexists _, _; (split; [reflexivity|destruct Hx; cbn; tauto])). }
      destruct E0 as [y [r' [-> Hy]]].
      destruct (ray_run _ _ _ _ _ Hr s bs prev pp ld y (r' ++ ["END"]) A St Hs Ha) as [x [r [-> [Hx R]]]].
      { cbn [In] in Hy |- *. cbn. tauto. }
      exists x, (r ++ y :: r'). split; [reflexivity|]. split; [assumption|]. rewrite <- app_assoc. cbn [app].
      destruct R as [[p1 [ld1 [s1 [E1 [A1 S1]]]]]|[s' [E1 [E2 B]]]].
      + rewrite E1. destruct (IH s1 _ p1 v ld1 A1 S1 ltac:(lia) ltac:(cbn; auto)) as [y' [r2 [E2 [_ R]]]].
        injection E2 as <- <-. rewrite <- app_assoc in R. exact R.
      + exists s'. split; [exact E1|]. right. split; [assumption|]. rewrite app_assoc. apply empty_app. exact B.
  Qed.
  Lemma all_run : forall start a legs bs', all_b moho cmb iocb n start a legs bs' -> forall s bs prev pp ld,
    lim s start bs -> stands a pp s -> (0 <= start < cmb)%Z -> downward a ->
    exists x r, legs = x :: r /\ In x mantle_heads /\
      final (parse_go w t (r ++ ["END"]) prev x pp ld s) (bs ++ bs').
  Proof.
    induction 1 as [start a legs bs' Hr|start a legs v bs' Hr|start a legs v bs1 legs' bs2 Hr Hrs IH];
      intros s bs prev pp ld A St Hs Ha.
    - destruct (rays_run _ _ _ _ Hr s bs prev pp ld A St Hs Ha) as [x [r [E [Hx R]]]]. exists x, r.
      split; [assumption|]. split; [cbn in Hx |- *; tauto|assumption].
    - destruct (slow_run _ _ _ _ _ Hr s bs prev pp ld "END" [] A St Hs ltac:(cbn; tauto)) as [x [-> [Hx R]]].
      exists x, []. split; [reflexivity|]. split; [cbn in Hx |- *; tauto|]. eapply run_end. exact R.
    - assert (E0 : exists y r', legs' = y :: r' /\ In y mantle_heads).
      { destruct (all_cover _ _ _ _ _ _ _ _ Hrs) as [p Hp]. apply (all_read _ _ _ _ _ _ _ Hp). }
      destruct E0 as [y [r' [-> Hy]]].
      destruct (slow_run _ _ _ _ _ Hr s bs prev pp ld y (r' ++ ["END"]) A St Hs) as [x [-> [Hx R]]].
      { cbn [In app all_stops stops mantle_heads] in Hy |- *. tauto. }
      exists x, (y :: r'). split; [reflexivity|]. split; [cbn in Hx |- *; tauto|]. cbn [app].
      destruct R as [[p1 [ld1 [s1 [E1 [A1 S1]]]]]|[s' [E1 [E2 B]]]].
      + rewrite E1. destruct (IH s1 _ p1 v ld1 A1 S1 ltac:(lia) ltac:(cbn; auto)) as [y' [r2 [E2 [_ R]]]].
        injection E2 as <- <-. rewrite <- app_assoc in R. exact R.
      + exists s'. split; [exact E1|]. right. split; [assumption|]. rewrite app_assoc. apply empty_app. exact B.
  Qed.
End Parse.

(** ** From the name to the range *)
Section Whole.
  Context {T : Type} {N : Num T} {O : NumOrd T}.
  Variable w : list T.
  Variable t : tmodel T.
  Let sb := tm_sourceBranch t.
  Let moho := tm_mohoBranch t.
  Let cmb := tm_cmbBranch t.
  Let iocb := tm_iocbBranch t.
  Let n := Z.of_nat (List.length (tm_P t)).
  Hypothesis Hsb : (0 <= sb < cmb)%Z.
  Hypothesis Hmoho : (0 <= moho < cmb)%Z.
  Hypothesis Hiocb : (cmb < iocb < n)%Z.
  Hypothesis HS : List.length (tm_S t) = List.length (tm_P t).
  Hypothesis Hok : forall b, In b (tm_P t) \/ In b (tm_S t) -> n_ok (tb_maxRP b) /\ n_ok (tb_minTurnRP b) /\ n_ok (tb_minRP b).
  Hypothesis Hcore : n_ltb (tm_cmbDepth t) (tm_sourceDepth t) = false.

  Notation leaves := (RangeSpec.leaves t).
  Definition start_ok (v : bool) (p : T) : Prop := n_leb n_0 p = true /\ leaves v p.

  Lemma le_max : forall p a b : T, n_ok p -> n_ok a -> n_ok b ->
    (n_leb p (py_max a b) = true <-> n_leb p a = true \/ n_leb p b = true).
  Proof.
    intros p a b Hp Ha Hb. unfold py_max. destruct (n_ltb a b) eqn:E; split.
    - tauto.
    - intros [H|H]; [|exact H]. eapply ord_trans; [exact H|apply ltb_leb; exact E].
    - tauto.
    - intros [H|H]; [exact H|]. eapply ord_trans; [exact H|]. apply ltb_false_leb; assumption.
  Qed.
  Lemma start_range : forall v, exists mx,
    (if (sb =? 0)%Z then let! b := getTauBranch t sb v in Ok (tb_maxRP b)
     else let! a := getTauBranch t (sb - 1) v in let! b := getTauBranch t sb v in
          Ok (py_max (tb_minTurnRP a) (tb_maxRP b))) = Ok mx /\
    forall c e l, ranged t (start_ok v) (mkPS mx n_0 c e l) [].
  Proof.
    intros v. destruct (branch_get t HS Hok sb v) as [b [Hb [Eb Okb]]]; [unfold n in *; lia|].
    assert (St : forall mx, n_ok mx -> (forall p, n_ok p -> (n_leb p mx = true <-> leaves v p)) ->
      forall c e l, ranged t (start_ok v) (mkPS mx n_0 c e l) []).
    { intros mx Om H c e l. split; [exact Om|]. split; [apply n_0_ok|]. intros p Hp. cbn [ps_max ps_min].
      unfold sat, start_ok. rewrite <- (H p Hp). split; [auto|tauto]. }
    destruct (Z.eqb_spec sb 0) as [E|E].
    - rewrite Hb. cbn [bind]. eexists. split; [reflexivity|]. apply St; [apply (Okb Top)|]. intros p Hp. unfold RangeSpec.leaves. fold sb.
      rewrite (at_most t p Top sb v b Eb). cbn [limit_of]. split; [auto|]. intros [H|[H _]]; [exact H|lia].
    - destruct (branch_get t HS Hok (sb - 1) v) as [a [Ha [Ea Oka]]]; [unfold n in *; lia|].
      rewrite Ha, Hb. cbn [bind]. eexists. split; [reflexivity|]. apply St; [apply ok_max; [apply (Oka Turn)|apply (Okb Top)]|].
      intros p Hp. unfold RangeSpec.leaves. fold sb. rewrite (at_most t p Top sb v b Eb), (at_most t p Turn (sb - 1) v a Ea).
      rewrite (le_max p _ _ Hp (Oka Turn) (Okb Top)). cbn [limit_of]. split; [intros [H|H]; [right; split; [lia|exact H]|auto]|tauto].
  Qed.

  Lemma parse_range : forall legs v bs, bounds sb moho cmb iocb n legs v bs -> forall name,
    str_in "J" name && negb (sm_allowInnerCoreS (tm_sMod t)) = false ->
    exists s, parseName w t name (legs ++ ["END"]) = Ok (Some s) /\
      (ranged t (start_ok v) s bs \/ (ps_max s = n_lit (-1) 0 /\ empty t (start_ok v) bs)).
  Proof.
    intros legs v bs H name HJ. destruct H as [legs v bs Ha Hv|x v Hx|x v legs bs Hx Ha].
    - assert (E0 : exists x r, legs = x :: r /\ In x mantle_heads).
      { destruct (all_cover _ _ _ _ _ _ _ _ Ha) as [p Hp]. apply (all_read _ _ _ _ _ _ _ Hp). }
      destruct E0 as [x [r [-> Hx]]].
      assert (Fw : first_wave x = v).
      { destruct Hv as [c [y [r' [E Hc]]]]. injection E as -> _.
        cbn [mantle_heads In] in Hx. destruct Hc as [[-> ->]|[-> ->]]; repeat destruct Hx as [Hx|Hx]; try contradiction; inversion Hx; reflexivity. }
      unfold parseName. cbn [app]. change (py_index (x :: r ++ ["END"]) 0) with (Ok x). cbn [bind List.tl].
      rewrite HJ, Hcore, Fw. fold sb. destruct (start_range v) as [mx [Emx Rg]].
      assert (Ek : str_endswith "kmps" x = false).
      { cbn [mantle_heads In] in Hx. repeat destruct Hx as [<-|Hx]; try contradiction; reflexivity. }
      rewrite Ek, !andb_false_r. cbn [andb].
      assert (Ed : sw x "P" || sw x "S" = true).
      { cbn [mantle_heads In] in Hx. repeat destruct Hx as [<-|Hx]; try contradiction; reflexivity. }
      rewrite Ed, Emx. cbn [bind].
      destruct (all_run w t Hsb Hmoho Hiocb HS Hok (start_ok v) _ _ _ _ Ha (mkPS mx n_0 sb TRANSDOWN []) [] "START" v false)
        as [x' [r' [E [_ [s [Es R]]]]]]; [split; [reflexivity|apply Rg]|split; reflexivity|exact Hsb|exact I|].
      injection E as <- <-. rewrite Es. cbn [bind]. exists s. split; [reflexivity|]. exact R.
    - unfold parseName. cbn [app]. change (py_index [x; "END"] 0) with (Ok x). cbn [bind List.tl].
      rewrite HJ, Hcore. fold sb. destruct (start_range v) as [mx [Emx Rg]].
      assert (Ek : str_endswith "kmps" x = false) by (destruct Hx; reflexivity). rewrite Ek, !andb_false_r. cbn [andb].
      assert (Ed : sw x "P" || sw x "S" = false) by (destruct Hx; reflexivity).
      assert (Ep : seq_ x "p" || seq_ x "s" = true) by (destruct Hx; reflexivity).
      assert (Fw : first_wave x = v) by (destruct Hx; reflexivity).
      rewrite Ed, Ep, Fw, Emx. unfold up_bounds. destruct (Z.eqb_spec sb 0).
      + eexists. split; [reflexivity|]. right. cbn [ps_max]. split; [reflexivity|]. apply (never t (start_ok v) []).
      + cbn [bind app].
        pose proof (leg_up_source w t Hsb Hmoho Hiocb HS Hok (start_ok v) x v "END" (mkPS mx n_0 (sb - 1) TRANSDOWN []) v false "START" [] [] Hx) as H.
        destruct (run_leg w t (start_ok v) _ _ _ _ _ _ _ _ _ _ _ (wave_up _ _ _ Hx)
          (H ltac:(split; [reflexivity|apply Rg]) ltac:(split; reflexivity) ltac:(lia) ltac:(cbn; tauto))) as [ld1 [s1 [E1 [A1 S1]]]].
        rewrite E1. cbn [parse_go bind]. exists s1. split; [reflexivity|]. left. apply A1.
    - assert (E0 : exists y r, legs = y :: r /\ In y mantle_heads).
      { destruct (all_cover _ _ _ _ _ _ _ _ Ha) as [p Hp]. apply (all_read _ _ _ _ _ _ _ Hp). }
      destruct E0 as [y [r [-> Hy]]].
      unfold parseName. cbn [app]. change (py_index (x :: y :: r ++ ["END"]) 0) with (Ok x). cbn [bind List.tl].
      rewrite HJ, Hcore. fold sb. destruct (start_range v) as [mx [Emx Rg]].
      assert (Ek : str_endswith "kmps" x = false) by (destruct Hx; reflexivity). rewrite Ek, !andb_false_r. cbn [andb].
      assert (Ed : sw x "P" || sw x "S" = false) by (destruct Hx; reflexivity).
      assert (Ep : seq_ x "p" || seq_ x "s" = true) by (destruct Hx; reflexivity).
      assert (Fw : first_wave x = v) by (destruct Hx; reflexivity).
      rewrite Ed, Ep, Fw, Emx. unfold up_bounds. destruct (Z.eqb_spec sb 0).
      + eexists. split; [reflexivity|]. right. cbn [ps_max]. split; [reflexivity|]. apply (never t (start_ok v) []).
      + cbn [bind app].
        pose proof (leg_up_source w t Hsb Hmoho Hiocb HS Hok (start_ok v) x v y (mkPS mx n_0 (sb - 1) TRANSDOWN []) v false "START" (r ++ ["END"]) [] Hx) as H.
        destruct (run_leg w t (start_ok v) _ _ _ _ _ _ _ _ _ _ _ (wave_up _ _ _ Hx)
          (H ltac:(split; [reflexivity|apply Rg]) ltac:(split; reflexivity) ltac:(lia)
             ltac:(cbn [In app all_stops stops mantle_heads] in Hy |- *; tauto))) as [ld1 [s1 [E1 [A1 S1]]]].
        rewrite E1.
        destruct (all_run w t Hsb Hmoho Hiocb HS Hok (start_ok v) _ _ _ _ Ha s1 _ x v ld1 A1 S1) as [y' [r' [E [_ [s [Es R]]]]]];
          [lia|cbn; auto|].
        injection E as <- <-. rewrite Es. cbn [bind]. exists s. split; [reflexivity|]. exact R.
  Qed.
End Whole.

Section Phase.
  Context {T : Type} {N : Num T} {L : Libm T}.
  Variable show : T -> string.

  (** the range of the parsed name is that of the phase, unless there is no ray *)
  Lemma phase_range : forall w (t : tmodel T) tid name ph, newPhase show w t tid name = Ok ph ->
    exists legs s, legPuller name = Ok legs /\ parseName w t name legs = Ok (Some s) /\
      ((n_ltb (ps_max s) n_0 || n_ltb (ps_max s) (ps_min s) = true /\ ph_max ph = n_lit (-1) 0 /\ ph_min ph = n_lit (-1) 0) \/
       (n_ltb (ps_max s) n_0 || n_ltb (ps_max s) (ps_min s) = false /\
        ((ph_max ph = ps_max s /\ ph_min ph = ps_min s) \/
         (ph_max ph = n_lit (-1) 0 /\ ph_min ph = n_lit (-1) 0 /\ (str_in "Sdiff" name || str_in "Pdiff" name = true) /\
          exists c, str_get name 0 = Ok c /\
            depthInHighSlowness (tm_sMod t) (n_sub (tm_cmbDepth t) (n_lit 1 (-10))) (ps_min s) (Ascii.eqb c "P") = true)))).
  Proof.
    intros w t tid name ph H. unfold newPhase in H.
    inv_as H as legs Hl. inv_as H as purist Hp. inv_as H as o Ho. destruct o as [s|]; [|discriminate].
    exists legs, s. split; [assumption|]. split; [assumption|].
    match type of H with (if ?b then _ else _) = _ => destruct b eqn:Eb end; [injection H as <-; left; cbn [ph_max ph_min]; auto|].
    right. split; [reflexivity|].
    inv_as H as nP HnP. inv_as H as nS HnS. inv_as H as dist0 Hd0. inv_as H as time0 Ht0. inv_as H as sp Hsp.
    destruct sp as [[dist time]|].
    - inv_as H as mind Hmin. inv_as H as maxd Hmax. inv_as H as st1 H1. inv_as H as st H2. injection H as <-.
      left. cbn [ph_max ph_min]. auto.
    - injection H as <-. right. cbn [ph_max ph_min]. split; [reflexivity|]. split; [reflexivity|].
      unfold sum_special in Hsp. destruct (str_in "Sdiff" name || str_in "Pdiff" name); [split; [reflexivity|]|].
      + inv_as Hsp as c Hc. exists c. split; [exact Hc|].
        destruct (depthInHighSlowness _ _ _ _); [reflexivity|exfalso].
        repeat (apply bind_Ok_inv in Hsp; destruct Hsp as [? [? Hsp]]). discriminate.
      + exfalso. repeat match type of Hsp with (if ?b then _ else _) = _ => destruct b end;
          repeat (apply bind_Ok_inv in Hsp; destruct Hsp as [? [? Hsp]]); discriminate.
  Qed.
End Phase.

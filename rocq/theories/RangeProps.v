(** C55: the ray parameters of standard phases. *)
From Coq Require Import ZArith Bool List String Ascii Reals Lia Lra.
From Verif Require Import Base Num PyStr VelocityModel SlownessLayer SlownessModel TauModel Legs SeismicPhase
  NameSpec NameProofs RouteSpec RouteProofs RangeSpec RangeProofs SlowRealProofs StackProofs RealRun RouteProps.
Import ListNotations.
Local Open Scope string_scope.
Local Open Scope list_scope.

(** The ray parameters between minRayParam and maxRayParam of a constructed standard phase are exactly those of rays that leave the source
    and meet the bounds of all its legs.  (A diffracted phase is dropped if the end of the mantle lies in a high slowness zone.) *)
Theorem C55_range : forall {T} {N : Num T} {O : NumOrd T} {L : Libm T} (show : T -> string) w (t : tmodel T) tid legs v bs ph,
  (0 <= tm_sourceBranch t < tm_cmbBranch t)%Z -> (0 <= tm_mohoBranch t < tm_cmbBranch t)%Z ->
  (tm_cmbBranch t < tm_iocbBranch t < Z.of_nat (List.length (tm_P t)))%Z ->
  List.length (tm_S t) = List.length (tm_P t) ->
  (forall b, In b (tm_P t) \/ In b (tm_S t) -> n_ok (tb_maxRP b) /\ n_ok (tb_minTurnRP b) /\ n_ok (tb_minRP b)) ->
  n_ltb (tm_cmbDepth t) (tm_sourceDepth t) = false -> n_ltb (n_lit (-1) 0 : T) n_0 = true ->
  bounds (tm_sourceBranch t) (tm_mohoBranch t) (tm_cmbBranch t) (tm_iocbBranch t) (Z.of_nat (List.length (tm_P t))) legs v bs ->
  newPhase show w t tid (join legs) = Ok ph ->
  let belongs p := leaves t v p /\ Forall (meets t p) bs in
  (forall p, n_ok p -> n_leb n_0 p = true -> (n_leb (ph_min ph) p = true /\ n_leb p (ph_max ph) = true <-> belongs p)) \/
  (ph_max ph = n_lit (-1) 0 /\ (str_in "Sdiff" (join legs) || str_in "Pdiff" (join legs) = true) /\
   exists q c, belongs q /\ n_leb n_0 q = true /\ str_get (join legs) 0 = Ok c /\
     depthInHighSlowness (tm_sMod t) (n_sub (tm_cmbDepth t) (n_lit 1 (-10))) q (Ascii.eqb c "P") = true).
Proof.
  intros T N O L show w t tid legs v bs ph H1 H2 H3 HS Hok Hc Hneg Hb Hn belongs.
  destruct (bounds_cover _ _ _ _ _ _ _ _ Hb) as [path Ht].
  destruct (phase_range show w t tid _ ph Hn) as [legs' [s [Hl [Hp Hr]]]].
  rewrite (readable_puller legs (textbook_read _ _ _ _ _ _ _ Ht)) in Hl. injection Hl as <-.
  destruct (parse_range w t H1 H2 H3 HS Hok Hc legs v bs Hb (join legs) (parse_J _ _ _ _ _ Hp)) as [s' [Hp' R]].
  rewrite Hp in Hp'. injection Hp' as <-.
  assert (Neg : forall p : T, n_leb n_0 p = true -> n_leb p (n_lit (-1) 0) = true -> False).
  { intros p A B. assert (F : n_leb n_0 (n_lit (-1) 0 : T) = true) by (eapply ord_trans; eassumption).
    rewrite (ltb_not_leb _ _ Hneg) in F. discriminate. }
  assert (None_ : n_ltb (ps_max s) n_0 || n_ltb (ps_max s) (ps_min s) = true -> forall p, n_ok p -> n_leb n_0 p = true -> ~ belongs p).
  { intros Hx p Op Hp0 [B1 B2]. destruct R as [[R1 [R2 R3]]|[_ R]].
    - destruct (proj2 (R3 p Op) (conj (conj Hp0 B1) B2)) as [A1 A2].
      apply orb_true_iff in Hx. destruct Hx as [Hx|Hx].
      + assert (F : n_leb n_0 (ps_max s) = true) by (eapply ord_trans; eassumption).
        rewrite (ltb_not_leb _ _ Hx) in F. discriminate.
      + assert (F : n_leb (ps_min s) (ps_max s) = true) by (eapply ord_trans; eassumption).
        rewrite (ltb_not_leb _ _ Hx) in F. discriminate.
    - apply (R p Op). split; [split; assumption|assumption]. }
  destruct Hr as [[Hx [E1 E2]]|[Hx Hr]].
  - left. intros p Op Hp0. rewrite E1, E2. split; [intros [_ F]; destruct (Neg p Hp0 F)|].
    intros B. destruct (None_ Hx p Op Hp0 B).
  - destruct R as [R|[R _]]; [|rewrite R, Hneg in Hx; discriminate].
    destruct R as [R1 [R2 R3]]. apply orb_false_iff in Hx. destruct Hx as [Hx1 Hx2].
    destruct Hr as [[E1 E2]|[E1 [E2 [Hd [c [Hc0 Hz]]]]]].
    + left. intros p Op Hp0. rewrite E1, E2, (R3 p Op). unfold sat, start_ok, belongs. tauto.
    + right. split; [exact E1|]. split; [exact Hd|]. exists (ps_min s), c.
      assert (B : sat t (start_ok t v) bs (ps_min s)).
      { apply (R3 _ R2). split; [apply leb_refl; exact R2|]. apply ltb_false_leb; assumption. }
      destruct B as [[B1 B2] B3]. split; [split; assumption|]. auto.
Qed.
Print Assumptions C55_range.

(** Every standard name has such bounds, and only these names. *)
Theorem C55_bounds : forall sb moho cmb iocb n legs,
  (exists v bs, bounds sb moho cmb iocb n legs v bs) <-> (exists path, textbook sb moho cmb iocb n legs path).
Proof.
  intros. split.
  - intros [v [bs H]]. eapply bounds_cover. exact H.
  - intros [path H]. eapply bounds_exist. exact H.
Qed.
Print Assumptions C55_bounds.

(** The bounds of some phases written out: turning in the mantle; reflected as S at the core; PKiKP; PKIKS with its conversion at the
    core; the head wave along the Moho; the diffracted wave; pP. *)
Theorem C55_named : forall sb moho cmb iocb n,
  bounds sb moho cmb iocb n ["P"] true [AtLeast Turn (cmb - 1) true; AtMost Top 0 true] /\
  bounds sb moho cmb iocb n ["P"; "c"; "S"] true
    [AtMost Turn (cmb - 1) true; AtMost Turn (cmb - 1) true; AtMost Turn (cmb - 1) false; AtMost Top 0 false] /\
  bounds sb moho cmb iocb n ["P"; "K"; "i"; "K"; "P"] true
    [AtMost Through (cmb - 1) true; AtMost Turn (iocb - 1) true; AtMost Top cmb true; AtMost Top 0 true] /\
  bounds sb moho cmb iocb n ["P"; "K"; "I"; "K"; "S"] true
    [AtMost Through (cmb - 1) true; AtMost Through (iocb - 1) true; AtLeast Turn (n - 1) true; AtMost Top iocb true;
     AtMost Top cmb true; AtMost Top cmb true; AtMost Turn (cmb - 1) false; AtMost Top 0 false] /\
  ((sb < moho)%Z -> bounds sb moho cmb iocb n ["Pn"] true [Exactly Top moho true; AtMost Top 0 true]) /\
  bounds sb moho cmb iocb n ["Sdiff"] false [Exactly Turn (cmb - 1) false; AtMost Top 0 false] /\
  ((sb <> 0)%Z -> bounds sb moho cmb iocb n ["p"; "P"] true [AtMost Top 0 true; AtLeast Turn (cmb - 1) true; AtMost Top 0 true]).
Proof.
  intros sb moho cmb iocb n.
  assert (HP : forall x r, exists c y r', String "P" x :: r = String c y :: r' /\ (c = "P"%char /\ true = true \/ c = "S"%char /\ true = false)).
  { intros x r. exists "P"%char, x, r. auto. }
  split; [|split; [|split; [|split; [|split; [|split]]]]].
  - apply bd_down; [|apply HP]. apply alb_plain. eapply rsb_one. apply (rb_turn moho cmb iocb n sb Source "P" true). constructor.
  - apply bd_down; [|apply HP]. apply alb_plain. eapply rsb_one.
    apply (rb_reflect moho cmb iocb n sb Source "P" true "S" false); constructor.
  - apply bd_down; [|apply HP]. apply alb_plain. eapply rsb_one.
    apply (rb_core moho cmb iocb n sb Source "P" true ["K"; "i"; "K"] true [AtMost Turn (iocb - 1) true; AtMost Top cmb true] "P" true); [constructor| |constructor].
    apply cb_one, bb_reflect.
  - apply bd_down; [|apply HP]. apply alb_plain. eapply rsb_one.
    apply (rb_core moho cmb iocb n sb Source "P" true ["K"; "I"; "K"] true
             [AtMost Through (iocb - 1) true; AtLeast Turn (n - 1) true; AtMost Top iocb true; AtMost Top cmb true] "S" false); [constructor| |constructor].
    apply cb_one. apply (bb_inner cmb iocb n true ["I"] true [AtLeast Turn (n - 1) true; AtMost Top iocb true]).
    apply (ib_one iocb n (From Downwards (iocb - 1) true) "I" true). constructor.
  - intros Hs. apply bd_down; [|apply HP]. apply alb_plain. eapply rsb_one.
    pose proof (rb_moho moho cmb iocb n sb Source "P" true ltac:(constructor)) as H.
    destruct (Z.ltb_spec sb moho); [exact H|lia].
  - apply bd_down; [|exists "S"%char, "diff", []; auto]. eapply alb_one. apply (sb_diff moho cmb sb Source "S" false). constructor.
  - intros Hs.
    pose proof (bd_depth sb moho cmb iocb n "p" true ["P"] [AtLeast Turn (cmb - 1) true; AtMost Top 0 true] ltac:(constructor)) as H.
    unfold up_bounds in H. destruct (Z.eqb_spec sb 0); [contradiction|]. apply H.
    apply alb_plain. eapply rsb_one. apply (rb_turn moho cmb iocb n 0 (From Bounced 0 true) "P" true). constructor.
Qed.
Print Assumptions C55_named.

(** ** Hypotheses met: the Earth of C32, its limits are 4, 3, 3 | 3, 3, 3 | 3, 2, 2 | 2, 1, 1 *)
Lemma lit_neg : n_ltb (n_lit (-1) 0 : R) n_0 = true.
Proof. cbn. rewrite !Rlit_IZR. apply Rltb_IZR. Qed.
Lemma q_hyps : forall s, (s = 0 \/ s = 1)%Z ->
  (0 <= tm_sourceBranch (q_t s) < tm_cmbBranch (q_t s))%Z /\ (0 <= tm_mohoBranch (q_t s) < tm_cmbBranch (q_t s))%Z /\
  (tm_cmbBranch (q_t s) < tm_iocbBranch (q_t s) < Z.of_nat (List.length (tm_P (q_t s))))%Z /\
  List.length (tm_S (q_t s)) = List.length (tm_P (q_t s)) /\
  (forall b, In b (tm_P (q_t s)) \/ In b (tm_S (q_t s)) -> n_ok (tb_maxRP b) /\ n_ok (tb_minTurnRP b) /\ n_ok (tb_minRP b)) /\
  n_ltb (tm_cmbDepth (q_t s)) (tm_sourceDepth (q_t s)) = false.
Proof.
  intros s Hs. cbn. split; [lia|]. split; [lia|]. split; [lia|]. split; [reflexivity|]. split; [intros; repeat split; apply R_ok|].
  destruct Hs; subst; apply Rltb_IZR.
Qed.
Example C55_ex : exists ph, newPhase x_show [] (q_t 0) 0 "PKP" = Ok ph /\ ph_min ph = 2%R /\ ph_max ph = 3%R /\ ph_dist ph <> [].
Proof. eexists. split; [run|]. split; [reflexivity|]. split; [reflexivity|]. discriminate. Qed.
Example C55_ex_bounds : forall p, (0 <= p)%R ->
  (leaves (q_t 0) true p /\ Forall (meets (q_t 0) p)
     [AtMost Through 1 true; AtLeast Turn 2 true; AtMost Top 2 true; AtMost Top 0 true] <-> (2 <= p <= 3)%R).
Proof.
  intros p Hp. unfold leaves.
  repeat rewrite Forall_cons_iff. cbn [meets branch_at nth_error q_t tm_P tm_S tm_sourceBranch q_bs Z.to_nat Pos.to_nat Pos.iter_op Nat.add].
  assert (E : forall x y : R, (n_leb x y = true) <-> (x <= y)%R) by (intros x y; apply SlowRealProofs.Rleb_le).
  split.
  - intros [_ [[b1 [E1 A1]] [[b2 [E2 A2]] _]]]. injection E1 as <-. injection E2 as <-. apply E in A1, A2.
    cbn in A1, A2. lra.
  - intros [A B]. assert (M : forall q : R, (3 <= q)%R -> n_leb p q = true) by (intros q Hq; apply E; lra).
    split; [left; eexists; split; [reflexivity|]; apply M; cbn; lra|].
    split; [eexists; split; [reflexivity|]; apply M; cbn; lra|].
    split; [eexists; split; [reflexivity|]; apply E; cbn; lra|].
    split; [eexists; split; [reflexivity|]; apply M; cbn; lra|].
    split; [eexists; split; [reflexivity|]; apply M; cbn; lra|constructor].
Qed.
(** no ray meets the bounds: upgoing ray from a source at the surface *)
Example C55_ex_none : exists ph, newPhase x_show [] (q_t 0) 0 "pP" = Ok ph /\ ph_max ph = n_lit (-1) 0.
Proof. eexists. split; [run|]. cbn. symmetry. apply Rlit_IZR. Qed.
(** minus one is negative for doubles, too *)
Example C55_ex_double : n_ltb (n_lit (-1) 0 : b64) n_0 = true.
Proof. vm_compute. reflexivity. Qed.

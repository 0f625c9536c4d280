(** C32: standard phases follow the textbook ray. *)
From Coq Require Import ZArith Bool List String Ascii Reals Lia Lra.
From Verif Require Import Base Num PyStr VelocityModel SlownessLayer SlownessModel TauModel Legs SeismicPhase
  NameSpec NameProofs RouteSpec RouteProofs RealRun.
From Verif Require VelProofs.
Import ListNotations.
Local Open Scope string_scope.
Local Open Scope list_scope.

(** Every constructed phase whose name is built from standard legs has exactly the crossings of the textbook
    ray, in a layered Earth with any number of branches and a source above the core.  The exceptions are
    phases without rays: a diffracted, crustal or head wave that does not exist, an upgoing ray from a source
    at the surface, or a shear wave from a source in the fluid. *)
Theorem C32_sequence : forall {T} {N : Num T} {L : Libm T} (show : T -> string) w (t : tmodel T) tid legs path ph,
  (0 <= tm_sourceBranch t < tm_cmbBranch t)%Z -> (0 <= tm_mohoBranch t < tm_cmbBranch t)%Z ->
  (tm_cmbBranch t < tm_iocbBranch t < Z.of_nat (List.length (tm_P t)))%Z ->
  List.length (tm_S t) = List.length (tm_P t) ->
  textbook (tm_sourceBranch t) (tm_mohoBranch t) (tm_cmbBranch t) (tm_iocbBranch t) (Z.of_nat (List.length (tm_P t))) legs path ->
  newPhase show w t tid (join legs) = Ok ph ->
  map (fun s => (sg_branch s, sg_down s, sg_isP s)) (ph_seq ph) = path \/
  (ph_max ph = n_lit (-1) 0 /\
   ((exists x, In x legs /\ In x boundary_legs) \/
    ((exists r, legs = "p" :: r \/ legs = "s" :: r) /\ tm_sourceBranch t = 0%Z) \/
    ((exists c x r, legs = String c x :: r /\ (c = "s" \/ c = "S")%char) /\
     n_ltb (tm_cmbDepth t) (tm_sourceDepth t) = true /\ n_ltb (tm_sourceDepth t) (tm_iocbDepth t) = true))).
Proof.
  intros T N L show w t tid legs path ph H1 H2 H3 HS Ht H.
  destruct (phase_seq show w t tid (join legs) ph H) as [legs' [s [El [Ep [Es [_ [_ Em]]]]]]].
  rewrite (readable_puller legs (textbook_read _ _ _ _ _ _ _ Ht)) in El. injection El as <-.
  destruct (parse_textbook w t H1 H2 H3 HS legs path Ht (join legs) (parse_J w t _ _ _ Ep)) as [s' [E R]].
  rewrite Ep in E. injection E as <-. rewrite Es. destruct R as [R|[R B]]; [left; exact R|right].
  split; [destruct Em; congruence|exact B].
Qed.
Print Assumptions C32_sequence.

(** These names are read as written and never rejected (J legs need a model with shear waves in the inner
    core). *)
Theorem C32_accepted : forall {T} {N : Num T} (w : list T) (t : tmodel T) legs path,
  (0 <= tm_sourceBranch t < tm_cmbBranch t)%Z -> (0 <= tm_mohoBranch t < tm_cmbBranch t)%Z ->
  (tm_cmbBranch t < tm_iocbBranch t < Z.of_nat (List.length (tm_P t)))%Z ->
  List.length (tm_S t) = List.length (tm_P t) ->
  textbook (tm_sourceBranch t) (tm_mohoBranch t) (tm_cmbBranch t) (tm_iocbBranch t) (Z.of_nat (List.length (tm_P t))) legs path ->
  (has_char "J" (join legs) -> sm_allowInnerCoreS (tm_sMod t) = true) ->
  legPuller (join legs) = Ok (legs ++ ["END"]) /\
  exists s, parseName w t (join legs) (legs ++ ["END"]) = Ok (Some s).
Proof.
  intros T N w t legs path H1 H2 H3 HS Ht HJ.
  split; [apply (readable_puller legs (textbook_read _ _ _ _ _ _ _ Ht))|].
  assert (J : str_in "J" (join legs) && negb (sm_allowInnerCoreS (tm_sMod t)) = false).
  { destruct (str_in "J" (join legs)) eqn:E; [|reflexivity]. rewrite HJ; [reflexivity|].
    apply VelProofs.str_in_iff in E. destruct E as [a [b E]]. exists a, b. exact E. }
  destruct (parse_textbook w t H1 H2 H3 HS legs path Ht (join legs) J) as [s' [E R]]. eauto.
Qed.
Print Assumptions C32_accepted.

(** ** All default phases are of this form *)
Section Default.
  Variables sb moho cmb iocb n : Z.
  Lemma rays_at : forall k start legs p p', ray moho cmb iocb n start (firstn k legs) p ->
    rays moho cmb iocb n 0 (skipn k legs) p' -> rays moho cmb iocb n start legs (p ++ p').
  Proof. intros k start legs p p' H H'. rewrite <- (firstn_skipn k legs). apply rs_more; assumption. Qed.
  Lemma core_at : forall k v legs v1 p v2 p', bounce cmb iocb n v (firstn k legs) v1 p ->
    core cmb iocb n v1 (skipn k legs) v2 p' -> core cmb iocb n v legs v2 (p ++ p').
  Proof. intros k v legs v1 p v2 p' H H'. rewrite <- (firstn_skipn k legs). eapply co_more; eassumption. Qed.
  Lemma ray_through : forall start x v r v' path y u, mantle_leg x v -> core cmb iocb n v (removelast r) v' path ->
    r <> [] -> last r "" = y -> mantle_leg y u ->
    ray moho cmb iocb n start (x :: r) (down v start cmb ++ path ++ up u 0 cmb).
  Proof.
    intros start x v r v' path y u Hx Hc Hr E Hy. rewrite (app_removelast_last "" Hr), E. eapply ra_core; eassumption.
  Qed.
  Lemma bounce_through : forall v r v' path, inner_core iocb n (removelast r) v' path ->
    r <> [] -> last r "" = "K" ->
    bounce cmb iocb n v ("K" :: r) v' (down v cmb iocb ++ path ++ up v' cmb iocb).
  Proof.
    intros v r v' path Hi Hr E. rewrite (app_removelast_last "" Hr), E. apply bo_inner. assumption.
  Qed.

  Ltac letter := first [apply ml_P | apply ml_S | apply il_I | apply il_J | apply ul_p | apply ul_s].
  Ltac inner_tac := first [apply ic_one; letter | eapply ic_more; [letter|inner_tac]].
  Ltac bounce_tac := cbn [firstn skipn]; first [apply bo_turn | apply bo_reflect
    | eapply bounce_through; [cbn [removelast]; inner_tac|discriminate|reflexivity]].
  Ltac core_tac := cbn [firstn skipn removelast]; first [apply co_one; bounce_tac
    | eapply (core_at 1); [bounce_tac|core_tac] | eapply (core_at 3); [bounce_tac|core_tac]].
  Ltac ray_tac := cbn [firstn skipn]; first [apply ra_turn; letter | eapply ra_reflect; letter
    | apply (ra_moho _ _ _ _ _ "P"); letter | apply (ra_moho _ _ _ _ _ "S"); letter
    | eapply ray_through; [letter|core_tac|discriminate|reflexivity|letter]].
  Ltac rays_tac := cbn [skipn]; first [apply rs_one; ray_tac
    | eapply (rays_at 1); [ray_tac|rays_tac] | eapply (rays_at 3); [ray_tac|rays_tac]
    | eapply (rays_at 5); [ray_tac|rays_tac]].
  Ltac all_tac := first [apply ar_one; first [apply (sr_diff _ _ _ "P"); letter | apply (sr_diff _ _ _ "S"); letter]
    | apply ar_plain; rays_tac].
  Ltac text_tac := first [apply te_up; letter | eapply te_depth; [letter|all_tac] | apply te_down; all_tac].
  Ltac legs_of x :=
    let r := eval vm_compute in (legPuller x) in
    match r with Ok ?l => let l' := eval vm_compute in (removelast l) in
      exists l'; eexists; split; [text_tac|reflexivity] end.

  Theorem default_textbook : forall x, In x group_ttall ->
    exists legs path, textbook sb moho cmb iocb n legs path /\ join legs = x.
  Proof.
    unfold group_ttall. cbn [In]. intros x H.
    repeat (destruct H as [H|H]; [subst x; match goal with |- exists _ _, _ /\ _ = ?x => legs_of x end|]).
    contradiction.
  Qed.
End Default.

(** Every phase of the default list is of this form, so the theorems above apply to each of them. *)
Theorem C32_default : forall sb moho cmb iocb n x, In x group_ttall ->
  exists legs path, textbook sb moho cmb iocb n legs path /\ join legs = x.
Proof. exact default_textbook. Qed.
Print Assumptions C32_default.

(** Some of them written out. *)
Section Named.
  Variables sb moho cmb iocb n : Z.
  Theorem C32_named :
    textbook sb moho cmb iocb n ["P"; "K"; "i"; "K"; "P"]
      (down true sb cmb ++ (down true cmb iocb ++ up true cmb iocb) ++ up true 0 cmb) /\
    textbook sb moho cmb iocb n ["P"; "K"; "I"; "K"; "P"]
      (down true sb cmb ++ (down true cmb iocb ++ (down true iocb n ++ up true iocb n) ++ up true cmb iocb) ++ up true 0 cmb) /\
    textbook sb moho cmb iocb n ["p"; "P"; "K"; "P"]
      (up true 0 sb ++ down true 0 cmb ++ (down true cmb iocb ++ up true cmb iocb) ++ up true 0 cmb) /\
    textbook sb moho cmb iocb n ["S"; "c"; "P"] (down false sb cmb ++ up true 0 cmb) /\
    textbook sb moho cmb iocb n ["P"; "S"] ((down true sb cmb ++ up true 0 cmb) ++ down false 0 cmb ++ up false 0 cmb) /\
    textbook sb moho cmb iocb n ["Pn"] (down true sb (moho + 1) ++ up true 0 (moho + 1)).
  Proof.
    split; [apply te_down, ar_plain, rs_one, (ra_core _ _ _ _ _ "P" true ["K"; "i"; "K"] true _ "P");
            [apply ml_P|apply co_one, bo_reflect|apply ml_P]|].
    split; [apply te_down, ar_plain, rs_one, (ra_core _ _ _ _ _ "P" true ["K"; "I"; "K"] true _ "P");
            [apply ml_P|apply co_one, (bo_inner _ _ _ _ ["I"]), ic_one, il_I|apply ml_P]|].
    split; [apply (te_depth _ _ _ _ _ "p" true ["P"; "K"; "P"]);
            [apply ul_p|apply ar_plain, rs_one, (ra_core _ _ _ _ _ "P" true ["K"] true _ "P");
                        [apply ml_P|apply co_one, bo_turn|apply ml_P]]|].
    split; [apply te_down, ar_plain, rs_one, ra_reflect; [apply ml_S|apply ml_P]|].
    split; [apply te_down, ar_plain, (rs_more _ _ _ _ _ ["P"] _ ["S"]); [apply ra_turn, ml_P|apply rs_one, ra_turn, ml_S]|].
    apply te_down, ar_plain, rs_one, (ra_moho _ _ _ _ _ "P"), ml_P.
  Qed.
End Named.
Print Assumptions C32_named.

(** ** Hypotheses met: two mantle branches, one outer and one inner core branch *)
Definition q_bs (isP : bool) : list (tbranch R) :=
  [xb isP 0 1 4 3 3 [1; 2; 4; 8] [5; 7; 9; 11]; xb isP 1 2 3 3 3 [0; 3; 5; 7] [0; 6; 8; 10];
   xb isP 2 3 3 2 2 [0; 1; 1; 3] [0; 1; 2; 4]; xb isP 3 4 2 1 1 [0; 0; 1; 3] [0; 0; 2; 4]]%R.
Definition q_t (src : Z) : tmodel R :=
  mkTM (x_s [] []) [4; 3; 2; 1]%R (q_bs true) (q_bs false) 1%Z 2%Z 3%Z 1%R 2%R 3%R (IZR src) src 4%R.
Example C32_ex : exists ph, newPhase x_show [] (q_t 1) 0 "pPKiKS" = Ok ph /\ ph_dist ph <> [] /\
  map view (ph_seq ph) =
    [(0, false, true); (0, true, true); (1, true, true); (2, true, true); (2, false, true); (1, false, false); (0, false, false)]%Z /\
  textbook 1 1 2 3 4 ["p"; "P"; "K"; "i"; "K"; "S"]
    [(0, false, true); (0, true, true); (1, true, true); (2, true, true); (2, false, true); (1, false, false); (0, false, false)]%Z.
Proof.
  eexists. split; [run|]. split; [discriminate|]. split; [reflexivity|].
  change [(0, false, true); (0, true, true); (1, true, true); (2, true, true); (2, false, true); (1, false, false); (0, false, false)]%Z
    with (up true 0 1 ++ down true 0 2 ++ (down true 2 3 ++ up true 2 3) ++ up false 0 2).
  apply (te_depth _ _ _ _ _ "p" true); [apply ul_p|].
  apply ar_plain, rs_one, (ra_core _ _ _ _ _ "P" true ["K"; "i"; "K"] true _ "S"); [apply ml_P|apply co_one, bo_reflect|apply ml_S].
Qed.
(** many legs *)
Example C32_ex_long : exists ph, newPhase x_show [] (q_t 0) 0 "PKIKKIKPPcS" = Ok ph /\ List.length (ph_seq ph) = 16%nat.
Proof. eexists. split; [run|]. reflexivity. Qed.
(** no ray: p from a source at the surface *)
Example C32_ex_none : exists ph, newPhase x_show [] (q_t 0) 0 "p" = Ok ph /\ ph_max ph = n_lit (-1) 0 /\ ph_dist ph = [].
Proof. eexists. split; [run|]. split; [cbn; symmetry; apply Rlit_IZR|reflexivity]. Qed.

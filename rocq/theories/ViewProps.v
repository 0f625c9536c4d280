(** Drawn ray paths (C60) and printed pierce points (C61). *)
From Coq Require Import ZArith NArith Bool List String Ascii Reals Lra Lia Sorting.Sorted.
From Verif Require Import Base Num PyStr VelocityModel SlownessLayer SlownessModel SlowSpec TauModel Legs SeismicPhase
  Pierce TauPTime Printing Views TauSpec VelSpec TimeSpec CurveSpec PierceSpec PathSpec PrintSpec PrintProofs
  ViewSpec ViewProofs CalcTimeProofs TimeProps CurveProofs CurveProps PierceProps PathProps Toy.
Import ListNotations.
Local Open Scope list_scope.
Local Open Scope R_scope.

(** ** C60: drawing a path *)

(** For an arrival whose path never goes back, a line about the arrival is printed and then one line for
    each point of the drawing. *)
Theorem C60_lines : forall show radius tmax inc modelName (a : arrival R), 0 < inc ->
  never_back (ar_path a) -> (forall x, hd_error (ar_path a) = Some x -> 0 <= td_dist x) ->
  exists s dots lines, heading show modelName a s /\ drawn tmax inc (ar_rayParam a) (ar_path a) dots /\
    Forall2 (dot_line radius (long_way a)) dots lines /\
    print_pathed show radius tmax inc modelName a = (s :: lines, Ok tt).
Proof.
  intros show radius tmax inc modelName a Hi Hb H0.
  assert (Hnb : not_back (ar_path a)).
  { split; [exact Hb|]. destruct (ar_path a) as [|x l]; [constructor|]. specialize (H0 x eq_refl). constructor; [exact H0|].
    apply Forall_forall. intros y Hy. apply In_nth_error in Hy. destruct Hy as [i Ei].
    destruct (Hb 0%nat (S i) x y ltac:(lia) eq_refl Ei). lra. }
  destruct (heading_R show modelName a) as [s [Es Hs]]. destruct (longWay_R a) as [b [Eb Hlong]].
  destruct (path_drawn radius tmax inc (ar_rayParam a) b Hi (ar_path a) None Hnb ltac:(discriminate)) as [dots [Hd Ed]].
  exists s, dots, (map (line_of radius b) dots). split; [exact Hs|]. split; [exact Hd|]. split.
  - clear - Hlong. induction dots as [|q dots IH]; cbn [map]; constructor; [|exact IH]. apply (dot_line_iff _ _ _ _ _ Hlong). apply dot_line_of.
  - unfold print_pathed. rewrite Es, ob_ok, ob_say, Eb, ob_ok, Ed. reflexivity.
Qed.

(** What a drawing shows, for a path that never goes back and that starts at a distance that is not
    negative: only points on the path and up to the given time; they are in the order of the path, and
    neighbouring points are at most [inc] degrees apart unless the ray is vertical; all points of the path
    before the given time; and it ends with the end of the path or with the point at the given time. *)
Theorem C60_drawing : forall tmax inc p l dots, 0 < inc -> never_back l ->
  (forall x, hd_error l = Some x -> 0 <= td_dist x) -> drawn tmax inc p l dots ->
  (forall q, In q dots -> on_path l q /\ dot_time q <= tmax) /\
  (forall q q', next_to dots q q' -> dot_time q <= dot_time q' /\ dot_dist q <= dot_dist q' /\
                                     (p <> 0 -> dot_dist q' - dot_dist q <= inc)) /\
  (forall x, In x l -> td_time x < tmax -> In (dot_at x) dots) /\
  (forall x, hd_error l = Some x -> td_time x <= tmax ->
     exists e, ends_with dots e /\
       ((exists y, In y l /\ tmax <= td_time y) -> dot_time e = tmax) /\
       ((forall y, In y l -> td_time y < tmax) -> exists y, ends_with l y /\ e = dot_at y)).
Proof.
  intros tmax inc p l dots Hi Hb H0 Hd.
  assert (Hnb : not_back l).
  { split; [exact Hb|]. destruct l as [|x l]; [constructor|]. specialize (H0 x eq_refl). constructor; [exact H0|].
    apply Forall_forall. intros y Hy. apply In_nth_error in Hy. destruct Hy as [i Ei].
    destruct (Hb 0%nat (S i) x y ltac:(lia) eq_refl Ei). lra. }
  split; [apply (drawn_on_path _ _ _ _ _ Hd Hnb)|]. split.
  - intros q q' Hn. exact (sorted_next _ _ _ _ (drawn_sorted _ _ _ _ _ Hd Hnb) Hn).
  - split; [apply (drawn_all _ _ _ _ _ Hd Hnb)|apply (drawn_end _ _ _ _ _ Hd Hnb)].
Qed.

(** The paths computed for a phase can be drawn: they never go back.  For waves along a boundary the
    curve of the phase must consist of two points (it does, see [C34_diffracted] and
    [C34_head_wave_refuted]). *)
Theorem C60_paths : forall fuel (ph : phase R) deg l a, path_ready (ph_tMod ph) ->
  (forall w, List.length (sm_layers (tm_sMod (ph_tMod ph)) w) <= fuel)%nat ->
  (forall p, In p (ph_rayParams ph) -> 0 <= p) ->
  (diffracted (ph_name ph) \/ head_wave (ph_name ph) -> exists d0 d1, ph_dist ph = [d0; d1] /\ d0 <= d1) ->
  calcPath fuel ph deg = Ok l -> In a l ->
  never_back (ar_path a) /\ (forall x, hd_error (ar_path a) = Some x -> 0 <= td_dist x).
Proof.
  intros fuel ph deg l a Hr Hf Hp Hdf H Hin. unfold calcPath in H. destruct (ph_calcTime fuel ph deg) as [arrs| |] eqn:Hc; cbn [bind] in H; try discriminate H.
  assert (M : exists a0, In a0 arrs /\ calcPathFromArrival fuel ph a0 = Ok a).
  { clear - H Hin. revert l H Hin. induction arrs as [|x arrs IH]; intros l H Hin; cbn [mapM] in H.
    - injection H as <-. destruct Hin.
    - inv_bind H. inv_bind H. injection H as <-. destruct Hin as [<-|Hin]; [exists x; split; [left; reflexivity|assumption]|].
      destruct (IH _ Ha0 Hin) as [y [Hy Ey]]. exists y. split; [right; exact Hy|exact Ey]. }
  destruct M as [a0 [Hin0 Ha0]]. destruct (C06_arrival_distance _ _ _ _ _ Hc Hin0) as [Hd0 _].
  destruct (C08_interpolation _ _ _ _ _ Hc Hin0) as [i [d0 [d1 [t0 [t1 [p0 [p1 [_ [D0 [D1 [_ [_ [P0 [P1 [_ [_ [Bd [_ Bp]]]]]]]]]]]]]]]]]].
  apply nth_error_In in P0, P1. assert (Hrp : 0 <= ar_rayParam a0) by (pose proof (Hp _ P0); pose proof (Hp _ P1); destruct Bp; lra).
  split.
  - apply (C36_never_back fuel ph a0 a Hr Hf Ha0 Hrp Hd0). intros Hx e0 He0. destruct (Hdf Hx) as [e [e1 [E Le]]]. rewrite E in *.
    apply at_index_nonneg in He0; [|lia]. injection He0 as <-. destruct i as [|i]; [|destruct i as [|i]; [|destruct i]; discriminate].
    injection D0 as <-. injection D1 as <-. destruct Bd; lra.
  - intros x Hx. apply (C36_path fuel ph a0 a Hr Hf) in Ha0. destruct Ha0 as [ps [last [path [_ [_ [[Hlen Hrun] ->]]]]]]. cbn [ar_path] in Hx.
    destruct path as [|y path]; [discriminate|]. injection Hx as <-. destruct (Hrun 0%nat y eq_refl) as [z [_ ->]].
    cbn [td_dist firstn total fold_right]. lra.
Qed.

(** Printing all arrivals of a list prints, in order, what is printed for each, if none fails. *)
Theorem C60_all_arrivals : forall {T} {N : Num T} {L : Libm T} {D : Dec T} (f : arrival T -> out unit) l,
  (forall a, In a l -> snd (f a) = Ok tt) -> for_all_of f l = (List.concat (map (fun a => fst (f a)) l), Ok tt).
Proof.
  intros T N L D f l. induction l as [|a l IH]; intros H; [reflexivity|]. cbn [for_all_of map List.concat].
  unfold obind. rewrite (H a (or_introl eq_refl)). rewrite IH by (intros b Hb; apply H; right; exact Hb). reflexivity.
Qed.

(** After a run for paths, everything is printed: for each arrival the line about it and then its drawing. *)
Theorem C60_run : forall show fuel order w (s : ttime R) adds pl depth degrees coords w' s' tmax inc modelName, 0 < inc ->
  view_run show (calcPath fuel) fuel order w s adds pl depth degrees coords = Ok (w', s') ->
  (forall ph, In ph (tt_phases s') -> path_ready (ph_tMod ph) /\
    (forall w, List.length (sm_layers (tm_sMod (ph_tMod ph)) w) <= fuel)%nat /\
    (forall p, In p (ph_rayParams ph) -> 0 <= p) /\
    (diffracted (ph_name ph) \/ head_wave (ph_name ph) -> exists d0 d1, ph_dist ph = [d0; d1] /\ d0 <= d1)) ->
  exists parts, path_printResult show tmax inc modelName s' = (List.concat parts, Ok tt) /\
    Forall2 (fun a part => exists line dots lines, part = line :: lines /\ heading show modelName a line /\
      drawn tmax inc (ar_rayParam a) (ar_path a) dots /\
      Forall2 (dot_line (tm_radius (tt_tModDepth s')) (long_way a)) dots lines) (tt_arrivals s') parts.
Proof.
  intros show fuel order w s adds pl depth degrees coords w' s' tmax inc modelName Hi H Hph.
  assert (X : forall a, In a (tt_arrivals s') -> never_back (ar_path a) /\ (forall x, hd_error (ar_path a) = Some x -> 0 <= td_dist x)).
  { unfold view_run in H. destruct (query_degrees degrees coords) as [deg| |]; cbn [bind] in H; try discriminate H.
    destruct (pp_depthCorrect _ _ _ _ _ _) as [[w1 s1]| |]; cbn [bind] in H; try discriminate H. unfold view_calculate in H.
    destruct (pp_depthCorrect _ _ _ _ _ _) as [[w2 s2]| |]; cbn [bind] in H; try discriminate H.
    destruct (recalcPhases show w2 s2) as [s3| |]; cbn [bind] in H; try discriminate H. unfold view_calc in H.
    destruct (mapM _ (tt_phases s3)) as [ls| |] eqn:El; cbn [bind] in H; try discriminate H. injection H as _ <-.
    cbn [tt_phases tt_arrivals] in *. revert ls El Hph. generalize (tt_phases s3). clear - show.
    induction l as [|ph l IH]; intros ls El Hph a Ha; cbn [mapM] in El.
    - injection El as <-. destruct Ha.
    - destruct (calcPath fuel ph deg) as [l1| |] eqn:E1; cbn [bind] in El; try discriminate El.
      destruct (mapM _ l) as [l2| |] eqn:E2; cbn [bind] in El; try discriminate El. injection El as <-. cbn [List.concat] in Ha.
      apply in_app_iff in Ha. destruct Ha as [Ha|Ha].
      + destruct (Hph ph (or_introl eq_refl)) as [A [B [C E]]]. exact (C60_paths fuel ph deg l1 a A B C E E1 Ha).
      + apply (IH _ eq_refl); [intros p Hp; apply Hph; right; exact Hp|exact Ha]. }
  unfold path_printResult. revert X. generalize (tt_arrivals s') as l. generalize (tm_radius (tt_tModDepth s')) as rad. intros rad.
  clear - Hi. induction l as [|a l IH]; intros X; [exists []; split; [reflexivity|constructor]|].
  destruct (X a (or_introl eq_refl)) as [Xb X0]. destruct (C60_lines show rad tmax inc modelName a Hi Xb X0) as [line [dots [lines [A [B [C E]]]]]].
  destruct (IH ltac:(intros b Hb; apply X; right; exact Hb)) as [parts [P F]].
  exists ((line :: lines) :: parts). cbn [for_all_of]. rewrite E, ob_said, P. cbn [fst snd List.concat]. split; [reflexivity|].
  constructor; [|exact F]. exists line, dots, lines. auto.
Qed.

(** "A path that goes back is an error" is wrong: only distances below zero are noticed, since the point
    before is never stored.  Every path without negative distances is printed. *)
Theorem C60_backtracking_refuted : forall show radius tmax inc modelName (a : arrival R), 0 < inc ->
  (snd (print_pathed show radius tmax inc modelName a) = Ok tt <->
   snd (print_pathed show radius tmax inc modelName a) <> Raise RuntimeError) /\
  ((forall x, In x (ar_path a) -> 0 <= td_dist x) -> snd (print_pathed show radius tmax inc modelName a) = Ok tt).
Proof.
  intros show radius tmax inc modelName a Hi.
  assert (Bt : forall long x y n l t dd, (1 < n)%Z -> snd (print_between radius tmax long x y n l t dd) = Ok tt).
  { intros long x y n l. induction l as [|k l IH]; intros t dd Hn; [reflexivity|]. cbn [print_between].
    assert (IZR n <> 0) by (apply not_0_IZR; lia). rewrite !n_int_R, py_div_R, ob_ok by assumption. cbv zeta.
    destruct (n_ltb tmax _); [reflexivity|]. rewrite !deg_R, !ob_ok, py_div_R, ob_ok, py_div_R, ob_ok by assumption.
    unfold printDistRadius. rewrite ob_say. cbn [snd]. apply IH. exact Hn. }
  assert (M : forall long p l prev, (forall r, snd (print_path radius tmax inc p long prev l) = r -> r = Ok tt \/ r = Raise RuntimeError) /\
    ((forall x, In x l -> 0 <= td_dist x) -> snd (print_path radius tmax inc p long prev l) = Ok tt)).
  { intros long p l. induction l as [|x l IH]; intros prev; [split; [intros r <-; left; reflexivity|reflexivity]|].
    cbn [print_path]. rewrite n_0_R. cbn [n_ltb Num_R]. destruct (Rltb_spec (td_dist x) 0) as [F|G].
    { split; [intros r <-; right; reflexivity|]. intros H. specialize (H x (or_introl eq_refl)). lra. }
    rewrite deg_R, ob_ok. destruct (Rltb_spec tmax (td_time x)) as [F|G1].
    { assert (E : snd match prev with
                      | Some pv => if n_ltb (td_time pv) tmax then obind (quiet (td_distDeg pv)) (fun pd =>
                          printDistRadius (other_way long (np_interp tmax (td_time pv) (td_time x) pd (degrees_of x)))
                            (n_sub radius (np_interp tmax (td_time pv) (td_time x) (td_depth pv) (td_depth x)))) else quiet (Ok tt)
                      | None => quiet (Ok tt) end = Ok tt).
      { destruct prev as [pv|]; [|reflexivity]. destruct (n_ltb (td_time pv) tmax); [|reflexivity]. rewrite deg_R, ob_ok. reflexivity. }
      split; [intros r <-; left; exact E|intros _; exact E]. }
    cbv zeta. unfold printDistRadius. rewrite !ob_say. cbn [snd]. destruct (n_leb tmax (td_time x)); [split; [intros r <-; left; reflexivity|reflexivity]|].
    match goal with |- context [obind ?m _] => assert (E : exists lines, m = (lines, Ok tt)) end.
    { destruct l as [|y l]; [eexists; reflexivity|]. destruct (negb (n_eqb p 0)); [|eexists; reflexivity]. rewrite deg_R, ob_ok.
      cbn [n_sub Num_R]. destruct (Rltb_spec inc (degrees_of y - degrees_of x)) as [Hbig|_]; [|eexists; reflexivity].
      rewrite py_div_R, ob_ok by lra. match goal with |- exists _, ?b = _ => rewrite (surjective_pairing b), Bt end; [eexists; reflexivity|].
      cbn [n_ceil Num_R]. destruct (Rceil_ub ((degrees_of y - degrees_of x) / inc)) as [A _]. apply lt_IZR. eapply Rlt_le_trans; [|exact A].
      apply (Rmult_lt_reg_r inc); [exact Hi|]. unfold Rdiv. rewrite Rmult_assoc, Rinv_l by lra. lra. }
    destruct E as [lines ->]. rewrite ob_said. cbn [snd]. destruct (IH (Some x)) as [A B]. split; [exact A|].
    intros H. apply B. intros y Hy. apply H. right. exact Hy. }
  destruct (heading_R show modelName a) as [s [Es _]]. destruct (longWay_R a) as [b [Eb _]].
  unfold print_pathed. rewrite Es, ob_ok, ob_say, Eb, ob_ok. cbn [snd]. destruct (M b (ar_rayParam a) (ar_path a) None) as [A B].
  split; [|exact B]. destruct (A _ eq_refl) as [E|E]; rewrite E; split; congruence.
Qed.
Example C60_backtracking_ex : exists a : arrival R,
  ~ never_back (ar_path a) /\ (forall x, In x (ar_path a) -> 0 <= td_dist x).
Proof.
  exists (mkArr 20 1 5 0 "P" "P" 10 30 20 [] [mkTD 5 0 0 10; mkTD 5 10 2 100; mkTD 5 20 1 0]). cbn [ar_path]. split.
  - intros H. destruct (H 1%nat 2%nat _ _ ltac:(lia) eq_refl eq_refl) as [_ F]. cbn in F. lra.
  - intros x [<-|[<-|[<-|[]]]]; cbn; lra.
Qed.

(** a path and its drawing: 2.5 degrees in steps of at most one degree, stopped after 20 s *)
Definition drawn_arrival : arrival R :=
  mkArr 40 (PI / 36) 5 0 "P" "P" 10 30 20 []
    [mkTD 5 0 0 10; mkTD 5 10 (PI / 72) 110; mkTD 5 40 (PI / 36) 0].
Example C60_drawing_ex : never_back (ar_path drawn_arrival) /\
  (forall x, hd_error (ar_path drawn_arrival) = Some x -> 0 <= td_dist x) /\
  drawn 25 1 5 (ar_path drawn_arrival)
    [(0, 0, 10); (10 / 3, 5 / 6, 10 + 100 / 3); (20 / 3, 5 / 3, 10 + 200 / 3); (10, 5 / 2, 110);
     (20, 10 / 3, 110 - 110 / 3); (25, 15 / 4, 55)].
Proof.
  pose proof PI_RGT_0 as HP. unfold drawn_arrival. cbn [ar_path]. split; [|split].
  - intros m n x y Hmn Hx Hy. destruct m as [|[|[|m]]], n as [|[|[|n]]]; try lia; cbn in Hx, Hy;
      try discriminate; try (destruct m; discriminate); try (destruct n; discriminate);
      injection Hx as <-; injection Hy as <-; cbn; split; lra.
  - intros x Hx. injection Hx as <-. cbn. lra.
  - assert (A : degrees_of (mkTD 5 0 0 10) = 0) by (unfold degrees_of; cbn; lra).
    assert (B : degrees_of (mkTD 5 10 (PI / 72) 110) = 5 / 2) by (unfold degrees_of; cbn; field; lra).
    assert (C : degrees_of (mkTD 5 40 (PI / 36) 0) = 5) by (unfold degrees_of; cbn; field; lra).
    assert (Three : forall x y : timedist R, degrees_of y - degrees_of x = 5 / 2 -> pieces 1 5 x y 3).
    { intros x y E. split; [lia|]. split; [intros F; lra|]. intros _. rewrite E. split; [cbn; lra|].
      intros k Hk H. destruct k as [|[|[|k]]]; [lia| | |lia]; cbn in H; lra. }
    replace [(0, 0, 10); (10 / 3, 5 / 6, 10 + 100 / 3); (20 / 3, 5 / 3, 10 + 200 / 3); (10, 5 / 2, 110);
             (20, 10 / 3, 110 - 110 / 3); (25, 15 / 4, 55)]
      with (dot_at (mkTD 5 0 0 10) :: cuts (mkTD 5 0 0 10) (mkTD 5 10 (PI / 72) 110) 3 ++
            [dot_at (mkTD 5 10 (PI / 72) 110); dot_between (mkTD 5 10 (PI / 72) 110) (mkTD 5 40 (PI / 36) 0) (INR 1 / INR 3);
             dot_between (mkTD 5 10 (PI / 72) 110) (mkTD 5 40 (PI / 36) 0) (1 / 2)]).
    2:{ unfold cuts, dot_at, dot_between. rewrite A, B, C. cbn [seq map Nat.sub app INR td_time td_depth].
        assert (P3 : forall a b c a' b' c' : R, a = a' -> b = b' -> c = c' -> (a, b, c) = (a', b', c')) by (intros; subst; reflexivity).
        repeat (apply f_equal2; [apply P3; field|]). reflexivity. }
    apply drawn_on; [cbn; lra|cbn; lra|apply Three; lra|].
    eapply (drawn_cut 25 1 5 (mkTD 5 10 (PI / 72) 110) (mkTD 5 40 (PI / 36) 0) [] 3 [dot_between _ _ (INR 1 / INR 3)] [dot_between _ _ (INR 2 / INR 3)] (1 / 2));
      [cbn; lra|cbn; lra|apply Three; lra|reflexivity| | |].
    + intros q [<-|[]]. unfold dot_between, dot_time. cbn. lra.
    + intros q [<-|[]]. unfold dot_between, dot_time. cbn. lra.
    + unfold dot_between, dot_time. cbn. lra.
Qed.

(** ** C61: printing pierce points *)

(** For an arrival with pierce points, a line about the arrival is printed and then one line for each
    selected point; without pierce points only the first line is printed and IndexError is raised. *)
Theorem C61_lines : forall show (c : choice (T := R)) modelName (a : arrival R),
  exists s, heading show modelName a s /\
    (ar_pierce a = [] -> print_pierced show c modelName a = ([s], Raise IndexError)) /\
    (forall first l, ar_pierce a = first :: l -> exists lines,
       print_pierced show c modelName a = (s :: lines, Ok tt) /\
       rows (shown (wants c) (td_depth first)) (pierce_row (long_way a)) 0 (first :: l) lines).
Proof.
  intros show c modelName a. destruct (heading_R show modelName a) as [s [Es Hs]]. destruct (longWay_R a) as [b [Eb Hlong]].
  exists s. split; [exact Hs|]. unfold print_pierced. rewrite Es, ob_ok, ob_say, Eb, ob_ok. split.
  - intros E. rewrite E. reflexivity.
  - intros first l E. rewrite E. change (py_index (first :: l) 0) with (@Ok (timedist R) first). rewrite ob_ok.
    destruct (print_pierce_R c b (td_depth first) (first :: l) 0) as [lines [El Hl]]. rewrite El. exists lines. split; [reflexivity|].
    eapply rows_iff; [|exact Hl]. intros x t. apply pierce_row_iff. exact Hlong.
Qed.

(** If no kind of point is chosen, all are printed; if depths are chosen, those at these depths. *)
Theorem C61_which : forall (c : choice (T := R)) first j z nz,
  (only_turn c = false -> only_rev c = false -> only_under c = false -> only_add c = false -> shown (wants c) first j z nz) /\
  (only_turn c = false -> only_rev c = false -> only_under c = false -> only_add c = true ->
     (shown (wants c) first j z nz <-> In z (add_depths c))).
Proof.
  intros [t rv u ad ds] first j z nz. unfold shown, wants. cbn. split; intros -> -> -> ->.
  - left. repeat split; discriminate.
  - split; [|intros H; right; left; split; [reflexivity|exact H]].
    intros [[_ [_ [_ F]]]|[[_ H]|[[F _]|[[F _]|[F _]]]]]; try discriminate; [exfalso; apply F; reflexivity|exact H].
Qed.
Theorem C61_all : forall show (c : choice (T := R)) modelName (a : arrival R),
  only_turn c = false -> only_rev c = false -> only_under c = false -> only_add c = false -> ar_pierce a <> [] ->
  exists s lines, heading show modelName a s /\ Forall2 (pierce_row (long_way a)) (ar_pierce a) lines /\
    print_pierced show c modelName a = (s :: lines, Ok tt).
Proof.
  intros show c modelName a H1 H2 H3 H4 Hne. destruct (C61_lines show c modelName a) as [s [Hs [_ H]]].
  destruct (ar_pierce a) as [|first l] eqn:E; [congruence|]. destruct (H first l eq_refl) as [lines [El Hl]].
  exists s, lines. split; [exact Hs|]. split; [|exact El]. revert Hl. generalize 0%nat. generalize (first :: l). intros ps. revert lines El.
  clear H E Hne. intros lines _ n Hl. induction Hl as [|j x l' t lines nz _ _ Hr _ IH|j x l' lines nz _ F _ _].
  - constructor.
  - constructor; assumption.
  - exfalso. apply F. apply (proj1 (C61_which c (td_depth first) j (td_depth x) nz)); assumption.
Qed.

(** Computed pierce points always include the source, so after a run for pierce points everything is printed:
    for each arrival, in order, the line about it and one line for each selected point. *)
Lemma pierce_some : forall {T} {N : Num T} {L : Libm T} (ph : phase T) a a', calcPierceFromArrival ph a = Ok a' -> ar_pierce a' <> [].
Proof.
  intros T N L ph a a' H. unfold calcPierceFromArrival in H.
  do 5 match type of H with bind ?c _ = _ => destruct c as [?| |]; cbn [bind] in H; try discriminate H end.
  match type of H with bind (foldM ?f ?l ?x) _ = _ => destruct (foldM f l x) as [st| |] eqn:E; cbn [bind] in H; try discriminate H;
    assert (Hne : pc_out st <> []) end.
  { revert E. match goal with |- foldM _ _ ?x = _ -> _ => assert (Hx : pc_out x <> []) by discriminate; revert Hx; generalize x end.
    generalize (ph_seq ph). induction l as [|s l IH]; intros x Hx E; cbn [foldM] in E; [injection E as <-; exact Hx|].
    match type of E with bind ?c _ = _ => destruct c as [x'| |] eqn:Es; cbn [bind] in E; try discriminate E end.
    apply (IH x'); [|exact E]. unfold pierce_step in Es.
    do 4 match type of Es with bind ?c _ = _ => destruct c as [?| |]; cbn [bind] in Es; try discriminate Es end.
    match type of Es with bind ?c _ = _ => destruct c as [[dB tB]| |]; cbn [bind] in Es; try discriminate Es end.
    injection Es as <-. cbn [pc_out]. match goal with |- (if ?b then _ else _) <> _ => destruct b end; [|exact Hx]. intros F. apply app_eq_nil in F. destruct F. discriminate. }
  match type of H with bind ?c _ = _ => destruct c as [out| |] eqn:Eo; cbn [bind] in H; try discriminate H end. injection H as <-. cbn [ar_pierce].
  destruct (is_head_or_diff (ph_name ph)).
  - unfold handleHeadOrDiffractedWave in Eo.
    do 2 match type of Eo with bind ?c _ = _ => destruct c as [?| |]; cbn [bind] in Eo; try discriminate Eo end.
    match type of Eo with bind (foldM ?f ?l ?x) _ = _ => destruct (foldM f l x) as [[j o]| |] eqn:E2; cbn [bind] in Eo; try discriminate Eo end.
    injection Eo as <-. cbn [snd].
    assert (G : forall (f : Z * list (timedist T) -> timedist T -> result (Z * list (timedist T))) l x r, (forall x y r, f x y = Ok r -> snd r <> []) -> (snd x <> [] \/ l <> []) -> foldM f l x = Ok r -> @snd Z (list (timedist T)) r <> []).
    { intros f l. induction l as [|y l IH]; intros x r Hf Hor Hr; cbn [foldM] in Hr.
      - injection Hr as <-. destruct Hor; congruence.
      - destruct (f x y) as [x'| |] eqn:Ey; cbn [bind] in Hr; try discriminate Hr. apply (IH x' r Hf); [left; exact (Hf _ _ _ Ey)|exact Hr]. }
    apply (G _ _ _ _) in E2; [exact E2| |right; exact Hne]. intros [j' o'] y r Hs. unfold head_step in Hs.
    do 2 match type of Hs with bind (bind ?c _) _ = _ => destruct c as [?| |]; cbn [bind] in Hs; try discriminate Hs end.
    match type of Hs with (if ?b then _ else _) = _ => destruct b end.
    + do 2 match type of Hs with bind (bind ?c _) _ = _ => destruct c as [?| |]; cbn [bind] in Hs; try discriminate Hs end.
      injection Hs as <-. cbn [snd]. intros F. apply app_eq_nil in F. destruct F. discriminate.
    + injection Hs as <-. cbn [snd]. intros F. apply app_eq_nil in F. destruct F. discriminate.
  - destruct (str_in _ _); injection Eo as <-; [|exact Hne]. intros F. apply app_eq_nil in F. destruct F. discriminate.
Qed.
Theorem C61_run : forall show fuel order w (s : ttime R) adds pl depth degrees coords w' s' c modelName,
  view_run show (calcPierce fuel) fuel order w s adds pl depth degrees coords = Ok (w', s') ->
  exists parts, pierce_printResult show c modelName s' = (List.concat parts, Ok tt) /\
    Forall2 (fun a part => exists line lines first l, part = line :: lines /\ heading show modelName a line /\ ar_pierce a = first :: l /\
      rows (shown (wants c) (td_depth first)) (pierce_row (long_way a)) 0 (first :: l) lines) (tt_arrivals s') parts.
Proof.
  intros show fuel order w s adds pl depth degrees coords w' s' c modelName H.
  assert (X : forall a, In a (tt_arrivals s') -> ar_pierce a <> []).
  { unfold view_run in H. destruct (query_degrees degrees coords) as [deg| |]; cbn [bind] in H; try discriminate H.
    destruct (pp_depthCorrect _ _ _ _ _ _) as [[w1 s1]| |]; cbn [bind] in H; try discriminate H. unfold view_calculate in H.
    destruct (pp_depthCorrect _ _ _ _ _ _) as [[w2 s2]| |]; cbn [bind] in H; try discriminate H.
    destruct (recalcPhases show w2 s2) as [s3| |]; cbn [bind] in H; try discriminate H. unfold view_calc in H.
    destruct (mapM _ (tt_phases s3)) as [ls| |] eqn:El; cbn [bind] in H; try discriminate H. injection H as _ <-.
    cbn [tt_arrivals]. revert ls El. generalize (tt_phases s3). clear - show.
    induction l as [|ph l IH]; intros ls El a Ha; cbn [mapM] in El.
    - injection El as <-. destruct Ha.
    - destruct (calcPierce fuel ph deg) as [l1| |] eqn:E1; cbn [bind] in El; try discriminate El.
      destruct (mapM _ l) as [l2| |] eqn:E2; cbn [bind] in El; try discriminate El. injection El as <-. cbn [List.concat] in Ha.
      apply in_app_iff in Ha. destruct Ha as [Ha|Ha]; [|exact (IH _ eq_refl a Ha)].
      unfold calcPierce in E1. destruct (ph_calcTime fuel ph deg) as [arrs| |]; cbn [bind] in E1; try discriminate E1.
      clear - E1 Ha. revert l1 E1 Ha. induction arrs as [|x arrs IH]; intros l1 E1 Ha; cbn [mapM] in E1.
      + injection E1 as <-. destruct Ha.
      + destruct (calcPierceFromArrival ph x) as [x'| |] eqn:Ex; cbn [bind] in E1; try discriminate E1.
        destruct (mapM _ arrs) as [l2| |]; cbn [bind] in E1; try discriminate E1. injection E1 as <-.
        destruct Ha as [<-|Ha]; [exact (pierce_some _ _ _ Ex)|exact (IH _ eq_refl Ha)]. }
  unfold pierce_printResult. revert X. generalize (tt_arrivals s') as l. clear.
  induction l as [|a l IH]; intros X; [exists []; split; [reflexivity|constructor]|].
  destruct (C61_lines show c modelName a) as [line [Hh [_ Hl]]]. destruct (ar_pierce a) as [|first pts] eqn:Ep; [exfalso; exact (X a (or_introl eq_refl) Ep)|].
  destruct (Hl first pts eq_refl) as [lines [E Hr]].
  destruct (IH ltac:(intros b Hb; apply X; right; exact Hb)) as [parts [P F]].
  exists ((line :: lines) :: parts). cbn [for_all_of]. rewrite E, ob_said, P. cbn [fst snd List.concat]. split; [reflexivity|].
  constructor; [|exact F]. exists line, lines, first, pts. auto.
Qed.

(** "Reversal points are the points at which the ray changes between down and up" is wrong, because all
    points are compared with the first one instead of the one before: with onlyRevPoints every point on the way up
    that is deeper than the source is printed, although the ray just passes through it, and a reflection at
    the depth of the source (at the surface, for a source there) is left out. *)
Theorem C61_reversals_refuted : forall (c : choice (T := R)), only_turn c = false -> only_rev c = true -> only_under c = false -> only_add c = false ->
  (forall first j before z nz, first < z -> nz < z -> z < before -> shown (wants c) first j z nz) /\
  (forall first j before nz, first < before -> first < nz -> ~ shown (wants c) first j first nz).
Proof.
  intros [t rv u ad ds]. unfold shown, wants. cbn. intros -> -> -> ->. split.
  - intros first j before z nz H1 H2 _. right. right. left. split; [reflexivity|]. left. split; assumption.
  - intros first j before nz H1 H2 [[_ [F _]]|[[F _]|[[_ [F|F]]|[[F _]|[F _]]]]]; try discriminate; try lra; exfalso; apply F; reflexivity.
Qed.
(** The same for turning points: every point on the way up that is not above the source is printed. *)
Theorem C61_turning_points_refuted : forall (c : choice (T := R)), only_turn c = true -> only_rev c = false -> only_under c = false -> only_add c = false ->
  forall first j before z nz, first <= z -> nz <= z -> z < before -> j <> 0%nat -> shown (wants c) first j z nz.
Proof.
  intros [t rv u ad ds]. unfold shown, wants. cbn. intros -> -> -> -> first j before z nz H1 H2 _ Hj.
  right. right. right. left. repeat split; assumption.
Qed.
(** And of the points of reflection from below, the source itself is printed if the ray starts downwards. *)
Theorem C61_underside_refuted : forall (c : choice (T := R)), only_turn c = false -> only_rev c = false -> only_under c = true -> only_add c = false ->
  forall first nz, first < nz -> shown (wants c) first 0 first nz.
Proof.
  intros [t rv u ad ds]. unfold shown, wants. cbn. intros -> -> -> -> first nz H.
  right. right. right. right. repeat split; lra.
Qed.

(** A ray from 10 km depth that turns at 100 km: the point at 35 km on the way up is printed as a reversal. *)
Definition b64_points : list (timedist b64) :=
  [mkTD (d 5 0) (d 0 0) (d 0 0) (d 10 0); mkTD (d 5 0) (d 5 0) (d 5 (-3)) (d 35 0); mkTD (d 5 0) (d 12 0) (d 2 (-2)) (d 100 0);
   mkTD (d 5 0) (d 205 (-1)) (d 35 (-3)) (d 35 0); mkTD (d 5 0) (d 26 0) (d 4 (-2)) (d 0 0)].
Definition b64_arrival : arrival b64 :=
  mkArr (d 26 0) (d 4 (-2)) (d 433 0) 0 "P" "Pv" (d 10 0) (d 33 0) (d 23 0) b64_points b64_points.
Example C61_ex :
  print_pierced (fun _ => "10.0"%string) (mkChoice false true false false []) "toy" b64_arrival =
  (["> P(Pv) at  26.00 seconds at  2.29 degrees for a  10.0 km deep source in the  toy model with rayParam 7.557 s/deg.";
    "   1.15   100.0    12.0"; "   2.01    35.0    20.5"]%string, Ok tt) /\
  print_pierced (fun _ => "10.0"%string) (mkChoice false false false true [d 35 0]) "toy" b64_arrival =
  (["> P(Pv) at  26.00 seconds at  2.29 degrees for a  10.0 km deep source in the  toy model with rayParam 7.557 s/deg.";
    "   0.29    35.0     5.0"; "   2.01    35.0    20.5"]%string, Ok tt).
Proof. split; vm_compute; reflexivity. Qed.
(** The same points as a path, in steps of half a degree and up to 20 seconds. *)
Example C60_ex :
  print_pathed (fun _ => "10.0"%string) (d 6371 0) (d 20 0) (d 5 (-1)) "toy" b64_arrival =
  (["> P(Pv) at  26.00 seconds at  2.29 degrees for a  10.0 km deep source in the  toy model with rayParam 7.557 s/deg.";
    "0.00  6361.0"; "0.29  6336.0"; "0.72  6303.5"; "1.15  6271.0"; "1.58  6303.5"; "1.95  6332.2"]%string, Ok tt).
Proof. vm_compute. reflexivity. Qed.

Print Assumptions C60_lines.
Print Assumptions C60_drawing.
Print Assumptions C60_paths.
Print Assumptions C60_all_arrivals.
Print Assumptions C60_run.
Print Assumptions C60_backtracking_refuted.
Print Assumptions C61_lines.
Print Assumptions C61_which.
Print Assumptions C61_all.
Print Assumptions C61_run.
Print Assumptions C61_reversals_refuted.
Print Assumptions C61_turning_points_refuted.
Print Assumptions C61_underside_refuted.

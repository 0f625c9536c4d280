(** Properties C43 and C47: splitting a slowness layer at a depth. *)
From Coq Require Import ZArith Bool List String Reals Lia SpecFloat.
From Verif Require Import Base Num PyStr VelocityModel VelSpec SlownessLayer SlownessModel
  SlowSpec SlowProofs SlowAddProofs SlowBuildProofs SplitSpec SplitProofs SplitMoreProofs Toy SlowProps.
Import ListNotations.
Local Open Scope list_scope.
Local Open Scope num_scope.

(** ** C43 *)
(** On a boundary nothing happens.  Away from boundaries the receiver is unchanged and
    exactly the layer containing the depth is cut there, at the slowness Bullen's law gives. *)
Theorem C43_split_exact :
  forall {T} {N : Num T} {O : NumOrd T} {L : Libm T} fuel (m : smodel T) x w m' info,
  s_meet (sm_layers m w) -> s_upright (sm_layers m w) -> n_ok x ->
  splitLayer fuel m x w = Ok (m', info) ->
  exists k y, shallowest (sm_layers m w) x k /\ nth_error (sm_layers m w) k = Some y /\
    let on := sl_topDepth y =? x = true \/ sl_botDepth y =? x = true in
    let near := close (sl_topDepth y) x \/ close x (sl_botDepth y) in
    (on -> m' = m /\ info = mkSplit m false false n_0) /\
    (~ on -> ~ near ->
       m' = m /\ si_needed info = true /\ si_moved info = false /\ same_rest m (si_sMod info) /\
       evaluateAtBullen y x (sm_radius m) = Ok (si_rayParam info) /\
       cut (sm_layers m w) k (si_rayParam info) x (sm_layers (si_sMod info) w) /\
       s_meet (sm_layers (si_sMod info) w) /\
       (n_ok (si_rayParam info) -> s_join (sm_layers m w) -> s_join (sm_layers (si_sMod info) w)) /\
       boundary (sm_layers (si_sMod info) w) x /\
       (forall z, boundary (sm_layers m w) z -> boundary (sm_layers (si_sMod info) w) z)).
Proof.
  intros T N O L fuel m x w m' info Hm Hu Hx H.
  destruct (splitLayer_cases _ _ _ _ _ _ Hm Hu Hx H) as [k [y [Hs [Hy C]]]].
  exists k, y. split; [assumption|]. split; [assumption|]. cbv zeta. destruct C as [C|[C|C]].
  - split; [tauto|]. intros F. tauto.
  - split; [intros F; tauto|]. intros _ F. tauto.
  - split; [intros F; tauto|]. intros _ _.
    destruct C as [_ [_ [_ [C1 [C2 [C3 [C4 [C5 [C6 _]]]]]]]]].
    do 6 (split; [assumption|]). destruct (cut_keeps _ _ _ _ _ C6 Hx) as [K1 [K2 [K3 K4]]].
    split; [apply K1; assumption|]. split; [assumption|]. split; assumption.
Qed.
(** the other wave type stays gap-free if at most one of its layers (not counting the same
    object) contains the new slowness; see C47 for the general case *)
Theorem C43_other_wave_type :
  forall {T} {N : Num T} {O : NumOrd T} {L : Libm T} fuel (m : smodel T) x w m' info,
  s_meet (sm_layers m w) -> s_upright (sm_layers m w) -> n_ok x -> ids_ok m ->
  splitLayer fuel m x w = Ok (m', info) -> si_needed info = true ->
  (forall k y, shallowest (sm_layers m w) x k -> nth_error (sm_layers m w) k = Some y ->
     forall i j u v, nth_error (sm_layers m (negb w)) i = Some u -> nth_error (sm_layers m (negb w)) j = Some v ->
     sl_id u <> sl_id y -> sl_id v <> sl_id y ->
     spans u (si_rayParam info) -> spans v (si_rayParam info) -> i = j) ->
  s_meet (sm_layers m (negb w)) -> s_meet (sm_layers (si_sMod info) (negb w)).
Proof.
  intros T N O L fuel m x w m' info Hm Hu Hx [I1 [I2 [_ I4]]] H Hn Once.
  eapply split_other; try eassumption; destruct w; cbn [negb sm_layers]; try assumption.
  intros u v H1 H2 E. symmetry. apply I4; auto.
Qed.
Definition split_ok (r : result (smodel b64 * splitinfo (T:=b64))) (P : smodel b64 -> splitinfo (T:=b64) -> bool) : bool :=
  match r with Ok (m, i) => P m i | _ => false end.
Definition spansb (p : b64) (u : slayer b64) : bool := n_0 <? (sl_topP u - p) * (p - sl_botP u).
Example C43_ex :
  s_meet (sm_P toy_sMod) /\ s_upright (sm_P toy_sMod) /\ ids_ok toy_sMod /\
  split_ok (splitLayer 100 toy_sMod (d 1500 0) true)
    (fun _ i => si_needed i && (List.length (sm_P (si_sMod i)) =? 14)%nat
       && (List.length (filter (spansb (si_rayParam i)) (sm_S toy_sMod)) <=? 1)%nat) = true.
Proof.
  destruct toy_good as [I H]. specialize (H true). split; [apply H|].
  split; [eapply good_upright; exact H|]. split; [exact I|]. vm_compute. reflexivity.
Qed.

(** Within 1 mm of a boundary: the model passed in is overwritten and returned; for P waves
    its S layers are replaced by the P layers, for S waves nothing moves although
    movedSample is reported. *)
Theorem C43_close_boundary_refuted :
  forall {T} {N : Num T} {O : NumOrd T} {L : Libm T} fuel (m : smodel T) x w m' info k y,
  s_meet (sm_layers m w) -> s_upright (sm_layers m w) -> n_ok x ->
  splitLayer fuel m x w = Ok (m', info) ->
  shallowest (sm_layers m w) x k -> nth_error (sm_layers m w) k = Some y ->
  ~ (sl_topDepth y =? x = true \/ sl_botDepth y =? x = true) ->
  close (sl_topDepth y) x \/ close x (sl_botDepth y) ->
  m' = si_sMod info /\ si_moved info = true /\
  (w = true -> sm_S m' = sm_P m') /\ (w = false -> sm_S m' = sm_S m /\ sm_P m' = sm_P m).
Proof.
  intros T N O L fuel m x w m' info k y Hm Hu Hx H Hs Hy Non Near.
  destruct (splitLayer_cases _ _ _ _ _ _ Hm Hu Hx H) as [k' [y' [Hs' [Hy' C]]]].
  assert (k' = k) by (eapply shallowest_unique; eassumption). subst k'.
  assert (y' = y) by congruence. subst y'. tauto.
Qed.
Example C43_close_ex :
  split_ok (splitLayer 100 toy_sMod (d 350000005 (-7)) true)
    (fun m' i => negb (List.length (sm_S m') =? List.length (sm_S toy_sMod))%nat
                 && (List.length (sm_S m') =? List.length (sm_P toy_sMod))%nat) = true.
Proof. vm_compute. reflexivity. Qed.

(** ** C47: what is adjusted for the other wave type *)
(** S layer of the inner core split at 5300 km.  Three P layers contain its slowness; the
    second and third replace the wrong layers, and the P layers have gaps. *)
Definition meets (l : list (slayer b64)) : bool :=
  forallb (fun '(a, b) => sl_botDepth a =? sl_topDepth b) (combine l (tl l)).
Theorem C47_other_layers_refuted :
  (forall w, s_meet (sm_layers toy_sMod w)) /\
  exists m' info, splitLayer 100 toy_sMod (d 5300 0) false = Ok (m', info) /\ si_needed info = true /\
    ~ s_meet (sm_P (si_sMod info)).
Proof.
  split; [intros w; apply (proj2 toy_good w)|].
  assert (H : split_ok (splitLayer 100 toy_sMod (d 5300 0) false)
                (fun _ i => si_needed i && negb (meets (sm_P (si_sMod i)))) = true) by (vm_compute; reflexivity).
  destruct (splitLayer 100 toy_sMod (d 5300 0) false) as [[m' info]| |]; try discriminate.
  exists m', info. split; [reflexivity|]. cbn [split_ok] in H. apply andb_true_iff in H. destruct H as [H1 H2].
  split; [assumption|]. intros F. apply negb_true_iff in H2.
  assert (K : forall l : list (slayer b64), s_meet l -> meets l = true).
  { clear. induction l as [|a l IH]; intros H; [reflexivity|]. destruct l as [|b l]; [reflexivity|].
    unfold meets. cbn [tl combine forallb]. apply s_meet_cons in H. rewrite (proj1 H). apply IH. tauto. }
  rewrite (K _ F) in H2. discriminate.
Qed.
(** P layer of the mantle split at 1500 km: the P layer number stored for the core-mantle
    boundary (2889 km) points to a layer that starts deeper. *)
Theorem C47_critical_numbers_refuted :
  (forall c w, In c (sm_crit toy_sMod) ->
     crit_at toy_sMod w (if w then cd_pNum c else cd_sNum c) (cd_depth c)) /\
  exists m' info c, splitLayer 100 toy_sMod (d 1500 0) true = Ok (m', info) /\
    In c (sm_crit (si_sMod info)) /\ cd_depth c = d 2889 0 /\
    ~ crit_at (si_sMod info) true (cd_pNum c) (cd_depth c).
Proof.
  split.
  - pose proof toy_built as H. apply createSample_built in H; [|reflexivity].
    destruct H as [_ [_ [_ [_ [_ [_ [H _]]]]]]]. intros c w Hc. apply H. assumption.
  - assert (H : split_ok (splitLayer 100 toy_sMod (d 1500 0) true)
       (fun _ i => match nth_error (sm_crit (si_sMod i)) 2 with
                   | Some c => SFeqb (cd_depth c) (d 2889 0) && (cd_pNum c =? 10)%Z
                               && (10 <? Z.of_nat (List.length (sm_P (si_sMod i))))%Z
                               && match nth_error (sm_P (si_sMod i)) 10 with
                                  | Some y => negb (sl_topDepth y =? d 2889 0) | None => false end
                   | None => false end) = true) by (vm_compute; reflexivity).
    assert (H' : match splitLayer 100 toy_sMod (d 1500 0) true with
                 | Ok (_, i) => match nth_error (sm_crit (si_sMod i)) 2 with
                                | Some c => cd_depth c = d 2889 0 | None => True end
                 | _ => True end) by (vm_compute; reflexivity).
    destruct (splitLayer 100 toy_sMod (d 1500 0) true) as [[m' info]| |]; try discriminate.
    cbn [split_ok] in H. destruct (nth_error (sm_crit (si_sMod info)) 2) as [c|] eqn:Ec; [|discriminate].
    exists m', info, c. split; [reflexivity|]. split; [eapply nth_error_In; exact Ec|]. split; [exact H'|].
    apply andb_true_iff in H. destruct H as [H H4]. apply andb_true_iff in H. destruct H as [H H3].
    apply andb_true_iff in H. destruct H as [H1 H2]. apply Z.eqb_eq in H2. apply Z.ltb_lt in H3.
    rewrite H2, H'. intros [[k [y [E [Hk Hy]]]]|[l [y [_ [E _]]]]].
    + assert (k = 10%nat) by lia. subst k. cbn [sm_layers] in Hk. rewrite Hk, Hy in H4. discriminate.
    + cbn [sm_layers] in E. lia.
Qed.

Print Assumptions C43_split_exact.
Print Assumptions C43_other_wave_type.
Print Assumptions C43_close_boundary_refuted.
Print Assumptions C47_other_layers_refuted.
Print Assumptions C47_critical_numbers_refuted.

(** ** Critical depths of the split model *)
(** Depth, velocity layer and the other wave type's number never change.  If no further
    layer of the other wave type contains the new slowness, the number of the split wave
    type goes up by one exactly for the critical depths below the cut layer. *)
Theorem C43_critical_depths :
  forall {T} {N : Num T} {O : NumOrd T} {L : Libm T} fuel (m : smodel T) x w m' info,
  s_meet (sm_layers m w) -> s_upright (sm_layers m w) -> n_ok x ->
  splitLayer fuel m x w = Ok (m', info) -> si_needed info = true ->
  Forall2 (fun c c' => cd_depth c' = cd_depth c /\ cd_vel c' = cd_vel c /\
                       number (negb w) c' = number (negb w) c) (sm_crit m) (sm_crit (si_sMod info)) /\
  (ids_ok m -> forall k y, shallowest (sm_layers m w) x k -> nth_error (sm_layers m w) k = Some y ->
    (forall u, In u (sm_layers m (negb w)) -> sl_id u <> sl_id y -> ~ spans u (si_rayParam info)) ->
    Forall2 (fun c c' => (number w c > Z.of_nat k -> number w c' = number w c + 1)%Z /\
                         (number w c <= Z.of_nat k -> number w c' = number w c)%Z)
      (sm_crit m) (sm_crit (si_sMod info))).
Proof.
  intros T N O L fuel m x w m' info Hm Hu Hx H Hn.
  destruct (split_crit _ _ _ _ _ _ Hm Hu Hx H Hn) as [A B]. split; [exact A|].
  intros Hi k y Hs Hy Hsp. eapply Forall2_mono; [|exact (B Hi k y Hs Hy Hsp)].
  cbn beta. intros c c' E. rewrite E. destruct (number w c >? Z.of_nat k)%Z eqn:F.
  - apply Z.gtb_lt in F. split; lia.
  - rewrite Z.gtb_ltb in F. apply Z.ltb_ge in F. split; lia.
Qed.
(** split at 3000 km, in the outer core, where P and S share their layers *)
Example C43_critical_ex :
  s_meet (sm_P toy_sMod) /\ s_upright (sm_P toy_sMod) /\ ids_ok toy_sMod /\
  match splitLayer 100 toy_sMod (d 3000 0) true with
  | Ok (_, i) => (si_needed i
      && (List.length (filter (spansb (si_rayParam i)) (sm_S toy_sMod)) =? 1)%nat
      && forallb (fun '(c, c') => (cd_pNum c' =? cd_pNum c + (if (d 3000 0 <? cd_depth c)%num then 1 else 0))%Z
                                  && (cd_sNum c' =? cd_sNum c)%Z) (combine (sm_crit toy_sMod) (sm_crit (si_sMod i)))
      && existsb (fun c => d 3000 0 <? cd_depth c) (sm_crit toy_sMod)
      && existsb (fun c => cd_depth c <? d 3000 0) (sm_crit toy_sMod)) = true
  | _ => False
  end.
Proof.
  destruct toy_good as [I H]. specialize (H true). split; [apply H|].
  split; [eapply good_upright; exact H|]. split; [exact I|]. vm_compute. reflexivity.
Qed.

(** ** Moved boundaries *)
(** For P waves, within 1 mm of a boundary inside the model, that boundary moves to the depth,
    for the layers on both sides, and the layers still meet. *)
Theorem C43_moved_boundary :
  forall {T} {N : Num T} {O : NumOrd T} {L : Libm T} fuel (m : smodel T) x m' info k y,
  s_meet (sm_P m) -> s_upright (sm_P m) -> n_ok x ->
  splitLayer fuel m x true = Ok (m', info) ->
  shallowest (sm_P m) x k -> nth_error (sm_P m) k = Some y ->
  ~ (sl_topDepth y =? x = true \/ sl_botDepth y =? x = true) ->
  (forall j, k = S j -> close (sl_topDepth y) x -> moved (sm_P m) j x (sm_P m') /\ s_meet (sm_P m')) /\
  (~ close (sl_topDepth y) x -> close x (sl_botDepth y) -> moved (sm_P m) k x (sm_P m') /\ s_meet (sm_P m')).
Proof.
  intros T N O L fuel m x m' info k y Hm Hu Hx H Hs Hy Non.
  destruct (split_moved _ _ _ _ _ _ _ Hm Hu Hx H Hs Hy Non) as [A B]. split.
  - intros j -> C. specialize (A C). split; [exact A|]. eapply moved_meet; eassumption.
  - intros C D. specialize (B C D). split; [exact B|]. eapply moved_meet; eassumption.
Qed.
(** Within 1 mm of the surface there is no layer above; the code adjusts index -1, the deepest
    layer, whose bottom is put at the depth. *)
Theorem C43_surface_refuted :
  forall {T} {N : Num T} {O : NumOrd T} {L : Libm T} fuel (m : smodel T) x m' info y,
  s_meet (sm_P m) -> s_upright (sm_P m) -> n_ok x ->
  splitLayer fuel m x true = Ok (m', info) ->
  shallowest (sm_P m) x 0 -> nth_error (sm_P m) 0 = Some y ->
  ~ (sl_topDepth y =? x = true \/ sl_botDepth y =? x = true) -> close (sl_topDepth y) x ->
  exists l z, sm_P m' = l ++ [z] /\ sl_botDepth z = x.
Proof.
  intros T N O L fuel m x m' info y Hm Hu Hx H Hs Hy Non C.
  exact (proj1 (split_moved _ _ _ _ _ _ _ Hm Hu Hx H Hs Hy Non) C).
Qed.
Example C43_moved_ex :
  split_ok (splitLayer 100 toy_sMod (d 350000005 (-7)) true)
    (fun m' i => si_moved i && existsb (fun y => sl_botDepth y =? d 350000005 (-7)) (sm_P m')) = true /\
  split_ok (splitLayer 100 toy_sMod (d 5 (-7)) true)
    (fun m' i => si_moved i && match nth_error (rev (sm_P m')) 0 with
                               | Some z => (sl_botDepth z =? d 5 (-7)) && (d 5000 0 <? sl_topDepth z) | None => false end) = true.
Proof. split; vm_compute; reflexivity. Qed.
Print Assumptions C43_critical_depths.
Print Assumptions C43_moved_boundary.
Print Assumptions C43_surface_refuted.

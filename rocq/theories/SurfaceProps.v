(** Property C82: names of phases from a source at the surface may be cut at surface reflections, the parts put in another order or
    repeated; distances and times follow. *)
From Coq Require Import ZArith Bool List String Reals Lia Lra Sorted Permutation.
From Verif Require Import Base Num PyStr VelocityModel SlownessLayer SlownessModel TauModel Legs SeismicPhase
  TauSpec TimeSpec TimeProps CurveSpec CurveProofs CurveMainProofs CurveProps SlowRealProofs SlowBuildProofs RealRun NameSpec RouteSpec RouteProps
  ReachSpec JoinSpec JoinProps MultiSpec MultiProps SurfaceSpec.
Import ListNotations.
Local Open Scope string_scope.
Local Open Scope list_scope.
Local Open Scope R_scope.

(** branch and wave type of a crossing *)
Definition of_crossing (c : crossing) : Z * bool := let '(b, _, w) := c in (b, w).

Section Rays.
  Variables moho cmb iocb n : Z.
  Lemma rays_app : forall start l p l' p', rays moho cmb iocb n start l p -> rays moho cmb iocb n 0 l' p' -> rays moho cmb iocb n start (l ++ l') (p ++ p').
  Proof.
    intros start l p l' p' H H'. induction H as [start l p H|start l p l1 p1 H _ IH]; [apply rs_more; assumption|].
    rewrite <- !app_assoc. apply rs_more; [exact H|apply IH; exact H'].
  Qed.
  Lemma rays_repeat : forall l p, rays moho cmb iocb n 0 l p -> forall k, (0 < k)%nat -> rays moho cmb iocb n 0 (List.concat (repeat l k)) (List.concat (repeat p k)).
  Proof.
    intros l p H. induction k as [|[|k] IH]; intros K; [lia|cbn; rewrite !app_nil_r; exact H|].
    change (repeat l (S (S k))) with (l :: repeat l (S k)). change (repeat p (S (S k))) with (p :: repeat p (S k)).
    cbn [List.concat]. apply rays_app; [exact H|apply IH; lia].
  Qed.
End Rays.

Section Model.
  Variables (show : R -> string) (w : list R) (t : tmodel R) (tid : Z).
  Hypothesis Hs : surface t.
  Hypothesis Dec : decreasing (tm_rayParams t).
  (** the legs [l] with crossings [p] start and end at the surface *)
  Let parts l p := rays (tm_mohoBranch t) (tm_cmbBranch t) (tm_iocbBranch t) (Z.of_nat (List.length (tm_P t))) 0 l p.

  Lemma media : forall l p ph, parts l p -> plain show w t tid (join l) ph -> map medium (ph_seq ph) = map of_crossing p.
  Proof.
    intros l p ph Hp [H [Hne [Hr [Nd [Nh _]]]]]. destruct Hs as [S0 [S1 [S2 S3]]].
    destruct (C32_sequence show w t tid l p ph) as [E|[E _]]; [lia|lia|lia|exact S3| |exact H| |].
    - apply te_down, ar_plain. rewrite S0. exact Hp.
    - rewrite <- E, map_map. apply map_ext. intros s. reflexivity.
    - exfalso. destruct (C33_sum_of_legs show w t tid (join l) ph H Hne S3 Hr Nd Nh) as [lo [hi [base [c1 [o1 [o2 [_ [_ [M _]]]]]]]]].
      rewrite E, Rlit_IZR in M. lra.
  Qed.

  (** The parts may come in any order. *)
  Theorem C82_order : forall l1 p1 l2 p2 A B p d1 t1 d2 t2, parts l1 p1 -> parts l2 p2 ->
    plain show w t tid (join (l1 ++ l2)) A -> plain show w t tid (join (l2 ++ l1)) B ->
    In (p, d1, t1) (curve_of A) -> In (p, d2, t2) (curve_of B) -> d1 = d2 /\ t1 = t2.
  Proof.
    intros l1 p1 l2 p2 A B p d1 t1 d2 t2 H1 H2 PA PB IA IB.
    apply (C80_order show w t tid (proj2 (proj2 (proj2 Hs))) Dec _ _ A B p d1 t1 d2 t2 PA PB); [|exact IA|exact IB].
    unfold same_media. rewrite (media _ _ A (rays_app _ _ _ _ _ _ _ _ _ H1 H2) PA), (media _ _ B (rays_app _ _ _ _ _ _ _ _ _ H2 H1) PB), !map_app.
    apply Permutation_app_comm.
  Qed.
  (** The whole takes as long as the parts. *)
  Theorem C82_sum : forall l1 p1 l2 p2 A B C p d1 t1 d2 t2 d3 t3, parts l1 p1 -> parts l2 p2 ->
    plain show w t tid (join l1) A -> plain show w t tid (join l2) B -> plain show w t tid (join (l1 ++ l2)) C ->
    In (p, d1, t1) (curve_of A) -> In (p, d2, t2) (curve_of B) -> In (p, d3, t3) (curve_of C) -> d3 = d1 + d2 /\ t3 = t1 + t2.
  Proof.
    intros l1 p1 l2 p2 A B C p d1 t1 d2 t2 d3 t3 H1 H2 PA PB PC IA IB IC.
    apply (C80_join show w t tid (proj2 (proj2 (proj2 Hs))) Dec _ _ _ A B C p d1 t1 d2 t2 d3 t3 PA PB PC); [|exact IA|exact IB|exact IC].
    unfold same_media. rewrite map_app, (media _ _ C (rays_app _ _ _ _ _ _ _ _ _ H1 H2) PC), (media _ _ A H1 PA), (media _ _ B H2 PB), map_app. reflexivity.
  Qed.
  (** A name repeated [k] times arrives at [k] times the distance after [k] times the time, with the same ray parameter. *)
  Theorem C82_multiple : forall l q k A B, parts l q -> (0 < k)%nat -> forth t ->
    plain show w t tid (join l) A -> plain show w t tid (join (List.concat (repeat l k))) B -> ph_rayParams A = ph_rayParams B ->
    ph_dist B = map (Rmult (INR k)) (ph_dist A) /\ ph_time B = map (Rmult (INR k)) (ph_time A) /\
    forall fuel deg r a, ph_calcTime fuel B deg = Ok r -> In a r ->
    forall fuel' r', ph_calcTime fuel' A (ar_dist a / INR k * 180 / PI) = Ok r' ->
    exists a', In a' r' /\ ar_dist a' = ar_dist a / INR k /\ ar_time a' = ar_time a / INR k /\ ar_rayParam a' = ar_rayParam a.
  Proof.
    intros l q k A B H1 K Hft PA PB Er.
    assert (Tw : times_over k (ph_seq B) (ph_seq A)).
    { unfold times_over, same_media. rewrite (media _ _ B (rays_repeat _ _ _ _ _ _ H1 k K) PB).
      assert (E : forall j, map of_crossing (List.concat (repeat q j)) = map medium (List.concat (repeat (ph_seq A) j))).
      { induction j as [|j IH]; [reflexivity|]. cbn [repeat List.concat]. rewrite !map_app, IH, (media _ _ A H1 PA). reflexivity. }
      rewrite E. reflexivity. }
    destruct (C81_curve show w t tid (proj2 (proj2 (proj2 Hs))) Dec _ _ A B k PA PB Tw Er) as [E1 E2]. split; [exact E1|]. split; [exact E2|].
    exact (C81_arrivals show w t tid (proj2 (proj2 (proj2 Hs))) Dec _ _ A B k PA PB Tw Er Hft K).
  Qed.
End Model.
Print Assumptions C82_order.
Print Assumptions C82_sum.
Print Assumptions C82_multiple.

(** ** Hypotheses met: P, PP, PcS, PPcS and PcSP from a source at the surface *)
Lemma q_plain : forall name ph, newPhase x_show [] (q_t 0) 0 name = Ok ph -> ph_rayParams ph <> [] -> ph_max ph <= 4 -> ~ diffracted name -> ~ head_wave name ->
  plain x_show [] (q_t 0) 0 name ph.
Proof.
  intros name ph H Hne Hm Nd Nh. split; [exact H|]. split; [exact Hne|]. split; [exists 4; split; [left; reflexivity|exact Hm]|]. split; [exact Nd|]. split; [exact Nh|].
  intros z [[]|[]].
Qed.
Lemma q_surface : surface (q_t 0).
Proof. repeat split; cbn; lia. Qed.
Lemma q_forth : forth (q_t 0).
Proof.
  intros b [Hb|Hb]; cbn in Hb; repeat (destruct Hb as [<-|Hb]; [split; [reflexivity|]; split; [reflexivity|]; split; intros x Hx; cbn in Hx; repeat (destruct Hx as [<-|Hx]; [lra|]); destruct Hx|]); destruct Hb.
Qed.
Lemma q_decreasing : decreasing (tm_rayParams (q_t 0)).
Proof. repeat constructor; apply Rltb_lt; lra. Qed.
Example C82_ex : exists P PP A B,
  plain x_show [] (q_t 0) 0 (join ["P"]) P /\ plain x_show [] (q_t 0) 0 (join (List.concat (repeat ["P"] 2))) PP /\
  plain x_show [] (q_t 0) 0 (join (["P"] ++ ["P"; "c"; "S"])) A /\ plain x_show [] (q_t 0) 0 (join (["P"; "c"; "S"] ++ ["P"])) B /\
  (exists p, rays 1 2 3 4 0 ["P"] p) /\ (exists p, rays 1 2 3 4 0 ["P"; "c"; "S"] p) /\
  ph_rayParams P = ph_rayParams PP /\ ph_dist PP = map (Rmult (INR 2)) (ph_dist P) /\ ph_seq A <> ph_seq B /\
  exists p d tm, In (p, d, tm) (curve_of A) /\ In (p, d, tm) (curve_of B) /\ 0 < d.
Proof.
  assert (R1 : exists p, rays 1 2 3 4 0 ["P"] p) by (eexists; apply rs_one, ra_turn, ml_P).
  assert (R2 : exists p, rays 1 2 3 4 0 ["P"; "c"; "S"] p) by (eexists; apply rs_one, ra_reflect; [apply ml_P|apply ml_S]).
  eassert (H1 : newPhase x_show [] (q_t 0) 0 "P" = Ok _) by run. eassert (H2 : newPhase x_show [] (q_t 0) 0 "PP" = Ok _) by run.
  eassert (H3 : newPhase x_show [] (q_t 0) 0 "PPcS" = Ok _) by run. eassert (H4 : newPhase x_show [] (q_t 0) 0 "PcSP" = Ok _) by run.
  match type of H1 with _ = Ok ?p => set (P := p) in * end. match type of H2 with _ = Ok ?p => set (PP := p) in * end.
  match type of H3 with _ = Ok ?p => set (A := p) in * end. match type of H4 with _ = Ok ?p => set (B := p) in * end.
  assert (P1 : plain x_show [] (q_t 0) 0 "P" P) by (apply q_plain; [exact H1|discriminate|cbn; lra|intros [X|X]; not_in X|intros [X|X]; not_in X]).
  assert (P2 : plain x_show [] (q_t 0) 0 "PP" PP) by (apply q_plain; [exact H2|discriminate|cbn; lra|intros [X|X]; not_in X|intros [X|X]; not_in X]).
  assert (P3 : plain x_show [] (q_t 0) 0 "PPcS" A) by (apply q_plain; [exact H3|discriminate|cbn; lra|intros [X|X]; not_in X|intros [X|X]; not_in X]).
  assert (P4 : plain x_show [] (q_t 0) 0 "PcSP" B) by (apply q_plain; [exact H4|discriminate|cbn; lra|intros [X|X]; not_in X|intros [X|X]; not_in X]).
  exists P, PP, A, B. split; [exact P1|]. split; [exact P2|]. split; [exact P3|]. split; [exact P4|]. split; [exact R1|]. split; [exact R2|]. split; [reflexivity|]. split.
  { destruct R1 as [p R1]. apply (C82_multiple x_show [] (q_t 0) 0 q_surface q_decreasing ["P"] p 2 P PP R1 ltac:(lia) q_forth P1 P2 eq_refl). }
  split; [cbn; discriminate|].
  assert (EA : exists d tm, nth_error (curve_of A) 0 = Some (hd 0 (ph_rayParams A), d, tm) /\ 0 < d) by (cbn; eexists; eexists; split; [reflexivity|lra]).
  assert (EB : exists d tm, nth_error (curve_of B) 0 = Some (hd 0 (ph_rayParams A), d, tm)) by (cbn; eexists; eexists; reflexivity).
  destruct EA as [d [tm [EA D]]], EB as [d' [tm' EB]]. apply nth_error_In in EA, EB.
  destruct R1 as [p1 R1], R2 as [p2 R2].
  destruct (C82_order x_show [] (q_t 0) 0 q_surface q_decreasing ["P"] p1 ["P"; "c"; "S"] p2 A B _ d tm d' tm' R1 R2 P3 P4 EA EB) as [<- <-].
  eauto 10.
Qed.

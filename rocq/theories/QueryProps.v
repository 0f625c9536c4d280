(** Properties C30, C31 and C39: earlier queries, discontinuities given by name, reused objects. *)
From Coq Require Import ZArith Bool List String Ascii Sorted Lia SpecFloat.
From Verif Require Import Base Num PyStr VelocityModel SlownessLayer SlownessModel VelSpec SlowSpec SlowProofs SlowBuildProofs
  SplitSpec SplitProofs TauModel TauSpec TauProofs TauSplitProofs Legs SeismicPhase Pierce TauPTime
  NameSpec NameProofs TimeSpec TimeProofs Toy SlowProps SplitProps TauProps QuerySpec QueryProofs.
Import ListNotations.
Local Open Scope string_scope.
Local Open Scope list_scope.
Local Open Scope num_scope.

(** ** C31: discontinuities *)
(** the string is the decimal digit [k] *)
Definition is_digit_of (s : string) (k : Z) : Prop :=
  In (s, k) [("0", 0); ("1", 1); ("2", 2); ("3", 3); ("4", 4); ("5", 5); ("6", 6); ("7", 7); ("8", 8); ("9", 9)]%Z.
Lemma digit_float : forall {T} {N : Num T} s k, is_digit_of s k -> leg_float s = Some (n_int k).
Proof.
  intros T N s k H. unfold is_digit_of in H. cbn [In] in H.
  repeat (destruct H as [H|H]; [inversion H; subst; reflexivity|]). destruct H.
Qed.
Lemma float_digit : forall {T} {N : Num T} s x, leg_float s = Some x -> exists k, is_digit_of s k.
Proof.
  intros T N [|c [|c' s]] x H; try discriminate. cbn [leg_float] in H. destruct (is_digit c) eqn:E; [|discriminate].
  clear H. destruct c as [b0 b1 b2 b3 b4 b5 b6 b7]. unfold is_digit_of.
  destruct b0, b1, b2, b3, b4, b5, b6, b7; vm_compute in E; try discriminate; eexists; cbn [In]; tauto.
Qed.

(** Moho, core-mantle and inner core boundary by letter, a depth in km by one digit; the digit
    means the first of the nearest branch tops that are not listed. *)
Theorem C31_discontinuities :
  forall {T} {N : Num T} {O : NumOrd T} {L : Libm T} w (t : tmodel T) s,
  (s = "m" -> closestBranchToDepth w t s = Ok (tm_mohoBranch t)) /\
  (s = "c" -> closestBranchToDepth w t s = Ok (tm_cmbBranch t)) /\
  (s = "i" -> closestBranchToDepth w t s = Ok (tm_iocbBranch t)) /\
  (forall k, is_digit_of s k -> (forall b, In b (tm_P t) -> n_ok (n_abs (n_int k - tb_top b))) ->
     (forall n, closestBranchToDepth w t s = Ok (Z.of_nat n) <->
        nearest_discon w (tm_P t) (n_int k) n /\
        exists b, nth_error (tm_P t) n = Some b /\ n_abs (n_int k - tb_top b) <? n_lit 1 300 = true) /\
     (closestBranchToDepth w t s = Ok (-1)%Z <->
        forall b, In b (tm_P t) -> listed w b \/ n_abs (n_int k - tb_top b) <? n_lit 1 300 = false) /\
     exists z, closestBranchToDepth w t s = Ok z /\ (-1 <= z)%Z) /\
  ((forall k, ~ is_digit_of s k) -> s <> "m" -> s <> "c" -> s <> "i" -> closestBranchToDepth w t s = Raise ValueError).
Proof.
  intros T N O L w t s. do 3 (split; [intros ->; reflexivity|]). split.
  - intros k Hk Hok.
    assert (E : closestBranchToDepth w t s = Ok (closest_discon w (n_int k) 0 (tm_P t) (-1) (n_lit 1 300))).
    { unfold closestBranchToDepth. rewrite (digit_float s k Hk).
      unfold is_digit_of in Hk. cbn [In] in Hk. repeat (destruct Hk as [Hk|Hk]; [inversion Hk; subst; reflexivity|]). destruct Hk. }
    rewrite E. pose proof (discon_spec w (n_int k) (tm_P t) Hok) as D. split; [|split].
    + intros n. split.
      * intros F. destruct D as [[n' [b [E' [Hn [Hb Hl]]]]]|[E' _]]; rewrite E' in F; [|inversion F; lia].
        assert (n' = n) by (apply Nat2Z.inj; congruence). subst n'. eauto.
      * intros [[b [Hb [Hnl Hmin]]] [b' [Hb' Hlt]]]. assert (b' = b) by congruence. subst b'.
        destruct D as [[n' [c [E' [[c' [Hc [Hnc Hmin']]] [Hc' Hl]]]]]|[_ F]].
        -- assert (c' = c) by congruence. subst c'. rewrite E'. f_equal. f_equal.
           destruct (Hmin n' c Hc Hnc) as [A1 A2]. destruct (Hmin' n b Hb Hnl) as [B1 B2].
           destruct (lt_eq_lt_dec n' n) as [[Hlt'|He]|Hgt]; [|assumption|].
           ++ specialize (A2 Hlt'). rewrite (ltb_not_leb _ _ A2) in B1. discriminate.
           ++ specialize (B2 Hgt). rewrite (ltb_not_leb _ _ B2) in A1. discriminate.
        -- destruct (F b (nth_error_In _ _ Hb)) as [G|G]; [contradiction|congruence].
    + split.
      * intros F. destruct D as [[n' [b [E' _]]]|[_ D]]; [|exact D]. rewrite E' in F. inversion F. lia.
      * intros F. destruct D as [[n' [b [_ [[b' [Hb [Hnl _]]] [Hb' Hlt]]]]]|[-> _]]; [|reflexivity].
        exfalso. assert (b' = b) by congruence. subst b'. destruct (F b (nth_error_In _ _ Hb)); [contradiction|congruence].
    + destruct D as [[n' [b [-> _]]]|[-> _]]; eexists; (split; [reflexivity|lia]).
  - intros Hno H1 H2 H3. unfold closestBranchToDepth, seq_. apply String.eqb_neq in H1, H2, H3. rewrite H1, H2, H3.
    destruct (leg_float s) as [x|] eqn:E; [|reflexivity]. exfalso. apply float_digit in E. destruct E as [k Hk]. exact (Hno k Hk).
Qed.
(** after a correction for a source at 4 km that depth is the nearest branch top to 5 km, but it
    is listed, so 5 means the surface; the Moho is now branch 2 *)
Example C31_ex :
  is_digit_of "5" 5 /\
  match tm_depthCorrect 50 [] toy_tMod (d 4 0) with
  | Ok (w, _, r) =>
      w = [d 4 0] /\ map tb_top (tm_P r) = [d 0 0; d 4 0; d 35 0; d 2889 0; d 5154 0] /\
      forallb (fun b => let e := n_abs (n_int 5 - tb_top b) in e =? e) (tm_P r) = true /\
      closestBranchToDepth w r "5" = Ok 0%Z /\ closestBranchToDepth [] r "5" = Ok 1%Z /\
      closestBranchToDepth w r "m" = Ok 2%Z /\
      closestBranchToDepth w r "410" = Raise ValueError
  | _ => False
  end.
Proof. split; [unfold is_digit_of; cbn [In]; tauto|]. vm_compute. repeat split. Qed.

(** ** C30: earlier queries *)
Theorem C30_model_kept :
  forall {T} {N : Num T} {O : NumOrd T} {L : Libm T} show fuel order w (t : tmodel T) depth degrees names coords w' t' arrs,
  decreasing (tm_rayParams t) -> gap_free t -> calm fuel t depth -> set_order_ok order -> no_tops w t ->
  get_travel_times show fuel order w t depth degrees names coords = Ok (w', t', arrs) ->
  t' = t /\ no_tops w' t /\ (forall x, In x w' -> In x w \/ x = depth).
Proof.
  intros T N O L show fuel order w t depth degrees names coords w' t' arrs Hd Hg Hc Ho Hw H.
  destruct (query_flat show fuel order w t depth degrees names coords Ho Hc Hd Hg Hw) as [r [E Hr]].
  pose proof H as H'. rewrite (E w Hw) in H. destruct r as [[w1 a]| |]; inversion H; subst. split; [reflexivity|]. split.
  - apply no_tops_app; [assumption|]. eapply Hr. reflexivity.
  - intros x Hx. apply travel_times_spec in H'; [|assumption|apply Hc].
    destruct H' as [deg [td [id [phs [ls [_ [[[_ [Ew _]]|[_ HD]] _]]]]]]].
    + rewrite Ew in Hx. auto.
    + apply depthCorrect_spec in HD; [|assumption]. destruct HD as [_ [_ [_ [_ [_ [_ [_ [_ [_ HD]]]]]]]]].
      destruct HD as [[_ [Ew _]]|[_ [Ew _]]]; rewrite Ew in Hx; [auto|].
      apply in_app_or in Hx. destruct Hx as [Hx|[<-|[]]]; auto.
Qed.

(** Whatever happened before, the model is the loaded one and a query is answered as if it were
    the first, with the same exception if it fails. *)
Theorem C30_history_irrelevant :
  forall {T} {N : Num T} {O : NumOrd T} {L : Libm T} show (t : tmodel T) w s,
  decreasing (tm_rayParams t) -> gap_free t -> history show t w s ->
  s = t /\
  forall fuel order depth degrees names coords, calm fuel t depth -> set_order_ok order ->
    answer (get_travel_times show fuel order w s depth degrees names coords) =
    answer (get_travel_times show fuel order [] t depth degrees names coords).
Proof.
  intros T N O L show t w s Hd Hg H. split; [apply (history_spec show t w s Hd Hg H)|].
  intros. apply history_answer; assumption.
Qed.

(** [calm] in terms of the layers of the corrected model *)
Theorem C30_calm :
  forall {T} {N : Num T} {O : NumOrd T} {L : Libm T} fuel (t : tmodel T) x, decreasing (tm_rayParams t) -> n_ok x ->
  apart (tm_sMod t) x ->
  (forall w t' r, tm_depthCorrect fuel [] t x = Ok (w, t', r) ->
     apart (tm_sMod r) x /\ forall b, In b (tm_P t) -> apart (tm_sMod r) (tb_top b)) ->
  calm fuel t x.
Proof.
  intros T N O L fuel t x Hd Hx Ha H. split; [assumption|]. split; [assumption|]. intros w t' r E.
  destruct (H _ _ _ E) as [A B]. eapply apart_in_place; eassumption.
Qed.

Definition calmb (fuel : nat) (t : tmodel b64) (x : b64) : bool :=
  (x =? x) && apartb (tm_sMod t) x &&
  match tm_depthCorrect fuel [] t x with
  | Ok (_, _, r) => apartb (tm_sMod r) x && forallb (fun b => apartb (tm_sMod r) (tb_top b)) (tm_P t)
  | _ => true
  end.
Lemma calmb_ok : forall fuel t x, decreasing (tm_rayParams t) -> calmb fuel t x = true -> calm fuel t x.
Proof.
  intros fuel t x Hd H. unfold calmb in H. apply andb_true_iff in H. destruct H as [H H3]. apply andb_true_iff in H.
  destruct H as [H1 H2]. apply C30_calm; [assumption|exact H1|apply apartb_ok; assumption|].
  intros w t' r E. rewrite E in H3. apply andb_true_iff in H3. destruct H3 as [H3 H4]. rewrite forallb_forall in H4.
  split; [apply apartb_ok; assumption|]. intros b Hb. apply apartb_ok, H4. assumption.
Qed.
Lemma toy_calm_100 : calm 50 toy_tMod (d 100 0).
Proof. apply calmb_ok; [apply toy_branches|]. vm_compute. reflexivity. Qed.
Lemma toy_calm_300 : calm 50 toy_tMod (d 300 0).
Proof. apply calmb_ok; [apply toy_branches|]. vm_compute. reflexivity. Qed.
Lemma toy_calm_0 : calm 50 toy_tMod (d 0 0).
Proof. apply calmb_ok; [apply toy_branches|]. vm_compute. reflexivity. Qed.
Lemma toy_gap_free : gap_free toy_tMod.
Proof.
  destruct toy_good as [_ H]. intros v. specialize (H v). split; [apply H|]. eapply good_upright. exact H.
Qed.
Lemma toy_order : set_order_ok (nodup string_dec).
Proof. intros l. split; [apply NoDup_nodup|]. intros x. apply nodup_In. Qed.
(** three queries in a row *)
Example C30_ex :
  decreasing (tm_rayParams toy_tMod) /\ gap_free toy_tMod /\ set_order_ok (nodup string_dec) /\
  calm 50 toy_tMod (d 100 0) /\ calm 50 toy_tMod (d 300 0) /\
  exists w, history no_show toy_tMod w toy_tMod /\ List.length w = 3%nat /\
    answer (get_travel_times no_show 50 (nodup string_dec) w toy_tMod (d 100 0) (Some (d 40 0)) (Some ["P"; "Ss"]) None)
    = answer (get_travel_times no_show 50 (nodup string_dec) [] toy_tMod (d 100 0) (Some (d 40 0)) (Some ["P"; "Ss"]) None).
Proof.
  assert (A : decreasing (tm_rayParams toy_tMod)) by apply toy_branches.
  pose proof toy_gap_free as B. pose proof toy_order as C. pose proof toy_calm_100 as D. pose proof toy_calm_300 as E.
  assert (Q : forall depth names, calm 50 toy_tMod depth ->
            match get_travel_times no_show 50 (nodup string_dec) [] toy_tMod depth (Some (d 40 0)) (Some names) None with
            | Ok (w, _, _) => w = [depth] | _ => False end ->
            forall w, history no_show toy_tMod w toy_tMod -> history no_show toy_tMod (w ++ [depth]) toy_tMod).
  { intros depth names Hc HQ w Hw. destruct (C30_history_irrelevant no_show toy_tMod w toy_tMod A B Hw) as [_ Ea].
    destruct (history_spec no_show toy_tMod w toy_tMod A B Hw) as [_ Hn].
    destruct (query_flat no_show 50 (nodup string_dec) w toy_tMod depth (Some (d 40 0)) (Some names) None C Hc A B Hn) as [r [Er _]].
    assert (E0 : no_tops [] toy_tMod) by (intros ? ? []).
    rewrite (Er [] E0) in HQ. pose proof (Er w Hn) as Ew. destruct r as [[w1 arrs]| |]; [|contradiction..].
    cbn [app] in HQ. subst w1. eapply after_query; [exact Hw|exact Hc|exact C|exact Ew]. }
  do 5 (split; [assumption|]). exists [d 100 0; d 300 0; d 7 0].
  assert (H : history no_show toy_tMod [d 100 0; d 300 0; d 7 0] toy_tMod).
  { change [d 100 0; d 300 0; d 7 0] with (([] ++ [d 100 0]) ++ [d 300 0] ++ [d 7 0]). rewrite app_assoc. apply after_other.
    - apply (Q (d 300 0) ["P"]); [exact E|vm_compute; reflexivity|]. apply (Q (d 100 0) ["P"]); [exact D|vm_compute; reflexivity|]. apply at_start.
    - intros x b [<-|[]] Hb. assert (F : forallb (fun b => negb (d 7 0 =? tb_top b)) (tm_P toy_tMod) = true) by (vm_compute; reflexivity).
      apply (proj1 (forallb_forall _ _) F) in Hb. apply negb_true_iff. exact Hb. }
  split; [exact H|]. split; [reflexivity|]. apply (C30_history_irrelevant no_show toy_tMod _ _ A B H); assumption.
Qed.

(** Within 1 mm of a layer boundary of both wave types (and not at a branch end) the loaded
    model itself loses its S layers: they become the P layers. *)
Theorem C30_near_boundary_refuted :
  forall {T} {N : Num T} {O : NumOrd T} {L : Libm T} fuel w (t : tmodel T) x w' t' r kS yS kP yP,
  decreasing (tm_rayParams t) -> gap_free t -> n_ok x -> ~ at_edge (tm_P t) x ->
  shallowest (sm_S (tm_sMod t)) x kS -> nth_error (sm_S (tm_sMod t)) kS = Some yS ->
  sl_topDepth yS =? x = true \/ sl_botDepth yS =? x = true \/ close (sl_topDepth yS) x \/ close x (sl_botDepth yS) ->
  shallowest (sm_P (tm_sMod t)) x kP -> nth_error (sm_P (tm_sMod t)) kP = Some yP ->
  ~ (sl_topDepth yP =? x = true \/ sl_botDepth yP =? x = true) ->
  close (sl_topDepth yP) x \/ close x (sl_botDepth yP) ->
  tm_depthCorrect fuel w t x = Ok (w', t', r) ->
  sm_S (tm_sMod t') = sm_P (tm_sMod t').
Proof.
  intros T N O L fuel w t x w' t' r kS yS kP yP Hd Hg Hx He HkS HyS NS HkP HyP NoP NP H.
  apply depthCorrect_spec in H; [|assumption]. destruct H as [_ [_ [_ [_ [_ [_ [_ [_ [_ H]]]]]]]]].
  destruct H as [[F _]|[_ [_ [H _]]]]; [contradiction|].
  destruct H as [mS [iS [m2 [iP [H1 [H2 [_ [E _]]]]]]]].
  destruct (Hg false) as [G1 G2]. destruct (Hg true) as [G3 G4].
  destruct (splitLayer_cases _ _ _ _ _ _ G1 G2 Hx H1) as [k [y [Hs [Hy C]]]].
  assert (k = kS) by (eapply shallowest_unique; eassumption). subst k. cbn [sm_layers] in Hy. assert (y = yS) by congruence. subst y.
  assert (K : si_needed iS = false /\ sm_P (si_sMod iS) = sm_P (tm_sMod t)).
  { destruct C as [[_ [-> ->]]|[[_ [_ [Em [E1 [_ [_ E2]]]]]]|[C1 [C2 [C3 _]]]]]; [split; reflexivity| |tauto].
    split; [assumption|]. rewrite <- Em. apply E2. reflexivity. }
  destruct K as [K1 K2]. rewrite E, K1.
  assert (A : forall B : Prop, (sm_layers (si_sMod iS) true = sm_layers (tm_sMod t) true -> B) -> B) by (intros B HB; apply HB; exact K2).
  apply A. clear A. intros A.
  refine (proj1 (proj2 (proj2 (C43_close_boundary_refuted fuel (si_sMod iS) x true m2 iP kP yP _ _ Hx H2 _ _ NoP NP))) eq_refl);
    rewrite A; assumption.
Qed.
(** Source half a millimetre below a layer boundary of the toy model: of its 15 S layers 13 are
    left, and a later query for another depth has no S arrival and a wrong ScS. *)
Definition mm_below : b64 := S754_finite false 7531177345637008 (-41).
Definition times_of (r : result (list b64 * tmodel b64 * list (arrival b64))) : result (list (string * Z)) :=
  let! '(_, l) := answer r in Ok (map (fun a => (ar_name a, b64_ceil (ar_time a))) l).
Definition layer_near (l : list (slayer b64)) (x : b64) : bool :=
  existsb (fun y => (sl_topDepth y <=? x) && (x <=? sl_botDepth y) && negb (sl_topDepth y =? x) && negb (sl_botDepth y =? x)
                    && (n_abs (sl_topDepth y - x) <? n_lit 1 (-6))) l.
Example C30_near_ex :
  decreasing (tm_rayParams toy_tMod) /\ gap_free toy_tMod /\
  layer_near (sm_S (tm_sMod toy_tMod)) mm_below = true /\ layer_near (sm_P (tm_sMod toy_tMod)) mm_below = true /\
  existsb (fun b => (tb_top b =? mm_below) || (tb_bot b =? mm_below)) (tm_P toy_tMod) = false /\
  match get_travel_times no_show 50 (nodup string_dec) [] toy_tMod mm_below (Some (d 40 0)) (Some ["P"]) None with
  | Ok (w, t', _) =>
      List.length (sm_S (tm_sMod toy_tMod)) = 15%nat /\ List.length (sm_S (tm_sMod t')) = 13%nat /\
      times_of (get_travel_times no_show 50 (nodup string_dec) w t' (d 100 0) (Some (d 40 0)) (Some ["S"; "P"; "ScS"]) None)
      = Ok [("P", 484%Z); ("ScS", 1162%Z)]
  | _ => False
  end /\
  times_of (get_travel_times no_show 50 (nodup string_dec) [] toy_tMod (d 100 0) (Some (d 40 0)) (Some ["S"; "P"; "ScS"]) None)
  = Ok [("P", 484%Z); ("S", 899%Z); ("ScS", 1155%Z)].
Proof.
  split; [apply toy_branches|]. split; [exact toy_gap_free|]. vm_compute. repeat split.
Qed.

(** *** two models *)
(** the toy model with another boundary at 5 km *)
Definition toy5_vm : vmodel b64 :=
  mkVModel "toy5" (d 6371 0) (d 35 0) (d 2889 0) (d 5154 0) (d 0 0) (d 6371 0) true
    [ mkVLayer 0 (d 0 0) (d 5 0) (d 5 0) (d 5 0) (d 3 0) (d 3 0) (d 26 (-1)) (d 26 (-1));
      mkVLayer 1 (d 5 0) (d 35 0) (d 6 0) (d 6 0) (d 35 (-1)) (d 35 (-1)) (d 26 (-1)) (d 26 (-1));
      mkVLayer 2 (d 35 0) (d 2889 0) (d 8 0) (d 13 0) (d 45 (-1)) (d 7 0) (d 3 0) (d 5 0);
      mkVLayer 3 (d 2889 0) (d 5154 0) (d 8 0) (d 10 0) (d 0 0) (d 0 0) (d 10 0) (d 12 0);
      mkVLayer 4 (d 5154 0) (d 6371 0) (d 11 0) (d 115 (-1)) (d 35 (-1)) (d 37 (-1)) (d 12 0) (d 13 0) ].
Definition toy5 : result (tmodel b64) :=
  let! m := newSlownessModel 200 toy5_vm (d 1 (-1)) (d 1000 0) (d 3000 0) (d 1000 0) (d 1000 0) true (d 1 (-16)) in
  newTauModel 200 m.
(** A query for a source at 5 km on one model makes the boundary at 5 km of the other model
    unknown: its P5P has an arrival before, and none after. *)
Theorem C30_other_model_refuted :
  exists t5 w t' arrs, toy5 = Ok t5 /\
  get_travel_times no_show 50 (nodup string_dec) [] toy_tMod (d 5 0) (Some (d 40 0)) (Some ["P"]) None = Ok (w, t', arrs) /\
  times_of (get_travel_times no_show 50 (nodup string_dec) [] t5 (d 0 0) (Some (d 40 0)) (Some ["P5P"]) None)
  = Ok [("P5P", 493%Z)] /\
  times_of (get_travel_times no_show 50 (nodup string_dec) w t5 (d 0 0) (Some (d 40 0)) (Some ["P5P"]) None) = Ok [].
Proof.
  assert (H : match toy5, get_travel_times no_show 50 (nodup string_dec) [] toy_tMod (d 5 0) (Some (d 40 0)) (Some ["P"]) None with
              | Ok t5, Ok (w, _, _) =>
                  times_of (get_travel_times no_show 50 (nodup string_dec) [] t5 (d 0 0) (Some (d 40 0)) (Some ["P5P"]) None)
                  = Ok [("P5P", 493%Z)] /\
                  times_of (get_travel_times no_show 50 (nodup string_dec) w t5 (d 0 0) (Some (d 40 0)) (Some ["P5P"]) None) = Ok []
              | _, _ => False
              end) by (vm_compute; split; reflexivity).
  destruct toy5 as [t5| |]; [|contradiction..].
  destruct (get_travel_times no_show 50 (nodup string_dec) [] toy_tMod (d 5 0) (Some (d 40 0)) (Some ["P"]) None) as [[[w t'] arrs]| |]; [|contradiction..].
  exists t5, w, t', arrs. destruct H. do 2 (split; [reflexivity|]). split; assumption.
Qed.

(** ** C39: reused objects *)
(** [Q]: the source depths used; equal ones must be identical (0.0 and -0.0 are equal). *)
Theorem C39_reuse :
  forall {T} {N : Num T} {O : NumOrd T} {L : Libm T} show (t : tmodel T) fuel (Q : T -> Prop),
  decreasing (tm_rayParams t) -> gap_free t -> at_surface t ->
  (forall x y, Q x -> Q y -> x =? y = true -> x = y) -> Q n_0 ->
  forall order w s names depth degrees coords, runs show t fuel Q w s -> Q depth -> calm fuel t depth ->
  set_order_ok order -> names <> [] ->
  outcome (tt_rerun show fuel order w s names depth degrees coords) =
  outcome (tt_rerun show fuel order [] (tt_new t depth) names depth degrees coords).
Proof.
  intros T N O L show t fuel Q Hd Hg Hs HQ H0 order w s names depth degrees coords Hr Hq Hc Ho Hn.
  exact (reuse_same show t fuel Q Hd Hg Hs HQ H0 order w s names depth degrees coords Hr Hq Hc Ho Hn).
Qed.
(** An empty list of phases: a fresh object has no phases, a used one those of its last run,
    even for another depth. *)
Theorem C39_empty_list_refuted :
  forall {T} {N : Num T} {L : Libm T} show fuel order w (s : ttime T) depth degrees coords w' s',
  set_order_ok order ->
  tt_rerun show fuel order w s [] depth degrees coords = Ok (w', s') ->
  tt_phases s' = tt_phases s.
Proof.
  intros T N L show fuel order w s depth degrees coords w' s' Ho H.
  assert (En : parsePhaseList order [] = []).
  { destruct (parsePhaseList_spec order Ho []) as [_ Hin]. destruct (parsePhaseList order []) as [|n l]; [reflexivity|].
    exfalso. destruct (proj1 (Hin n) (or_introl eq_refl)) as [m [[] _]]. }
  unfold tt_rerun in H. rewrite En in H. inv_as H as deg Hdeg. inv_as H as [w1 s1] H1.
  assert (K : forall w s w' s' x, tt_names s = [] -> tt_depthCorrect show fuel w s x = Ok (w', s') ->
              tt_names s' = [] /\ tt_phases s' = tt_phases s).
  { clear. intros w s w' s' x E H. unfold tt_depthCorrect in H. inv_as H as [w1 s1] H1. inversion H; subst. clear H.
    cbn [tt_names tt_phases]. destruct (tm_sourceDepth (tt_tModDepth s) <>? x); [|inversion H1; subst; auto].
    inv_as H1 as [[w2 self] dm] H2. inv_as H1 as s2 H3. inversion H1; subst. unfold recalcPhases in H3.
    cbn [tt_names tt_phases tt_tModDepth tt_depthId tt_depth] in H3. rewrite E in H3. cbn [recalc_go bind] in H3.
    inversion H3; subst. auto. }
  apply K in H1; [|reflexivity]. destruct H1 as [N1 P1]. cbn [tt_phases] in P1.
  unfold calculate in H. inv_as H as [w2 s2] H2. apply K in H2; [|assumption]. destruct H2 as [N2 P2].
  inv_as H as s3 H3. inv_as H as s4 H4. inversion H; subst. unfold recalcPhases in H3. rewrite N2 in H3. cbn [recalc_go bind] in H3.
  inversion H3; subst. unfold tt_calcTime in H4. inv_as H4 as ls Hl. inversion H4; subst. cbn [tt_phases]. congruence.
Qed.
Lemma toy_at_surface : at_surface toy_tMod.
Proof.
  split; [reflexivity|]. split; [reflexivity|]. split; [vm_compute; reflexivity|].
  eexists. split; [reflexivity|]. split; vm_compute; reflexivity.
Qed.
(** a run at 100 km, then one at 300 km, on the same object *)
Definition depths_used (x : b64) : Prop := x = d 0 0 \/ x = d 100 0 \/ x = d 300 0.
Example C39_ex :
  (forall x y, depths_used x -> depths_used y -> x =? y = true -> x = y) /\ depths_used n_0 /\
  at_surface toy_tMod /\
  exists w s, runs no_show toy_tMod 50 depths_used w s /\ w = [d 100 0] /\ List.length (tt_phases s) = 2%nat /\
  outcome (tt_rerun no_show 50 (nodup string_dec) w s ["P"; "PcP"] (d 300 0) (Some (d 40 0)) None) =
  outcome (tt_rerun no_show 50 (nodup string_dec) [] (tt_new toy_tMod (d 300 0)) ["P"; "PcP"] (d 300 0) (Some (d 40 0)) None).
Proof.
  assert (HQ : forall x y, depths_used x -> depths_used y -> x =? y = true -> x = y).
  { intros x y [->|[->| ->]] [->|[->| ->]] H; try reflexivity; vm_compute in H; discriminate. }
  assert (H0 : depths_used n_0) by (left; reflexivity).
  split; [exact HQ|]. split; [exact H0|]. split; [exact toy_at_surface|].
  pose proof (made no_show toy_tMod 50 depths_used [] (d 100 0) ltac:(intros ? ? [])) as R0.
  assert (K : match tt_rerun no_show 50 (nodup string_dec) [] (tt_new toy_tMod (d 100 0)) ["P"; "S"] (d 100 0) (Some (d 40 0)) None with
              | Ok (w, s) => w = [d 100 0] /\ List.length (tt_phases s) = 2%nat | _ => False end) by (vm_compute; split; reflexivity).
  destruct (tt_rerun no_show 50 (nodup string_dec) [] (tt_new toy_tMod (d 100 0)) ["P"; "S"] (d 100 0) (Some (d 40 0)) None) as [[w s]| |] eqn:E;
    [|contradiction..].
  exists w, s. destruct K as [K1 K2].
  assert (R1 : runs no_show toy_tMod 50 depths_used w s).
  { eapply again; [exact R0| |exact toy_calm_100|exact toy_order| |exact E]; [right; left; reflexivity|discriminate]. }
  split; [exact R1|]. split; [assumption|]. split; [assumption|].
  eapply (C39_reuse no_show toy_tMod 50 depths_used);
    [apply toy_branches|exact toy_gap_free|exact toy_at_surface|exact HQ|exact H0|exact R1| |exact toy_calm_300|exact toy_order|discriminate].
  right. right. reflexivity.
Qed.
Example C39_empty_ex :
  match tt_rerun no_show 50 (nodup string_dec) [] (tt_new toy_tMod (d 100 0)) ["P"; "S"] (d 100 0) (Some (d 40 0)) None with
  | Ok (w, s) =>
      match tt_rerun no_show 50 (nodup string_dec) w s [] (d 300 0) (Some (d 40 0)) None with
      | Ok (_, s') => List.length (tt_arrivals s') = 2%nat /\ map ar_sourceDepth (tt_arrivals s') = [d 100 0; d 100 0]
      | _ => False
      end
  | _ => False
  end /\
  match tt_rerun no_show 50 (nodup string_dec) [] (tt_new toy_tMod (d 300 0)) [] (d 300 0) (Some (d 40 0)) None with
  | Ok (_, s') => tt_arrivals s' = []
  | _ => False
  end.
Proof. vm_compute. repeat split. Qed.

Print Assumptions C31_discontinuities.
Print Assumptions C30_model_kept.
Print Assumptions C30_history_irrelevant.
Print Assumptions C30_calm.
Print Assumptions C30_near_boundary_refuted.
Print Assumptions C30_other_model_refuted.
Print Assumptions C39_reuse.
Print Assumptions C39_empty_list_refuted.

(** C66: which slowness models a tau model can be computed from. *)
From Coq Require Import ZArith Bool List String Reals Lia Lra.
From Verif Require Import Base Num PyStr VelocityModel VelSpec VelProofs SlownessLayer SlownessModel SlowSpec SlowProofs SlowBuildProofs SlowProps SlowRealProofs StackProofs
  TauModel TauSpec TauProofs TauBuildProofs TauProps PathSpec MonoSpec LimitSpec LimitProofs BullenSpec ErrSpec CompatSpec CompatProofs CompatProps ReadySpec ReadyProofs
  RealRun SlowRun BuildRun TwoRun InsideRun InsideProps.
Import ListNotations.
Local Open Scope string_scope.
Local Open Scope list_scope.
Local Open Scope R_scope.

(** A tau model cannot be computed if the S slowness, having risen, falls below the least slowness above within one layer. *)
Theorem C66_fails : forall {L : Libm R} fuel (m : smodel R), stacked m false -> unsampled_return m ->
  forall t, newTauModel fuel m <> Ok t.
Proof. intros L fuel m K U t. exact (unsampled_fails fuel m t K U). Qed.

(** For regular layers this is the only obstacle. *)
Theorem C66_exact : forall fuel (m : smodel R), (forall w, stacked m w) -> sm_validate m = Ok true -> near_depths (sm_vMod m) -> regular m ->
  (forall w, (List.length (sm_layers m w) <= fuel)%nat) -> steady_between m false -> (forall s, sampled_value (sm_S m) s -> clear_of (sm_P m) s) ->
  ((exists t, newTauModel fuel m = Ok t) <-> ~ unsampled_return m).
Proof.
  intros fuel m K Hv Nd Rg Hf St Cl. split.
  - intros [t Ht] U. exact (unsampled_fails fuel m t (K false) U Ht).
  - intros Hn. apply tau_total; [exact K|exact Hv|exact Nd|]. intros rp Hr w.
    pose proof (nonneg_rp m rp (K false) Hr) as P0. destruct (rp_sampled m rp Hr) as [Rc Sp]. destruct w.
    + apply clear_branches; auto.
    + apply floor_branches; auto.
Qed.

(** in particular for constructed models *)
Theorem C66_constructed : forall fuel fuel' vm dp Dp dz dx err innerS tol (m : smodel R),
  newSlownessModel fuel vm dp Dp dz dx err innerS tol = Ok m -> VelSpec.thick (vm_layers vm) -> vm_radius vm = 6371 ->
  near_depths vm -> regular m -> (forall w, (List.length (sm_layers m w) <= fuel')%nat) ->
  no_flat vm innerS -> fluid_above_inner_core vm innerS ->
  ((exists t, newTauModel fuel' m = Ok t) <-> ~ unsampled_return m).
Proof.
  intros fuel fuel' vm dp Dp dz dx err innerS tol m H Ht Hr Nd Rg Hf Nf Fi.
  pose proof (constructed_stacked _ _ _ _ _ _ _ _ _ _ H Ht Hr) as K.
  destruct (C23_constructed_valid _ _ _ _ _ _ _ _ _ _ H (proj2 (Reqb_eq _ _) eq_refl)) as [Hv _].
  apply C66_exact; auto.
  - unfold newSlownessModel in H. destruct (createSample_built _ _ _ H (R_ok _)) as [_ [-> _]]. exact Nd.
  - exact (constructed_steady _ _ _ _ _ _ _ _ _ _ H Ht Hr Nf Fi false).
  - exact (C65_compatible _ _ _ _ _ _ _ _ _ _ H).
Qed.

(** A constructed model whose S layers are clear of the ray parameters yields a tau model. *)
Theorem C66_clear : forall fuel fuel' vm dp Dp dz dx err innerS tol (m : smodel R),
  newSlownessModel fuel vm dp Dp dz dx err innerS tol = Ok m -> VelSpec.thick (vm_layers vm) -> vm_radius vm = 6371 ->
  near_depths vm -> regular m -> (forall w, (List.length (sm_layers m w) <= fuel')%nat) ->
  (forall i, record_at (slownesses (sm_S m)) i -> forall q, nth_error (slownesses (sm_S m)) i = Some q -> clear_of (sm_S m) q) ->
  exists t, newTauModel fuel' m = Ok t.
Proof.
  intros fuel fuel' vm dp Dp dz dx err innerS tol m H Ht Hr Nd Rg Hf Cl.
  pose proof (constructed_stacked _ _ _ _ _ _ _ _ _ _ H Ht Hr) as K.
  destruct (C23_constructed_valid _ _ _ _ _ _ _ _ _ _ H (proj2 (Reqb_eq _ _) eq_refl)) as [Hv _].
  apply tau_total; [exact K|exact Hv| |].
  - unfold newSlownessModel in H. destruct (createSample_built _ _ _ H (R_ok _)) as [_ [-> _]]. exact Nd.
  - intros rp Hrp w. pose proof (nonneg_rp m rp (K false) Hrp) as P0. destruct (rp_sampled m rp Hrp) as [Rc Sp].
    apply clear_branches; auto. intros p Hp. split; [auto|]. destruct w.
    + exact (C65_compatible _ _ _ _ _ _ _ _ _ _ H p (Sp p Hp)).
    + apply (records_in _ _ _ Rc) in Hp. destruct Hp as [i [Ri Ei]]. exact (Cl i Ri p Ei).
Qed.

(** so does one in which the S slowness never rises with depth *)
Theorem C66_never_rises : forall fuel fuel' vm dp Dp dz dx err innerS tol (m : smodel R),
  newSlownessModel fuel vm dp Dp dz dx err innerS tol = Ok m -> VelSpec.thick (vm_layers vm) -> vm_radius vm = 6371 ->
  near_depths vm -> regular m -> (forall w, (List.length (sm_layers m w) <= fuel')%nat) -> never_rises (sm_S m) ->
  exists t, newTauModel fuel' m = Ok t.
Proof.
  intros fuel fuel' vm dp Dp dz dx err innerS tol m H Ht Hr Nd Rg Hf Nr.
  apply (C66_clear _ _ _ _ _ _ _ _ _ _ _ H Ht Hr Nd Rg Hf). intros i _ q Ei.
  apply falling_clear; [exact (k_join m false (constructed_stacked _ _ _ _ _ _ _ _ _ _ H Ht Hr false))|exact Nr|].
  apply slow_sampled. eapply nth_error_In. exact Ei.
Qed.

Lemma near_300 : forall x : R, x <= 7000 -> x < n_lit 1 300.
Proof.
  intros x H. change (@n_lit R Num_R) with Rlit. unfold Rlit, powerRZ.
  assert (10 ^ 4 <= 10 ^ Pos.to_nat 300) by (apply Rle_pow; [lra|lia]). lra.
Qed.
(** the planet of constant velocity given as two layers meets the hypotheses *)
Example C66_ex : exists e, let m := two_sm e two_c' in
  newSlownessModel 20 two_vm 1 7000 7000 10 e true 1 = Ok m /\ VelSpec.thick (vm_layers two_vm) /\ vm_radius two_vm = 6371 /\
  near_depths two_vm /\ regular m /\ (forall w, (List.length (sm_layers m w) <= 20)%nat) /\ no_flat two_vm true /\ fluid_above_inner_core two_vm true /\
  never_rises (sm_S m) /\ ~ unsampled_return m /\ exists t, newTauModel 20 m = Ok t.
Proof.
  destruct C57_ex as [e [tA [xA [tB [xB [tC [xC [tD [xD [H1 [H2 [H3 [H4 [H5 [H6 [_ [H8 _]]]]]]]]]]]]]]]]].
  exists e. cbv zeta.
  assert (Nd : near_depths two_vm).
  { repeat split; rewrite Rabs_pos_eq; cbn [two_vm vm_moho vm_cmb vm_iocb]; try lra; apply near_300; lra. }
  assert (Fu : forall w, (List.length (sm_layers (two_sm e two_c') w) <= 20)%nat) by (intros []; cbn; lia).
  assert (Nr : never_rises (sm_S (two_sm e two_c'))) by (intros y [<-|[<-|[]]]; cbn; lra).
  pose proof (C66_never_rises _ _ _ _ _ _ _ _ _ _ _ H1 H3 H4 Nd H8 Fu Nr) as [t Ht].
  split; [exact H1|]. split; [exact H3|]. split; [exact H4|]. split; [exact Nd|]. split; [exact H8|]. split; [exact Fu|].
  assert (Nf : no_flat two_vm true /\ fluid_above_inner_core two_vm true) by (split; assumption).
  destruct Nf as [Nf Fi]. split; [exact Nf|]. split; [exact Fi|]. split; [exact Nr|].
  split; [|eauto]. exact (proj1 (C66_constructed _ _ _ _ _ _ _ _ _ _ _ H1 H3 H4 Nd H8 Fu Nf Fi) (ex_intro _ t Ht)).
Qed.

(** a model in which the S slowness rises from 277 to 300 and then falls to 0 within one layer *)
Definition hill_vm : vmodel R := mkVModel "hill" 6371 371 371 371 0 6371 true [].
Definition hill_sm : smodel R := mkSM hill_vm 1 7000 7000 10 1 true (1 / 1000000) 6371 [mkCD 0 0 0 0; mkCD 371 1 1 1; mkCD 6371 2 2 2] [] [] []
  [mkSL 1 100 0 90 371; mkSL 2 90 371 0 6371] [mkSL 3 277 0 300 371; mkSL 4 300 371 0 6371] 5.
Lemma hill_nth : forall w k y, nth_error (sm_layers hill_sm w) k = Some y ->
  k = 0%nat /\ sl_topDepth y = 0 /\ sl_botDepth y = 371 /\ sl_topP y = (if w then 100 else 277) /\ sl_botP y = (if w then 90 else 300) \/
  k = 1%nat /\ sl_topDepth y = 371 /\ sl_botDepth y = 6371 /\ sl_topP y = (if w then 90 else 300) /\ sl_botP y = 0.
Proof.
  intros w k y H. destruct k as [|[|k]]; [left|right|destruct w, k; discriminate]; (split; [reflexivity|]).
  all: repeat split; [apply (f_equal (fun o => match o with Some y => sl_topDepth y | None => 0 end)) in H
    |apply (f_equal (fun o => match o with Some y => sl_botDepth y | None => 0 end)) in H
    |apply (f_equal (fun o => match o with Some y => sl_topP y | None => 0 end)) in H
    |apply (f_equal (fun o => match o with Some y => sl_botP y | None => 0 end)) in H]; cbv beta iota in H; rewrite <- H; destruct w; reflexivity.
Qed.
Lemma hill_at : forall w, exists a b, sm_layers hill_sm w = [a; b] /\ nth_error (sm_layers hill_sm w) 0 = Some a /\ nth_error (sm_layers hill_sm w) 1 = Some b.
Proof. intros []; do 2 eexists; repeat split; reflexivity. Qed.
Lemma hill_stacked : forall w, stacked hill_sm w.
Proof.
  intros w. destruct (hill_at w) as [a [b [El [Ha Hb]]]].
  destruct (hill_nth w 0 a Ha) as [[_ [A1 [A2 [A3 A4]]]]|[F _]]; [|discriminate].
  destruct (hill_nth w 1 b Hb) as [[F _]|[_ [B1 [B2 [B3 B4]]]]]; [discriminate|].
  assert (Pos : forall y, In y (sm_layers hill_sm w) -> y = a \/ y = b) by (intros y Hy; rewrite El in Hy; destruct Hy as [<-|[<-|[]]]; auto).
  assert (Q : 0 <= (if w then 100 else 277) /\ 0 <= (if w then 90 else 300)) by (destruct w; lra).
  assert (Dp : forall x i, (i = 0%nat /\ 0 <= x < 371) \/ (i = 1%nat /\ 371 <= x <= 6371) -> deepest (sm_layers hill_sm w) x i).
  { intros x i [[-> X]|[-> X]].
    - split; [exists a; split; [exact Ha|]; split; apply Rleb_le; lra|]. intros j z Hz [H1 H2]. apply Rleb_le in H1, H2.
      destruct (hill_nth w j z Hz) as [[-> _]|[-> [Z1 _]]]; [lia|lra].
    - split; [exists b; split; [exact Hb|]; split; apply Rleb_le; lra|]. intros j z Hz _. destruct (hill_nth w j z Hz) as [[-> _]|[-> _]]; lia. }
  split.
  - split; [|split; [|split]].
    + intros y Hy. assert (y = a) by congruence. subst y. rewrite n_0_R. apply Reqb_eq. lra.
    + intros i y z Hy Hz. destruct (hill_nth w i y Hy) as [[-> [Y1 [Y2 _]]]|[-> _]]; destruct (hill_nth w _ z Hz) as [[F _]|[F [Z1 [Z2 _]]]]; try discriminate. apply Reqb_eq. lra.
    + intros i y z Hy Hz. destruct (hill_nth w i y Hy) as [[-> [_ [_ [_ Y2]]]]|[-> _]]; destruct (hill_nth w _ z Hz) as [[F _]|[F [_ [_ [Z1 Z2]]]]]; try discriminate. apply Reqb_eq. congruence.
    + intros y Hy. rewrite n_0_R. destruct (Pos y Hy) as [-> | ->]; repeat split; apply Rleb_le; rewrite ?A1, ?A2, ?A3, ?A4, ?B1, ?B2, ?B3, ?B4; cbn [hill_sm sm_radius]; lra.
  - intros i c c' Hc Hc'. destruct i as [|[|[|i]]]; cbn in Hc, Hc'; try discriminate; injection Hc as <-; injection Hc' as <-; apply Rltb_lt; cbn; lra.
  - intros c [<-|[<-|[<-|[]]]]; unfold num_of.
    + left. exists 0%nat, a. split; [destruct w; reflexivity|]. split; [exact Ha|]. apply Reqb_eq. exact A1.
    + left. exists 1%nat, b. split; [destruct w; reflexivity|]. split; [exact Hb|]. apply Reqb_eq. exact B1.
    + right. exists [a], b. split; [exact El|]. split; [rewrite El; destruct w; reflexivity|]. apply Reqb_eq. exact B2.
  - intros c [<-|[<-|[<-|[]]]]; unfold num_of.
    + exists 0%nat, a. split; [apply Dp; left; cbn; split; [reflexivity|lra]|]. split; [exact Ha|]. left. destruct w; reflexivity.
    + exists 1%nat, b. split; [apply Dp; right; cbn; split; [reflexivity|lra]|]. split; [exact Hb|]. left. destruct w; reflexivity.
    + exists 1%nat, b. split; [apply Dp; right; cbn; split; [reflexivity|lra]|]. split; [exact Hb|]. right. exact B2.
  - intros y Hy E. exfalso. destruct (Pos y Hy); subst y; lra.
  - exists (mkCD 0 0 0 0), [mkCD 371 1 1 1], (mkCD 6371 2 2 2). auto.
  - exists [a], b. split; [exact El|exact B2].
Qed.
Example C66_hill_ex : (forall w, stacked hill_sm w) /\ sm_validate hill_sm = Ok true /\ near_depths (sm_vMod hill_sm) /\ regular hill_sm /\
  (forall w, (List.length (sm_layers hill_sm w) <= 20)%nat) /\ steady_between hill_sm false /\
  (forall s, sampled_value (sm_S hill_sm) s -> clear_of (sm_P hill_sm) s) /\ unsampled_return hill_sm /\
  forall t, newTauModel 20 hill_sm <> Ok t.
Proof.
  assert (U : unsampled_return hill_sm).
  { exists 1%nat, (mkSL 4 300 371 0 6371), 277. split; [reflexivity|]. split; [left; cbn; lra|].
    split; [split|cbn; lra]; [eexists; split; [left; reflexivity|left; reflexivity]|].
    intros s [y [[<-|[]] [->| ->]]]; cbn; lra. }
  split; [exact hill_stacked|]. split; [srun|]. split; [repeat split; rewrite Rabs_pos_eq; cbn [hill_sm sm_vMod hill_vm vm_moho vm_cmb vm_iocb]; try lra; apply near_300; lra|].
  split; [|split; [intros []; cbn; lia|split; [|split; [|split; [exact U|]]]]].
  - intros w y Hy. right. apply In_nth_error in Hy. destruct Hy as [k Hk]. unfold plain_layer, centre_layer, BullenSpec.thick, slow_pos.
    destruct (hill_nth w k y Hk) as [[_ [A1 [A2 [A3 A4]]]]|[_ [A1 [A2 [A3 A4]]]]]; rewrite A1, A2, A3, A4; cbn [hill_sm sm_radius sm_tolerance].
    + left. destruct w; (split; [lra|]; split; [lra|]; split; [lra|]); intros X; exfalso; apply Rabs_def2 in X; lra.
    + right. destruct w; lra.
  - intros n c c' i j Hc Hc' Di Sj.
    assert (D0 : forall k, nth_error (sm_layers hill_sm false) k <> None -> k = 0%nat \/ k = 1%nat).
    { intros k Hk. destruct (nth_error (sm_layers hill_sm false) k) as [y|] eqn:E; [|congruence]. destruct (hill_nth _ _ _ E) as [[-> _]|[-> _]]; auto. }
    destruct n as [|[|n]]; cbn in Hc, Hc'; [injection Hc as <-; injection Hc' as <-..|destruct n; discriminate]; cbn [cd_depth] in *.
    + right. destruct Sj as [_ Sj]. pose proof (Sj 0%nat (mkSL 3 277 0 300 371) eq_refl) as L. assert (j = 0%nat).
      { assert (j <= 0)%nat; [|lia]. apply L. split; apply Rleb_le; cbn; lra. } subst j.
      intros k y Lk Hk. assert (k = 0%nat) by lia. subst k. injection Hk as <-. cbn. split; [lra|]. split; [lra|]. intros; lia.
    + left. destruct Di as [_ Di]. pose proof (Di 1%nat (mkSL 4 300 371 0 6371) eq_refl) as L.
      assert (1 <= i)%nat by (apply L; split; apply Rleb_le; cbn; lra).
      intros k y Lk Hk. destruct (hill_nth _ _ _ Hk) as [[-> _]|[-> [_ [_ [Y1 Y2]]]]]; [lia|]. rewrite Y1, Y2. split; [lra|]. split; [lra|].
      intros z Lz Hz. destruct (hill_nth _ _ _ Hz) as [[F _]|[F _]]; discriminate.
  - intros s [y [Hy E]] z Hz. apply In_nth_error in Hy, Hz. destruct Hy as [k Hk], Hz as [k' Hk']. unfold passes_through.
    destruct (hill_nth false k y Hk) as [[_ [_ [_ [Y1 Y2]]]]|[_ [_ [_ [Y1 Y2]]]]]; rewrite Y1, Y2 in E;
    destruct (hill_nth true k' z Hk') as [[_ [_ [_ [Z1 Z2]]]]|[_ [_ [_ [Z1 Z2]]]]]; rewrite Z1, Z2; lra.
  - exact (C66_fails 20 hill_sm (hill_stacked false) U).
Qed.

Print Assumptions C66_fails.
Print Assumptions C66_exact.
Print Assumptions C66_constructed.
Print Assumptions C66_clear.
Print Assumptions C66_never_rises.

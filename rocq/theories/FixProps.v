(** Property C72: the two checks of the sampling leave a slowness model alone exactly if the samples they ask
    for lie inside no layer. *)
From Coq Require Import ZArith Bool List String Reals Lia Lra.
From Verif Require Import Base Num PyStr VelocityModel VelSpec VelProofs SlownessLayer SlownessModel SlowSpec SlowProofs
  SlowBuildProofs SlowRealProofs CritSpec CritProofs CritProps SampleProps CheckSpec CheckProofs FixSpec FixProofs.
Import ListNotations.
Local Open Scope list_scope.
Local Open Scope R_scope.

(** ** the check of the slowness range *)
Theorem C72_ray_unchanged : forall fuel (m : smodel R),
  0 < sm_maxDeltaP m -> known m -> (forall w, (List.length (sm_layers m w) < fuel)%nat) ->
  (forall w q, ray_asked m w q -> untouched m q) -> rayParamIncCheck fuel m = Ok m.
Proof.
  intros fuel m P K F H.
  assert (B : forall w y, In y (sm_layers m w) -> rayInc_body m y = Ok m).
  { intros w y Hy. apply ray_kept; [exact P|]. intros W n k Pn Hk. apply both_none; [exact K|]. apply (H w).
    exists y, n, k. repeat (split; [assumption|]). reflexivity. }
  unfold rayParamIncCheck. rewrite fixed_idx; [cbn [bind]; apply fixed_idx| |..].
  - intros a Ha. exact (B true a Ha).
  - specialize (F true). cbn [sm_layers] in F. lia.
  - lia.
  - intros a Ha. exact (B false a Ha).
  - specialize (F false). cbn [sm_layers] in F. lia.
  - lia.
Qed.
Theorem C72_ray_only_then : forall fuel (m : smodel R), 0 < sm_maxDeltaP m -> rayParamIncCheck fuel m = Ok m ->
  forall w q, ray_asked m w q -> forall y, In y (sm_P m) \/ (solid m /\ In y (sm_S m)) -> ~ between y q.
Proof.
  intros fuel m P H w q [x [n [k [Hx [W [Pn [Hk ->]]]]]]]. apply both_fixed. unfold rayParamIncCheck in H.
  destruct (for_idx fuel sm_S 0 rayInc_body m) as [m1| |] eqn:H1; [|discriminate..]. cbn [bind] in H.
  apply grow_idx in H1; [|exact ray_grows]. apply grow_idx in H; [|exact ray_grows].
  assert (E : m1 = m) by (destruct H1 as [[E _]|H1]; [exact E|destruct H as [[E _]|H]; [congruence|lia]]). subst m1.
  destruct H1 as [[_ H1]|H1]; [|lia]. destruct H as [[_ H]|H]; [|lia].
  apply ray_fixed; try assumption. apply In_nth_error in Hx. destruct Hx as [j Hj].
  destruct w; [apply (H j x)|apply (H1 j x)]; try lia; exact Hj.
Qed.
Theorem C72_ray_fixed_iff : forall fuel (m : smodel R),
  0 < sm_maxDeltaP m -> known m -> (forall w, (List.length (sm_layers m w) < fuel)%nat) -> solid m ->
  (rayParamIncCheck fuel m = Ok m <-> forall w q, ray_asked m w q -> untouched m q).
Proof.
  intros fuel m P K F S. split; [|apply C72_ray_unchanged; assumption].
  intros H w q A w' y Hy. eapply C72_ray_only_then; [exact P|exact H|exact A|]. destruct w'; [left|right]; auto.
Qed.

(** ** the check of the thickness *)
Theorem C72_depth_unchanged : forall fuel (m : smodel R),
  0 < sm_maxDepthInterval m -> known m -> (forall w, (List.length (sm_layers m w) < fuel)%nat) ->
  (forall w z, depth_asked m w z -> exists q, sample m w z q /\ untouched m q) -> depthIncCheck fuel m = Ok m.
Proof.
  intros fuel m P K F H.
  assert (B : forall w y, In y (sm_layers m w) -> depthInc_body (negb w) m y = Ok m).
  { intros w y Hy. apply depth_kept; [exact P|]. intros W n k Pn Hk.
    destruct (H w (depth_z y n k)) as [q [A U]]; [exists y, n, k; repeat (split; [assumption|]); reflexivity|].
    exists q. split; [exact A|]. apply both_none; assumption. }
  unfold depthIncCheck. rewrite fixed_idx; [cbn [bind]; apply fixed_idx| |..].
  - intros a Ha. exact (B true a Ha).
  - specialize (F true). cbn [sm_layers] in F. lia.
  - lia.
  - intros a Ha. exact (B false a Ha).
  - specialize (F false). cbn [sm_layers] in F. lia.
  - lia.
Qed.
Theorem C72_depth_only_then : forall fuel (m : smodel R), 0 < sm_maxDepthInterval m -> depthIncCheck fuel m = Ok m ->
  forall w z, depth_asked m w z -> exists q, sample m w z q /\
    forall y, In y (sm_P m) \/ (solid m /\ In y (sm_S m)) -> ~ between y q.
Proof.
  intros fuel m P H w z [x [n [k [Hx [W [Pn [Hk ->]]]]]]]. unfold depthIncCheck in H.
  destruct (for_idx fuel sm_S 0 (depthInc_body true) m) as [m1| |] eqn:H1; [|discriminate..]. cbn [bind] in H.
  apply grow_idx in H1; [|apply depth_grows]. apply grow_idx in H; [|apply depth_grows].
  assert (E : m1 = m) by (destruct H1 as [[E _]|H1]; [exact E|destruct H as [[E _]|H]; [congruence|lia]]). subst m1.
  destruct H1 as [[_ H1]|H1]; [|lia]. destruct H as [[_ H]|H]; [|lia].
  destruct (depth_fixed m w x n k) as [q [A B]]; try assumption.
  - apply In_nth_error in Hx. destruct Hx as [j Hj]. destruct w; [apply (H j x)|apply (H1 j x)]; try lia; exact Hj.
  - exists q. split; [exact A|]. apply both_fixed. exact B.
Qed.
Theorem C72_depth_fixed_iff : forall fuel (m : smodel R),
  0 < sm_maxDepthInterval m -> known m -> (forall w, (List.length (sm_layers m w) < fuel)%nat) -> solid m ->
  (depthIncCheck fuel m = Ok m <-> forall w z, depth_asked m w z -> exists q, sample m w z q /\ untouched m q).
Proof.
  intros fuel m P K F S. split; [|apply C72_depth_unchanged; assumption].
  intros H w z A. destruct (C72_depth_only_then fuel m P H w z A) as [q [B C]]. exists q. split; [exact B|].
  intros w' y Hy. apply C. destruct w'; [left|right]; auto.
Qed.

(** ** otherwise there are more layers *)
Theorem C72_adds : forall fuel (m m' : smodel R),
  rayParamIncCheck fuel m = Ok m' \/ depthIncCheck fuel m = Ok m' -> m' <> m ->
  (List.length (sm_P m) + List.length (sm_S m) < List.length (sm_P m') + List.length (sm_S m'))%nat.
Proof.
  intros fuel m m' H N. unfold rayParamIncCheck, depthIncCheck in H.
  destruct H as [H|H].
  - destruct (for_idx fuel sm_S 0 rayInc_body m) as [m1| |] eqn:H1; [|discriminate..]. cbn [bind] in H.
    apply grow_idx in H1; [|exact ray_grows]. apply grow_idx in H; [|exact ray_grows]. unfold tot in *.
    destruct H1 as [[-> _]|H1], H as [[-> _]|H]; try contradiction; lia.
  - destruct (for_idx fuel sm_S 0 (depthInc_body true) m) as [m1| |] eqn:H1; [|discriminate..]. cbn [bind] in H.
    apply grow_idx in H1; [|apply depth_grows]. apply grow_idx in H; [|apply depth_grows]. unfold tot in *.
    destruct H1 as [[-> _]|H1], H as [[-> _]|H]; try contradiction; lia.
Qed.

(** The planet of constant velocity in one layer, 6371 s wide and 6371 km thick.  With a limit of 4000 s a
    sample is asked for at 9556.5 s, which is in no layer; with a limit of 4000 km one at 3185.5 km, of slowness
    3185.5 s, which is inside both. *)
Lemma unit_eval : forall (w : bool) (z : R), 0 <= z <= 6371 -> (0 < z -> evaluateAbove unit_vm z (if w then "P" else "S")%string = Ok 1) /\
  (z < 6371 -> evaluateBelow unit_vm z (if w then "P" else "S")%string = Ok 1).
Proof.
  intros w z Hz. destruct unit_ok as [Hc [Ht _]].
  assert (V : In (mkVLayer 0 0 6371 1 1 1 1 1 1) (vm_layers unit_vm)) by (left; reflexivity).
  split; intros X.
  - pose proof (eval_above_in unit_vm Hc Ht _ z w V) as E. rewrite unit_line in E by exact V. apply E. cbn. lra.
  - pose proof (eval_below_in unit_vm Hc Ht _ z w V) as E. rewrite unit_line in E by exact V. apply E. cbn. lra.
Qed.
Lemma unit_solid : forall dp Dp dz dx e tol (l1 l2 : list (slayer R)) n, solid (sm_set_layers (sm_init unit_vm dp Dp dz dx e true tol) l1 l2 n).
Proof.
  intros. split; [reflexivity|]. intros x v Hv. change (sm_vMod _) with unit_vm in Hv.
  assert (K : forall i l, nth_layer (vm_layers unit_vm) i l -> forall tv bv, values l "S" tv bv -> tv = 1 /\ bv = 1).
  { intros i l Hl tv bv V. apply nth_layer_In in Hl. apply values_iff in V. destruct Hl as [<-|[]]; cbn in V; inversion V; auto. }
  destruct unit_ok as [C [T _]].
  destruct Hv as [Hv|Hv].
  - apply evaluateAbove_iff in Hv; [|exact C|exact T]. destruct Hv as [i [l [tv [bv [Hl [_ [V ->]]]]]]].
    destruct (K i l Hl _ _ V) as [-> ->]. unfold line. lra.
  - apply evaluateBelow_iff in Hv; [|exact C|exact T]. destruct Hv as [i [l [tv [bv [Hl [_ [V ->]]]]]]].
    destruct (K i l Hl _ _ V) as [-> ->]. unfold line. lra.
Qed.
Lemma unit_known : forall dp Dp dz dx e tol i j n, known (sm_set_layers (sm_init unit_vm dp Dp dz dx e true tol) [mkSL i 6371 0 0 6371] [mkSL j 6371 0 0 6371] n).
Proof.
  intros dp Dp dz dx e tol i j n w y Hy. exists 1, 1. change (sm_vMod _) with unit_vm.
  assert (E : sl_topDepth y = 0 /\ sl_botDepth y = 6371) by (destruct w; destruct Hy as [<-|[]]; auto). destruct E as [-> ->].
  split; apply unit_eval; lra.
Qed.
Lemma unit_one : forall (P : slayer R -> Prop) dp Dp dz dx e tol i j n w, (forall k, P (mkSL k 6371 0 0 6371)) ->
  forall y, In y (sm_layers (sm_set_layers (sm_init unit_vm dp Dp dz dx e true tol) [mkSL i 6371 0 0 6371] [mkSL j 6371 0 0 6371] n) w) -> P y.
Proof. intros P dp Dp dz dx e tol i j n w H y Hy. destruct w; destruct Hy as [<-|[]]; apply H. Qed.
Example C72_ex :
  (let m := unit_wide 4000 in
   0 < sm_maxDeltaP m /\ known m /\ (forall w, (List.length (sm_layers m w) < 2)%nat) /\ solid m /\
   (forall w, ray_asked m w (6371 + 6371 / 2)) /\ untouched m (6371 + 6371 / 2) /\ rayParamIncCheck 2 m = Ok m) /\
  (let m := unit_limit in
   0 < sm_maxDepthInterval m /\ known m /\ (forall w, (List.length (sm_layers m w) < 10)%nat) /\ solid m /\
   (forall w, depth_asked m w (6371 / 2) /\ sample m w (6371 / 2) (6371 / 2)) /\ ~ untouched m (6371 / 2) /\
   depthIncCheck 10 m = Ok unit_halved /\ unit_halved <> m).
Proof.
  split; intros m.
  - split; [cbn; lra|]. split; [apply unit_known|]. split; [intros w; destruct w; cbn; lia|]. split; [apply unit_solid|]. split; [|split].
    + intros w. exists (mkSL (if w then 0 else 1)%Z 6371 0 0 6371), 2%Z, 1%Z. cbn [sl_topP sl_botP]. change (sm_maxDeltaP m) with 4000.
      rewrite Rminus_0_r, Rabs_pos_eq by lra. split; [destruct w; left; reflexivity|]. unfold parts. repeat split; try lra; lia.
    + intros w. apply unit_one. intros k. unfold between. cbn [sl_topP sl_botP]. lra.
    + apply C45_ray_param_limit_refuted. lra.
  - split; [cbn; lra|]. split; [apply unit_known|]. split; [intros w; destruct w; cbn; lia|]. split; [apply unit_solid|]. split; [|split; [|split]].
    + intros w. split.
      * exists (mkSL (if w then 0 else 1)%Z 6371 0 0 6371), 2%Z, 1%Z. cbn [sl_topDepth sl_botDepth]. change (sm_maxDepthInterval m) with 4000.
        split; [destruct w; left; reflexivity|]. unfold parts. repeat split; try lra; lia.
      * exists 1. assert (E : forall w : bool, evaluateAbove unit_vm (6371 / 2) (if w then "P" else "S")%string = Ok 1) by (intros w'; apply unit_eval; lra).
        split; [|split; [lra|]]; [|replace (sm_radius m) with 6371 by (unfold m, unit_limit; cbn; rewrite ?Rlit_0; reflexivity); lra].
        destruct w; [exact (E true)|]. exists 1. split; [exact (E false)|]. left. split; [lra|]. split; [left; reflexivity|reflexivity].
    + intros U. apply (U true (mkSL 0 6371 0 0 6371)); [left; reflexivity|]. left. cbn. lra.
    + exact C45_depth_limit_ex.
    + intros X. apply (f_equal (fun m => List.length (sm_P m))) in X. discriminate.
Qed.
Print Assumptions C72_ray_unchanged.
Print Assumptions C72_ray_only_then.
Print Assumptions C72_ray_fixed_iff.
Print Assumptions C72_depth_unchanged.
Print Assumptions C72_depth_only_then.
Print Assumptions C72_depth_fixed_iff.
Print Assumptions C72_adds.

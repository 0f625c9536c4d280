(** More steps never change an outcome: lemmas (property C68). *)
From Coq Require Import ZArith Bool List String Arith Lia.
From Verif Require Import Base Num PyStr VelocityModel SlownessLayer SlownessModel TauModel Legs
  SeismicPhase Pierce TauPTime Printing Views Create CommandLine EndSpec.
Import ListNotations.

(** [r'] is what [r] was, unless [r] ran out of steps *)
Definition below {A} (r r' : result A) : Prop := r = Diverge \/ r' = r.

Lemma below_refl : forall A (r : result A), below r r.
Proof. intros. right. reflexivity. Qed.

Lemma below_bind : forall A B (r r' : result A) (f g : A -> result B),
  below r r' -> (forall a, below (f a) (g a)) -> below (bind r f) (bind r' g).
Proof.
  intros A B r r' f g [->| ->] H; [left; reflexivity|]. destruct r; cbn [bind]; [apply H|right; reflexivity|left; reflexivity].
Qed.

Lemma below_foldM : forall A B (f g : B -> A -> result B), (forall b a, below (f b a) (g b a)) ->
  forall l b, below (foldM f l b) (foldM g l b).
Proof.
  intros A B f g H l. induction l as [|a l IH]; intros b; cbn [foldM]; [apply below_refl|].
  apply below_bind; [apply H|exact IH].
Qed.

Lemma below_mapM : forall A B (f g : A -> result B), (forall a, below (f a) (g a)) ->
  forall l, below (mapM f l) (mapM g l).
Proof.
  intros A B f g H l. induction l as [|a l IH]; cbn [mapM]; [apply below_refl|].
  apply below_bind; [apply H|]. intros b. apply below_bind; [exact IH|]. intros. apply below_refl.
Qed.

Lemma below_while : forall X B (f g : X -> result (X + B)), (forall s, below (f s) (g s)) ->
  forall n k s, (n <= k)%nat -> below (while n f s) (while k g s).
Proof.
  intros X B f g H n. induction n as [|n IH]; intros k s Hk; [left; reflexivity|].
  destruct k as [|k]; [lia|]. cbn [while]. apply below_bind; [apply H|]. intros [s'|b]; [apply IH; lia|apply below_refl].
Qed.

Lemma below_for : forall X A (get : X -> list A) (f g : X -> A -> result X), (forall s a, below (f s a) (g s a)) ->
  forall n k i s, (n <= k)%nat -> below (for_idx n get i f s) (for_idx k get i g s).
Proof.
  intros X A get f g H n. induction n as [|n IH]; intros k i s Hk; [left; reflexivity|].
  destruct k as [|k]; [lia|]. cbn [for_idx]. destruct (nth_error (get s) i); [|apply below_refl].
  apply below_bind; [apply H|]. intros. apply IH. lia.
Qed.

Lemma below_settled : forall A (f : nat -> result A), (forall n k, (n <= k)%nat -> below (f n) (f k)) -> settled f.
Proof. intros A f H n k Hk Hn. destruct (H n k Hk) as [E|E]; congruence. Qed.

(** an outcome reached is the outcome *)
Lemma settled_ends : forall A (f : nat -> result A), settled f -> (exists n, f n <> Diverge) -> ends f.
Proof. intros A f H [n Hn]. exists n, (f n). split; [exact Hn|]. intros k Hk. apply H; assumption. Qed.

Create HintDb fuel discriminated.
#[global] Hint Constants Opaque : fuel.
#[global] Hint Variables Opaque : fuel.

(** step through a definition: the parts that use the number of steps are known, the others are the same on both sides *)
Ltac steps :=
  repeat first
    [ lazymatch goal with |- below ?a ?b => constr_eq a b; right; exact eq_refl end
    | solve [auto 2 with fuel]
    | apply below_bind; [|intros]
    | apply below_foldM; intros
    | apply below_mapM; intros
    | apply below_while; [intros|assumption]
    | apply below_for; [intros|assumption]
    | match goal with
      | |- below (match ?x with _ => _ end) (match ?x with _ => _ end) => destruct x
      | |- below (let '(_, _) := ?x in _) _ => destruct x
      end ].

Section End.
  Context {T : Type} {N : Num T} {L : Libm T}.
  Variables n k : nat.
  Hypothesis Hnk : (n <= k)%nat.

  Lemma e_num : forall (m : smodel T) d w, below (layerNumForDepth n m d w) (layerNumForDepth k m d w).
  Proof. intros. unfold layerNumForDepth. steps. Qed.
  Hint Resolve e_num : fuel.
  Lemma e_above : forall (m : smodel T) d w, below (layerNumberAbove n m d w) (layerNumberAbove k m d w).
  Proof. intros. unfold layerNumberAbove. steps. Qed.
  Lemma e_below : forall (m : smodel T) d w, below (layerNumberBelow n m d w) (layerNumberBelow k m d w).
  Proof. intros. unfold layerNumberBelow. steps. Qed.
  Hint Resolve e_above e_below : fuel.
  Lemma e_zone : forall w (m : smodel T) z, below (sample_high_zone n w m z) (sample_high_zone k w m z).
  Proof. intros. unfold sample_high_zone. steps. Qed.
  Lemma e_sync : forall w (m : smodel T), below (sync_layers n w m) (sync_layers k w m).
  Proof. intros. unfold sync_layers. steps. Qed.
  Hint Resolve e_zone e_sync : fuel.
  Lemma e_coarse : forall m : smodel T, below (coarseSample n m) (coarseSample k m).
  Proof. intros. unfold coarseSample. steps. Qed.
  Lemma e_rayinc : forall m : smodel T, below (rayParamIncCheck n m) (rayParamIncCheck k m).
  Proof. intros. unfold rayParamIncCheck. steps. Qed.
  Lemma e_depthinc : forall m : smodel T, below (depthIncCheck n m) (depthIncCheck k m).
  Proof. intros. unfold depthIncCheck. steps. Qed.
  Lemma e_dist1 : forall w (m : smodel T), below (distanceCheck1 n w m) (distanceCheck1 k w m).
  Proof. intros. unfold distanceCheck1. steps. Qed.
  Hint Resolve e_dist1 : fuel.
  Lemma e_dist : forall m : smodel T, below (distanceCheck n m) (distanceCheck k m).
  Proof. intros. unfold distanceCheck. steps. Qed.
  Lemma e_fixnum : forall (m : smodel T) d w, below (fix_crit_num n m d w) (fix_crit_num k m d w).
  Proof. intros. unfold fix_crit_num. steps. Qed.
  Hint Resolve e_fixnum : fuel.
  Lemma e_fix : forall m : smodel T, below (fixCriticalPoints n m) (fixCriticalPoints k m).
  Proof. intros. unfold fixCriticalPoints. steps. Qed.
  Hint Resolve e_coarse e_rayinc e_depthinc e_dist e_fix : fuel.
  Lemma e_create : forall m : smodel T, below (createSample n m) (createSample k m).
  Proof. intros. unfold createSample. steps. Qed.
  Lemma e_newS : forall vm dp Dp dz dx err innerS (tol : T),
    below (newSlownessModel n vm dp Dp dz dx err innerS tol) (newSlownessModel k vm dp Dp dz dx err innerS tol).
  Proof. intros. apply e_create. Qed.
  Lemma e_minturn : forall (m : smodel T) d w, below (getMinTurnRayParam n m d w) (getMinTurnRayParam k m d w).
  Proof. intros. unfold getMinTurnRayParam. steps. Qed.
  Hint Resolve e_newS e_minturn : fuel.
  Lemma e_minrp : forall (m : smodel T) d w, below (getMinRayParam n m d w) (getMinRayParam k m d w).
  Proof. intros. unfold getMinRayParam. steps. Qed.
  Lemma e_split : forall (m : smodel T) d w, below (splitLayer n m d w) (splitLayer k m d w).
  Proof. intros. unfold splitLayer. steps. Qed.
  Hint Resolve e_minrp e_split : fuel.
  Lemma e_createB : forall (m : smodel T) t b w p rps, below (createBranch n m t b w p rps) (createBranch k m t b w p rps).
  Proof. intros. unfold createBranch. steps. Qed.
  Lemma e_insert : forall b rp (m : smodel T) i, below (tb_insert n b rp m i) (tb_insert k b rp m i).
  Proof. intros. unfold tb_insert. steps. Qed.
  Lemma e_checks : forall a b i j (m : smodel T) rps, below (diff_checks n a b i j m rps) (diff_checks k a b i j m rps).
  Proof. intros. unfold diff_checks. steps. Qed.
  Hint Resolve e_createB e_insert e_checks : fuel.
  Lemma e_diff : forall a b i j (m : smodel T) rps, below (tb_difference n a b i j m rps) (tb_difference k a b i j m rps).
  Proof. intros. unfold tb_difference. steps. Qed.
  Lemma e_path : forall b rp d (m : smodel T), below (tb_path n b rp d m) (tb_path k b rp d m).
  Proof. intros. unfold tb_path. steps. Qed.
  Lemma e_step : forall (m : smodel T) w rps st tb, below (branch_step n m w rps st tb) (branch_step k m w rps st tb).
  Proof. intros. unfold branch_step. steps. Qed.
  Hint Resolve e_diff e_path e_step : fuel.
  Lemma e_make : forall (m : smodel T) w rps, below (make_branches n m w rps) (make_branches k m w rps).
  Proof. intros. unfold make_branches. steps. Qed.
  Hint Resolve e_make : fuel.
  Lemma e_newT : forall m : smodel T, below (newTauModel n m) (newTauModel k m).
  Proof. intros. unfold newTauModel. steps. Qed.
  Lemma e_insnew : forall (m : smodel T) s iS iP rS rP b, below (insert_new n m s iS iP rS rP b) (insert_new k m s iS iP rS rP b).
  Proof. intros. unfold insert_new. steps. Qed.
  Hint Resolve e_newT e_insnew : fuel.
  Lemma e_splitbs : forall (m : smodel T) w j d rps iS iP rS rP l,
    below (split_branches n m w j d rps iS iP rS rP l) (split_branches k m w j d rps iS iP rS rP l).
  Proof. intros. unfold split_branches. steps. Qed.
  Hint Resolve e_splitbs : fuel.
  Lemma e_splitB : forall wd (t : tmodel T) d, below (splitBranch n wd t d) (splitBranch k wd t d).
  Proof. intros. unfold splitBranch. steps. Qed.
  Hint Resolve e_splitB : fuel.
  Lemma e_correct : forall wd (t : tmodel T) d, below (tm_depthCorrect n wd t d) (tm_depthCorrect k wd t d).
  Proof. intros. unfold tm_depthCorrect. steps. Qed.
  Lemma e_fold : forall d : T, below (foldDegrees n d) (foldDegrees k d).
  Proof. intros. unfold foldDegrees, wrap360. steps. Qed.
  Hint Resolve e_correct e_fold : fuel.
  Lemma e_calc : forall (ph : phase T) d, below (ph_calcTime n ph d) (ph_calcTime k ph d).
  Proof. intros. unfold ph_calcTime. steps. Qed.
  Hint Resolve e_calc : fuel.
  Lemma e_pierce : forall (ph : phase T) d, below (calcPierce n ph d) (calcPierce k ph d).
  Proof. intros. unfold calcPierce. steps. Qed.
  Lemma e_pieces : forall (ph : phase T) a l, below (path_pieces n ph a l) (path_pieces k ph a l).
  Proof. intros ph a l. induction l as [|s l IH]; cbn [path_pieces]; steps. Qed.
  Hint Resolve e_pieces : fuel.
  Lemma e_patha : forall (ph : phase T) a, below (calcPathFromArrival n ph a) (calcPathFromArrival k ph a).
  Proof. intros. unfold calcPathFromArrival. steps. Qed.
  Hint Resolve e_patha : fuel.
  Lemma e_calcpath : forall (ph : phase T) d, below (calcPath n ph d) (calcPath k ph d).
  Proof. intros. unfold calcPath. steps. Qed.
  Variable show : T -> string.
  Lemma e_ttcorrect : forall wd (s : ttime T) d, below (tt_depthCorrect show n wd s d) (tt_depthCorrect show k wd s d).
  Proof. intros. unfold tt_depthCorrect. steps. Qed.
  Lemma e_ttcalc : forall (s : ttime T) d, below (tt_calcTime n s d) (tt_calcTime k s d).
  Proof. intros. unfold tt_calcTime. steps. Qed.
  Hint Resolve e_ttcorrect e_ttcalc : fuel.
  Lemma e_calculate : forall wd (s : ttime T) d, below (calculate show n wd s d) (calculate show k wd s d).
  Proof. intros. unfold calculate. steps. Qed.
  Hint Resolve e_calculate : fuel.
  Lemma e_rerun : forall order wd (s : ttime T) ps d deg c,
    below (tt_rerun show n order wd s ps d deg c) (tt_rerun show k order wd s ps d deg c).
  Proof. intros. unfold tt_rerun. steps. Qed.
  Hint Resolve e_rerun : fuel.
  Lemma e_times : forall order wd (t : tmodel T) d deg ps c,
    below (get_travel_times show n order wd t d deg ps c) (get_travel_times show k order wd t d deg ps c).
  Proof. intros. unfold get_travel_times, tt_run. steps. Qed.
  Lemma e_createT : forall c vm, below (createTauModel n c vm) (createTauModel k c vm).
  Proof. intros. unfold createTauModel. steps. Qed.
  Hint Resolve e_createT : fuel.
  Lemma e_run : forall c vm (d : disk T), below (create_run n c vm d) (create_run k c vm d).
  Proof. intros. unfold create_run. steps. Qed.
  Hint Resolve e_run : fuel.
  Lemma e_build : forall pf dir ver l (d : disk T), below (build_models pf n dir ver l d) (build_models pf k dir ver l d).
  Proof. intros. unfold build_models. steps. Qed.
  (** where [same_sMod] would differ, the split itself had too few steps *)
  Lemma e_same : forall wd (t : tmodel T) d, splitBranch n wd t d = Diverge \/ same_sMod n t d = same_sMod k t d.
  Proof.
    intros wd t d. unfold splitBranch, same_sMod. destruct (existsb _ _); [right; reflexivity|].
    destruct (e_split (tm_sMod t) d false) as [E|E]; rewrite E; [left; reflexivity|].
    destruct (splitLayer n (tm_sMod t) d false) as [[mS iS]|e|]; [|right; reflexivity|right; reflexivity]. cbn [bind].
    destruct (insert_rp iS _ _) as [r1 i1].
    destruct (e_split (si_sMod iS) d true) as [E2|E2]; rewrite E2; [left; reflexivity|right; reflexivity].
  Qed.
  Lemma e_splitall : forall adds wd orig shared (t : tmodel T),
    below (split_all n wd orig shared t adds) (split_all k wd orig shared t adds).
  Proof.
    induction adds as [|a adds IH]; intros wd orig shared t; cbn [split_all]; [right; reflexivity|]. cbv zeta.
    destruct (e_same wd t a) as [E|E]; [rewrite E; left; reflexivity|]. rewrite E.
    apply below_bind; [apply e_splitB|]. intros [[w' self] t']. apply IH.
  Qed.
  Hint Resolve e_splitall : fuel.
  Lemma e_pp : forall wd (s : ttime T) adds d, below (pp_depthCorrect show n wd s adds d) (pp_depthCorrect show k wd s adds d).
  Proof. intros. unfold pp_depthCorrect. steps. Qed.
  Hint Resolve e_pp : fuel.
  Lemma e_vrun : forall (cn ck : phase T -> T -> result (list (arrival T))), (forall ph d, below (cn ph d) (ck ph d)) ->
    forall order wd s adds ps d deg c,
    below (view_run show cn n order wd s adds ps d deg c) (view_run show ck k order wd s adds ps d deg c).
  Proof. intros cn ck H. intros. unfold view_run, view_calculate, view_calc. steps. Qed.
End End.

(** Proofs about the branch sequences of standard phases. *)
From Coq Require Import ZArith Bool List String Ascii Lia.
From Verif Require Import Base Num PyStr VelocityModel SlownessLayer SlownessModel TauModel Legs SeismicPhase
  NameSpec NameProofs RouteSpec.
Import ListNotations.
Local Open Scope string_scope.
Local Open Scope list_scope.

Lemma zrange_branches : forall a b, (0 <= a)%Z -> zrange a b = branches a b.
Proof.
  intros a b Ha. unfold zrange, branches.
  replace (Z.to_nat b - Z.to_nat a)%nat with (Z.to_nat (b - a)) by lia.
  assert (E : forall k s, (Z.of_nat s = a + Z.of_nat 0)%Z \/ True ->
     map (fun k => (a + Z.of_nat k)%Z) (seq s k) = map Z.of_nat (seq (Z.to_nat a + s) k)).
  { intros k s _. revert s. induction k as [|k IH]; intros s; [reflexivity|]. cbn [seq map]. f_equal; [lia|].
    rewrite IH. f_equal. f_equal. lia. }
  rewrite (E _ 0%nat (or_intror I)). f_equal. f_equal. lia.
Qed.
Lemma down_snoc : forall n a, (0 <= a)%Z -> zrange_down (a + Z.of_nat n - 1) (a - 1) = rev (zrange a (a + Z.of_nat n)).
Proof.
  induction n as [|n IH]; intros a Ha.
  - rewrite zrange_down_nil, zrange_nil by lia. reflexivity.
  - replace (a + Z.of_nat (S n))%Z with ((a + Z.of_nat n) + 1)%Z by lia.
    rewrite zrange_snoc by lia. rewrite rev_app_distr. cbn [rev app].
    rewrite zrange_down_cons by lia.
    replace (a + Z.of_nat n + 1 - 1)%Z with (a + Z.of_nat n)%Z by lia. f_equal. apply IH. assumption.
Qed.
Lemma zrange_down_branches : forall a b, (0 <= a <= b)%Z -> zrange_down (b - 1) (a - 1) = rev (branches a b).
Proof.
  intros a b H. rewrite <- zrange_branches by lia.
  replace b with (a + Z.of_nat (Z.to_nat (b - a)))%Z by lia. apply down_snoc. lia.
Qed.

Section Parse.
  Context {T : Type} {N : Num T}.
  Variable w : list T.
  Variable t : tmodel T.
  Let sb := tm_sourceBranch t.
  Let moho := tm_mohoBranch t.
  Let cmb := tm_cmbBranch t.
  Let iocb := tm_iocbBranch t.
  Let n := Z.of_nat (List.length (tm_P t)).
  Hypothesis Hsb : (0 <= sb < cmb)%Z.
  Hypothesis Hmoho : (0 <= moho < cmb)%Z.
  Hypothesis Hiocb : (cmb < iocb < n)%Z.
  Hypothesis HS : List.length (tm_S t) = List.length (tm_P t).

  Definition view (s : seg) : crossing := (sg_branch s, sg_down s, sg_isP s).
  Definition inside (l : list seg) : Prop := forall s, In s l -> (0 <= sg_branch s < n)%Z.

  Lemma branch_ok : forall i p, (- n <= i < n)%Z -> exists b, getTauBranch t i p = Ok b.
  Proof.
    intros i p H. unfold getTauBranch, py_index. cbv zeta.
    assert (El : Z.of_nat (List.length (if p then tm_P t else tm_S t)) = n) by (destruct p; unfold n; lia).
    rewrite El. set (j := if (i <? 0)%Z then (i + n)%Z else i).
    assert (Hj : (0 <= j < n)%Z) by (unfold j; destruct (Z.ltb_spec i 0); lia).
    destruct (Z.ltb_spec j 0); [lia|]. destruct (nth_error _ _) eqn:En; [eauto|].
    apply nth_error_None in En. lia.
  Qed.

  (** where the ray stands: next branch, last action, legs so far *)
  Definition at_ (s : pstate T) (c : Z) (a : action) (l : list crossing) : Prop :=
    ps_curr s = c /\ ps_end s = a /\ map view (ps_seq s) = l /\ inside (ps_seq s) /\
    (a = TRANSDOWN -> forall l x, ps_seq s = l ++ [x] -> (sg_branch x < n - 1)%Z).

  Lemma inside_app : forall l l', inside l -> inside l' -> inside (l ++ l').
  Proof. intros l l' H H' s Hs. apply in_app_or in Hs. destruct Hs; auto. Qed.
  Lemma in_branches : forall a b i, In i (branches a b) -> (0 <= i)%Z /\ (i < b)%Z.
  Proof.
    intros a b i H. unfold branches in H. apply in_map_iff in H. destruct H as [k [<- Hk]].
    apply in_seq in Hk. lia.
  Qed.

  Lemma add_down : forall s e p a c l off, at_ s c a l -> (0 <= c <= e)%Z -> (0 <= e < n)%Z -> forall act,
    (act = TURN /\ off = 0%Z) \/ (act = REFLECTBOT /\ off = 0%Z) \/ (act = TRANSDOWN /\ off = 1%Z /\ (e < n - 1)%Z) ->
    exists s', addToBranch t s e p act = Ok s' /\ at_ s' (e + off) act (l ++ down p c (e + 1)).
  Proof.
    intros s e p a c l off [E1 [E2 [E3 [E4 E5]]]] Hc He act Hact. unfold addToBranch.
    destruct (branch_ok e p) as [b Hb]; [lia|]. rewrite Hb. cbn [bind].
    assert (In' : inside (map (fun i => mkSeg i true p act) (zrange c (e + 1)))).
    { intros x Hx. apply in_map_iff in Hx. destruct Hx as [i [<- Hi]]. cbn [sg_branch].
      rewrite zrange_branches in Hi by lia. apply in_branches in Hi. lia. }
    assert (V : map view (map (fun i => mkSeg i true p act) (zrange c (e + 1))) = down p c (e + 1)).
    { rewrite map_map. unfold view, down. cbn [sg_branch sg_down sg_isP]. rewrite zrange_branches by lia. reflexivity. }
    assert (La : forall l0 x, ps_seq s ++ map (fun i => mkSeg i true p act) (zrange c (e + 1)) = l0 ++ [x] -> sg_branch x = e).
    { intros l0 x E. rewrite zrange_snoc in E by lia. rewrite map_app, app_assoc in E. cbn [map] in E.
      apply app_inj_tail in E. destruct E as [_ <-]. reflexivity. }
    destruct Hact as [[-> ->]|[[-> ->]|[-> [-> Hl]]]];
      (eexists; split; [reflexivity|]; unfold at_; cbn [ps_curr ps_end ps_seq]; rewrite E1;
       split; [reflexivity|]; split; [reflexivity|]; split;
       [rewrite map_app, E3, V; reflexivity|split; [apply inside_app; [exact E4|apply In']|]]);
       [discriminate|discriminate|].
    intros _ l0 x E. apply La in E. lia.
  Qed.
  Lemma add_up : forall s e p a c l off, at_ s c a l -> (0 <= e <= c + 1)%Z -> (0 <= e < n)%Z -> (c < n)%Z -> forall act,
    (act = REFLECTTOP /\ off = 0%Z) \/ (act = TRANSUP /\ off = (-1)%Z) ->
    exists s', addToBranch t s e p act = Ok s' /\ at_ s' (e + off) act (l ++ up p e (c + 1)).
  Proof.
    intros s e p a c l off [E1 [E2 [E3 [E4 E5]]]] Hc He Hn act Hact. unfold addToBranch.
    destruct (branch_ok e p) as [b Hb]; [lia|]. rewrite Hb. cbn [bind].
    assert (Z : zrange_down c (e - 1) = rev (branches e (c + 1))).
    { rewrite <- zrange_down_branches by lia. f_equal. lia. }
    assert (In' : inside (map (fun i => mkSeg i false p act) (zrange_down c (e - 1)))).
    { intros x Hx. apply in_map_iff in Hx. destruct Hx as [i [<- Hi]]. cbn [sg_branch].
      rewrite Z in Hi. apply in_rev in Hi. apply in_branches in Hi. lia. }
    assert (V : map view (map (fun i => mkSeg i false p act) (zrange_down c (e - 1))) = up p e (c + 1)).
    { rewrite map_map. unfold view, up. cbn [sg_branch sg_down sg_isP]. rewrite Z. reflexivity. }
    destruct Hact as [[-> ->]|[-> ->]];
      (eexists; split; [reflexivity|]; unfold at_; cbn [ps_curr ps_end ps_seq]; rewrite E1;
       split; [reflexivity|]; split; [reflexivity|]; split;
       [rewrite map_app, E3, V; reflexivity|split; [apply inside_app; [exact E4|apply In']|discriminate]]).
  Qed.

  (** the check for a conversion before a leg *)
  Definition convert (s : pstate T) (pp p : bool) : result (pstate T) :=
    match rev (ps_seq s) with
    | last :: _ => if negb (Bool.eqb pp p) then phaseConversion t s (sg_branch last) pp else Ok s
    | [] => Ok s
    end.
  Lemma convert_ok : forall s pp p c a l, at_ s c a l -> a <> TURN ->
    exists s', convert s pp p = Ok s' /\ at_ s' c a l.
  Proof.
    intros s pp p c a l Hat Ht. unfold convert. pose proof Hat as [E1 [E2 [E3 [E4 E5]]]].
    destruct (rev (ps_seq s)) as [|x r] eqn:Er; [eauto|].
    assert (Es : ps_seq s = rev r ++ [x]).
    { rewrite <- (rev_involutive (ps_seq s)), Er. reflexivity. }
    destruct (negb (Bool.eqb pp p)); [|eauto].
    assert (Hx : (0 <= sg_branch x < n)%Z) by (apply E4; rewrite Es; apply in_or_app; right; left; reflexivity).
    unfold phaseConversion. cbv zeta. rewrite E2.
    assert (K : forall mx mn, at_ (mkPS mx mn (ps_curr s) a (ps_seq s)) c a l).
    { intros mx mn. unfold at_. cbn [ps_curr ps_end ps_seq]. auto. }
    destruct a; try congruence;
      (destruct (branch_ok (sg_branch x) pp) as [b1 H1]; [lia|]; rewrite H1; cbn [bind]).
    - destruct (branch_ok (sg_branch x) (negb pp)) as [b2 H2]; [lia|]. rewrite H2. cbn [bind]. eauto.
    - destruct (branch_ok (sg_branch x) (negb pp)) as [b2 H2]; [lia|]. rewrite H2. cbn [bind]. eauto.
    - destruct (branch_ok (sg_branch x - 1) (negb pp)) as [b2 H2]; [lia|]. rewrite H2. cbn [bind]. eauto.
    - specialize (E5 eq_refl _ _ Es).
      destruct (branch_ok (sg_branch x + 1) (negb pp)) as [b2 H2]; [lia|]. rewrite H2. cbn [bind]. eauto.
  Qed.

  (** tests on concrete strings *)
  Ltac tests :=
    repeat (match goal with
    | |- context [seq_ ?a ?b] => let v := eval vm_compute in (seq_ a b) in
        match v with true => change (seq_ a b) with true | false => change (seq_ a b) with false end
    | |- context [sw ?a ?b] => let v := eval vm_compute in (sw a b) in
        match v with true => change (sw a b) with true | false => change (sw a b) with false end
    | |- context [one_of ?a ?b] => let v := eval vm_compute in (one_of a b) in
        match v with true => change (one_of a b) with true | false => change (one_of a b) with false end
    | |- context [leg_float ?a] => change (leg_float (T := T) a) with (@None T)
    end); cbn [orb andb negb act_eqb].
  (** one leg moves the ray to [c], with the last action [a] and the legs [l] *)
  Definition leg_to (x : result legres) (c : Z) (a : action) (l : list crossing) : Prop :=
    exists s', x = Ok (Next s') /\ at_ s' c a l.
  (** the label of leg [c] after a leg with label [pp] *)
  Definition leg_ (s : pstate T) (pp ld : bool) (prev c nxt : string) (rest : list string) : result legres :=
    parse_leg w t s pp (leg_wave pp c) ld prev c nxt rest.

  Ltac conv A :=
    unfold leg_to, leg_, parse_leg; cbv zeta; unfold leg_wave; tests;
    match goal with |- context [match rev (ps_seq ?s) with _ => _ end] =>
      match goal with |- context [negb (Bool.eqb ?pp ?p)] =>
        change (match rev (ps_seq s) with [] => Ok s
                | last :: _ => if negb (Bool.eqb pp p) then phaseConversion t s (sg_branch last) pp else Ok s end)
          with (convert s pp p);
        let s1 := fresh "s" in let C := fresh "C" in let A1 := fresh "A" in
        destruct (convert_ok s pp p _ _ _ A ltac:(first [assumption|discriminate])) as [s1 [C A1]];
        rewrite C; cbn [bind]; clear C
      end
    end.
  Ltac add1 s e p act A :=
    let s1 := fresh "s" in let C := fresh "C" in let A1 := fresh "A" in
    lazymatch act with
    | TURN => destruct (add_down s e p _ _ _ 0%Z A ltac:(lia) ltac:(lia) TURN ltac:(tauto)) as [s1 [C A1]]
    | REFLECTBOT => destruct (add_down s e p _ _ _ 0%Z A ltac:(lia) ltac:(lia) REFLECTBOT ltac:(tauto)) as [s1 [C A1]]
    | TRANSDOWN => destruct (add_down s e p _ _ _ 1%Z A ltac:(lia) ltac:(lia) TRANSDOWN
                               ltac:(right; right; split; [reflexivity|]; split; [reflexivity|lia])) as [s1 [C A1]]
    | REFLECTTOP => destruct (add_up s e p _ _ _ 0%Z A ltac:(lia) ltac:(lia) ltac:(lia) REFLECTTOP ltac:(tauto)) as [s1 [C A1]]
    | TRANSUP => destruct (add_up s e p _ _ _ (-1)%Z A ltac:(lia) ltac:(lia) ltac:(lia) TRANSUP ltac:(tauto)) as [s1 [C A1]]
    end; rewrite C; cbn [bind]; clear C.
  Ltac add :=
    fold n iocb cmb moho; unfold next;
    match goal with |- context [addToBranch t ?s ?e ?p ?act] =>
      match goal with A : at_ s _ _ _ |- _ => add1 s e p act A end
    end.
  Lemma at_eq : forall s c a l c' l', at_ s c a l -> c = c' -> l = l' -> at_ s c' a l'.
  Proof. intros s c a l c' l' H -> ->. exact H. Qed.
  Ltac same_path :=
    rewrite <- ?app_assoc; repeat (f_equal; try lia).
  Ltac fin := eexists; split; [reflexivity|]; eapply at_eq; [eassumption|lia|same_path].

  Lemma leg_inner : forall x v nxt s pp ld prev rest a l, inner_leg x v -> at_ s iocb a l -> a <> TURN ->
    (nxt = "I" \/ nxt = "J" ->
     leg_to (leg_ s pp ld prev x nxt rest) iocb REFLECTTOP (l ++ down v iocb n ++ up v iocb n)) /\
    (nxt = "K" ->
     leg_to (leg_ s pp ld prev x nxt rest) (iocb - 1) TRANSUP (l ++ down v iocb n ++ up v iocb n)).
  Proof.
    intros x v nxt s pp ld prev rest a l Hx A Ha. split; intros Hn.
    - destruct Hx; destruct Hn as [-> | ->]; conv A; unfold leg_IJ; add; tests; add; fin.
    - destruct Hx; subst nxt; conv A; unfold leg_IJ; add; tests; add; fin.
  Qed.
  (** K, coming down from the mantle or reflected from beneath *)
  Lemma leg_K_down : forall nxt s v ld prev rest a l, at_ s cmb a l -> a <> TURN ->
    prev = "P" \/ prev = "S" \/ prev = "K" ->
    (nxt = "P" \/ nxt = "S" ->
     leg_to (leg_ s v ld prev "K" nxt rest) (cmb - 1) TRANSUP (l ++ down v cmb iocb ++ up v cmb iocb)) /\
    (nxt = "K" ->
     leg_to (leg_ s v ld prev "K" nxt rest) cmb REFLECTTOP (l ++ down v cmb iocb ++ up v cmb iocb)) /\
    (nxt = "I" \/ nxt = "J" -> leg_to (leg_ s v ld prev "K" nxt rest) iocb TRANSDOWN (l ++ down v cmb iocb)) /\
    (nxt = "i" -> leg_to (leg_ s v ld prev "K" nxt rest) (iocb - 1) REFLECTBOT (l ++ down v cmb iocb)).
  Proof.
    intros nxt s v ld prev rest a l A Ha Hp. split; [|split; [|split]]; intros Hn.
    - destruct Hn as [-> | ->]; destruct Hp as [-> |[-> | ->]]; conv A; unfold leg_K; cbv zeta; tests; add; add; fin.
    - subst nxt; destruct Hp as [-> |[-> | ->]]; conv A; unfold leg_K; cbv zeta; tests; add; add; fin.
    - destruct Hn as [-> | ->]; conv A; unfold leg_K; cbv zeta; tests; add; fin.
    - subst nxt; conv A; unfold leg_K; cbv zeta; tests; add; fin.
  Qed.
  (** K, coming up from the inner core *)
  Lemma leg_K_up : forall nxt s v ld prev rest a l, at_ s (iocb - 1) a l -> a <> TURN ->
    prev = "I" \/ prev = "J" \/ prev = "i" ->
    (nxt = "P" \/ nxt = "S" ->
     leg_to (leg_ s v ld prev "K" nxt rest) (cmb - 1) TRANSUP (l ++ up v cmb iocb)) /\
    (nxt = "K" ->
     leg_to (leg_ s v ld prev "K" nxt rest) cmb REFLECTTOP (l ++ up v cmb iocb)).
  Proof.
    intros nxt s v ld prev rest a l A Ha Hp. split; intros Hn.
    - destruct Hn as [-> | ->]; destruct Hp as [-> |[-> | ->]]; conv A; unfold leg_K; cbv zeta; tests; cbn [bind]; add; fin.
    - subst nxt; destruct Hp as [-> |[-> | ->]]; conv A; unfold leg_K; cbv zeta; tests; cbn [bind]; add; fin.
  Qed.
  (** boundaries are no legs of their own *)
  Lemma leg_boundary : forall x nxt s v ld prev rest c a l, x = "c" \/ x = "i" -> at_ s c a l -> a <> TURN ->
    leg_to (leg_ s v ld prev x nxt rest) c a l.
  Proof.
    intros x nxt s v ld prev rest c a l Hx A Ha. destruct Hx as [-> | ->]; conv A; eexists; split; eauto.
  Qed.

  Definition stops : list string := ["P"; "S"; "Pn"; "Sn"; "END"].
  Lemma leg_PS_down : forall x v nxt s pp ld prev rest c a l, mantle_leg x v -> at_ s c a l ->
    (0 <= c < cmb)%Z -> a = TRANSDOWN \/ a = REFLECTTOP ->
    (In nxt stops -> leg_to (leg_ s pp ld prev x nxt rest) 0 REFLECTTOP (l ++ down v c cmb ++ up v 0 cmb)) /\
    (nxt = "c" -> leg_to (leg_ s pp ld prev x nxt rest) (cmb - 1) REFLECTBOT (l ++ down v c cmb)) /\
    (nxt = "K" -> leg_to (leg_ s pp ld prev x nxt rest) cmb TRANSDOWN (l ++ down v c cmb)).
  Proof.
    intros x v nxt s pp ld prev rest c a l Hx A Hc Ha.
    assert (Ha' : a <> TURN) by (destruct Ha; subst; discriminate). split; [|split]; intros Hn.
    - assert (E : forall s', at_ s' c a l -> act_eqb (ps_end s') TRANSDOWN || act_eqb (ps_end s') REFLECTTOP = true).
      { intros s' [_ [-> _]]. destruct Ha; subst; reflexivity. }
      destruct Hx; cbn [stops In] in Hn; repeat destruct Hn as [<-|Hn]; try contradiction;
        conv A; unfold leg_PS; tests; rewrite (E _ A0); add; add; fin.
    - subst nxt. destruct Hx; conv A; unfold leg_PS; tests; add; fin.
    - subst nxt. destruct Hx; conv A; unfold leg_PS; tests; add; fin.
  Qed.
  Lemma leg_PS_up : forall x v nxt s pp ld prev rest a l, mantle_leg x v -> at_ s (cmb - 1) a l ->
    a = TRANSUP \/ a = REFLECTBOT -> In nxt stops ->
    leg_to (leg_ s pp ld prev x nxt rest) 0 REFLECTTOP (l ++ up v 0 cmb).
  Proof.
    intros x v nxt s pp ld prev rest a l Hx A Ha Hn.
    assert (Ha' : a <> TURN) by (destruct Ha; subst; discriminate).
    assert (E : forall s', at_ s' (cmb - 1) a l -> act_eqb (ps_end s') TRANSDOWN || act_eqb (ps_end s') REFLECTTOP = false).
    { intros s' [_ [-> _]]. destruct Ha; subst; reflexivity. }
    destruct Hx; cbn [stops In] in Hn; repeat destruct Hn as [<-|Hn]; try contradiction;
      conv A; unfold leg_PS; tests; rewrite (E _ A0); cbn [bind]; add; fin.
  Qed.
  Lemma leg_up_source : forall x v nxt s pp ld prev rest a l, up_leg x v -> at_ s (sb - 1) a l -> (0 < sb)%Z -> a <> TURN ->
    In nxt (["Pdiff"; "Sdiff"; "Pg"; "Sg"] ++ stops) ->
    leg_to (leg_ s pp ld prev x nxt rest) 0 REFLECTTOP (l ++ up v 0 sb).
  Proof.
    intros x v nxt s pp ld prev rest a l Hx A H0 Ha Hn.
    destruct Hx; cbn [stops In app] in Hn; repeat destruct Hn as [<-|Hn]; try contradiction;
      conv A; unfold leg_up; tests; add; fin.
  Qed.
  Lemma branches_snoc : forall a b, (0 <= a <= b)%Z -> branches a (b + 1) = branches a b ++ [b].
  Proof. intros a b H. rewrite <- !zrange_branches by lia. apply zrange_snoc. lia. Qed.
  Lemma up_split : forall v b, (0 <= b)%Z -> up v b (b + 1) ++ up v 0 b = up v 0 (b + 1).
  Proof.
    intros v b Hb. unfold up. rewrite (branches_snoc 0 b), (branches_snoc b b) by lia.
    replace (branches b b) with (@nil Z) by (rewrite <- zrange_branches, zrange_nil by lia; reflexivity).
    rewrite !rev_app_distr. reflexivity.
  Qed.

  (** there is no such ray *)
  Definition no_ray (x : result legres) : Prop := exists s', x = Ok (Return s') /\ ps_max s' = n_lit (-1) 0.
  Lemma at_limits : forall s c a l mx mn, at_ s c a l -> at_ (mkPS mx mn (ps_curr s) (ps_end s) (ps_seq s)) c a l.
  Proof. intros s c a l mx mn H. exact H. Qed.

  Definition all_stops : list string := ["Pdiff"; "Sdiff"; "Pg"; "Sg"] ++ stops.
  Lemma leg_special : forall x v nxt s pp ld prev rest c a l, mantle_leg x v -> at_ s c a l ->
    (0 <= c < cmb)%Z -> a = TRANSDOWN \/ a = REFLECTTOP -> In nxt all_stops ->
    (leg_to (leg_ s pp ld prev (x ++ "diff")%string nxt rest) 0 REFLECTTOP (l ++ down v c cmb ++ up v 0 cmb) \/
     no_ray (leg_ s pp ld prev (x ++ "diff")%string nxt rest)) /\
    (leg_to (leg_ s pp ld prev (x ++ "g")%string nxt rest) 0 REFLECTTOP (l ++ down v c moho ++ up v 0 moho) \/
     no_ray (leg_ s pp ld prev (x ++ "g")%string nxt rest)) /\
    (leg_to (leg_ s pp ld prev (x ++ "n")%string nxt rest) 0 REFLECTTOP (l ++ down v c (moho + 1) ++ up v 0 (moho + 1)) \/
     no_ray (leg_ s pp ld prev (x ++ "n")%string nxt rest)).
  Proof.
    intros x v nxt s pp ld prev rest c a l Hx A Hc Ha Hn.
    assert (Ha' : a <> TURN) by (destruct Ha; subst; discriminate).
    assert (En : (seq_ nxt "END" || sw nxt "P" || sw nxt "S") = true).
    { cbn [all_stops stops In app] in Hn; repeat destruct Hn as [<-|Hn]; try contradiction; reflexivity. }
    assert (Ef : leg_float (T := T) nxt = None).
    { cbn [all_stops stops In app] in Hn; repeat destruct Hn as [<-|Hn]; try contradiction; reflexivity. }
    split; [|split].
    - destruct Hx; cbn [append]; unfold no_ray; conv A; unfold leg_long; cbv zeta; rewrite En; tests;
        fold n iocb cmb moho;
        (match goal with |- context [getTauBranch t ?i ?p] => destruct (branch_ok i p) as [b Hb]; [lia|]; rewrite Hb; cbn [bind] end);
        (match goal with |- context [if ?c then _ else _] => destruct c end; [left|right; eexists; split; reflexivity]);
        add; pose proof (at_limits _ _ _ _ (ps_min s1) (ps_min s1) A1) as A2; add; fin.
    - destruct Hx; cbn [append]; unfold no_ray; conv A; unfold leg_long; cbv zeta; rewrite En; tests;
        fold n iocb cmb moho;
        (destruct (Z.leb_spec moho (ps_curr s0)); [right; eexists; split; reflexivity|left]);
        (assert (Ec : ps_curr s0 = c) by apply A0); rewrite Ec in *;
        add; add; fin.
    - destruct Hx; cbn [append]; unfold no_ray; conv A; unfold leg_long; cbv zeta; rewrite En; tests;
        fold n iocb cmb moho;
        (destruct (Z.leb_spec moho (ps_curr s0)); [right; eexists; split; reflexivity|]);
        (assert (Ec : ps_curr s0 = c) by apply A0); rewrite Ec in *;
        (match goal with |- context [getTauBranch t ?i ?p] => destruct (branch_ok i p) as [b Hb]; [lia|]; rewrite Hb; cbn [bind] end);
        (match goal with |- context [if ?c then _ else _] => destruct c end; [left|right; eexists; split; reflexivity]);
        add; add; pose proof (at_limits _ _ _ _ (ps_max s2) (ps_max s2) A2) as A3; add;
        (eexists; split; [reflexivity|]; eapply at_eq; [eassumption|lia|]);
        rewrite <- ?app_assoc; rewrite <- (up_split _ moho) by lia; same_path.
  Qed.
  (** the loop goes on with leg [curr] of label [v], after [prev], from a given place *)
  Definition runs (x : result (pstate T)) (rest : list string) (prev curr : string) (v : bool)
             (c : Z) (a : action) (l : list crossing) : Prop :=
    exists ld s', x = parse_go w t rest prev curr v ld s' /\ at_ s' c a l.
  Lemma run_leg : forall s pp ld prev curr nxt rest c a l,
    leg_to (leg_ s pp ld prev curr nxt rest) c a l ->
    runs (parse_go w t (nxt :: rest) prev curr pp ld s) rest curr nxt (leg_wave pp curr) c a l.
  Proof.
    intros s pp ld prev curr nxt rest c a l [s' [E A]]. unfold leg_ in E. cbn [parse_go]. rewrite E. cbn [bind].
    eexists _, s'. split; [reflexivity|exact A].
  Qed.

  Lemma inner_run : forall legs v' path, inner_core iocb n legs v' path -> forall s a l prev pp ld rest,
    at_ s iocb a l -> a <> TURN ->
    exists x r lst, legs = x :: r /\ (x = "I" \/ x = "J") /\ (lst = "I" \/ lst = "J") /\
      runs (parse_go w t (r ++ "K" :: rest) prev x pp ld s) rest lst "K" v' (iocb - 1) TRANSUP (l ++ path).
  Proof.
    induction 1 as [x v Hx|x v r v' path Hx Hl IH]; intros s a l prev pp ld rest A Ha.
    - exists x, [], x. split; [reflexivity|]. split; [destruct Hx; auto|]. split; [destruct Hx; auto|]. cbn [app].
      replace v with (leg_wave pp x) at 1 by (destruct Hx; reflexivity).
      apply run_leg. apply (leg_inner x v "K" s pp ld prev rest a l Hx A Ha). reflexivity.
    - destruct (IH s a l "" true true rest A Ha) as [y [r' [lst [-> [Hy [_ _]]]]]].
      destruct (leg_inner x v y s pp ld prev (r' ++ "K" :: rest) a l Hx A Ha) as [Hr _].
      specialize (Hr Hy). destruct (run_leg _ _ _ _ _ _ _ _ _ _ Hr) as [ld' [s' [E A']]].
      destruct (IH s' _ _ x (leg_wave pp x) ld' rest A' ltac:(discriminate)) as [y' [r'' [lst' [E' [_ [Hlst R]]]]]].
      injection E' as <- <-. exists x, (y :: r'), lst'. split; [reflexivity|].
      split; [destruct Hx; auto|]. split; [assumption|]. cbn [app]. rewrite E.
      rewrite <- !app_assoc in R. exact R.
  Qed.

  Lemma bounce_run : forall v legs v' path, bounce cmb iocb n v legs v' path -> forall s a l prev ld nxt rest,
    at_ s cmb a l -> a <> TURN -> prev = "P" \/ prev = "S" \/ prev = "K" -> nxt = "P" \/ nxt = "S" \/ nxt = "K" ->
    exists r, legs = "K" :: r /\
      runs (parse_go w t (r ++ nxt :: rest) prev "K" v ld s) rest "K" nxt v'
           (if seq_ nxt "K" then cmb else cmb - 1) (if seq_ nxt "K" then REFLECTTOP else TRANSUP) (l ++ path).
  Proof.
    destruct 1 as [| |r v' path Hi]; intros s a l prev ld nxt rest A Ha Hp Hn.
    - exists []. split; [reflexivity|]. cbn [app]. change v with (leg_wave v "K") at 2. apply run_leg.
      destruct (leg_K_down nxt s v ld prev rest a l A Ha Hp) as [H1 [H2 _]].
      destruct Hn as [-> |[-> | ->]]; cbn [seq_ String.eqb Ascii.eqb Bool.eqb]; [apply H1; auto|apply H1; auto|apply H2; auto].
    - exists ["i"; "K"]. split; [reflexivity|]. cbn [app].
      destruct (leg_K_down "i" s v ld prev ("K" :: nxt :: rest) a l A Ha Hp) as [_ [_ [_ H]]].
      destruct (run_leg _ _ _ _ _ _ _ _ _ _ (H eq_refl)) as [ld1 [s1 [E1 A1]]]. rewrite E1.
      pose proof (leg_boundary "i" "K" s1 (leg_wave v "K") ld1 "K" (nxt :: rest) _ _ _ (or_intror eq_refl) A1 ltac:(discriminate)) as H2.
      destruct (run_leg _ _ _ _ _ _ _ _ _ _ H2) as [ld2 [s2 [E2 A2]]]. rewrite E2.
      change (leg_wave (leg_wave v "K") "i") with v.
      change v with (leg_wave v "K") at 2. rewrite app_assoc. apply run_leg.
      destruct (leg_K_up nxt s2 v ld2 "i" rest _ _ A2 ltac:(discriminate) ltac:(auto)) as [H3 H4].
      destruct Hn as [-> |[-> | ->]]; cbn [seq_ String.eqb Ascii.eqb Bool.eqb]; [apply H3; auto|apply H3; auto|apply H4; auto].
    - exists (r ++ ["K"]). split; [reflexivity|]. rewrite <- app_assoc. cbn [app].
      assert (Ex : exists x r', r = x :: r' /\ (x = "I" \/ x = "J")).
      { destruct Hi as [x u Hx|x u r' ? ? Hx _]; exists x; eexists; (split; [reflexivity|destruct Hx; auto]). }
      destruct Ex as [x [r' [-> Hx]]]. cbn [app].
      destruct (leg_K_down x s v ld prev (r' ++ "K" :: nxt :: rest) a l A Ha Hp) as [_ [_ [H _]]].
      destruct (run_leg _ _ _ _ _ _ _ _ _ _ (H Hx)) as [ld1 [s1 [E1 A1]]]. rewrite E1.
      destruct (inner_run _ _ _ Hi s1 _ _ "K" (leg_wave v "K") ld1 (nxt :: rest) A1 ltac:(discriminate))
        as [x' [r'' [lst [E' [_ [Hlst [ld2 [s2 [E2 A2]]]]]]]]].
      injection E' as <- <-. rewrite E2.
      replace (l ++ down v cmb iocb ++ path ++ up v' cmb iocb) with
        (((l ++ down v cmb iocb) ++ path) ++ up v' cmb iocb) by (rewrite <- !app_assoc; reflexivity).
      change v' with (leg_wave v' "K") at 2. apply run_leg.
      destruct (leg_K_up nxt s2 v' ld2 lst rest _ _ A2 ltac:(discriminate) ltac:(tauto)) as [H3 H4].
      destruct Hn as [-> |[-> | ->]]; cbn [seq_ String.eqb Ascii.eqb Bool.eqb]; [apply H3; auto|apply H3; auto|apply H4; auto].
  Qed.

  Lemma core_run : forall v legs v' path, core cmb iocb n v legs v' path -> forall s a l prev ld nxt rest,
    at_ s cmb a l -> a <> TURN -> prev = "P" \/ prev = "S" \/ prev = "K" -> nxt = "P" \/ nxt = "S" ->
    exists r, legs = "K" :: r /\
      runs (parse_go w t (r ++ nxt :: rest) prev "K" v ld s) rest "K" nxt v' (cmb - 1) TRANSUP (l ++ path).
  Proof.
    induction 1 as [v legs v' path Hb|v legs v1 path legs' v2 path' Hb Hc IH];
      intros s a l prev ld nxt rest A Ha Hp Hn.
    - destruct (bounce_run _ _ _ _ Hb s a l prev ld nxt rest A Ha Hp ltac:(tauto)) as [r [-> R]].
      exists r. split; [reflexivity|]. destruct Hn as [-> | ->]; exact R.
    - destruct (IH s a l "K" ld nxt rest A Ha ltac:(auto) Hn) as [r' [-> _]].
      destruct (bounce_run _ _ _ _ Hb s a l prev ld "K" (r' ++ nxt :: rest) A Ha Hp ltac:(tauto)) as [r [-> R]].
      destruct R as [ld1 [s1 [E1 A1]]]. cbn [seq_ String.eqb Ascii.eqb Bool.eqb] in A1.
      exists (r ++ "K" :: r'). split; [reflexivity|]. rewrite <- app_assoc. cbn [app]. rewrite E1.
      destruct (IH s1 _ _ "K" ld1 nxt rest A1 ltac:(discriminate) ltac:(auto) Hn) as [r2 [E2 R2]].
      injection E2 as <-. rewrite <- !app_assoc in R2. exact R2.
  Qed.

  (** either the loop goes on, or it has ended without a ray *)
  Definition goes (x : result (pstate T)) (rest : list string) (nxt : string) (l : list crossing) : Prop :=
    exists prev v, runs x rest prev nxt v 0 REFLECTTOP l.
  Definition ended (x : result (pstate T)) : Prop := exists s', x = Ok s' /\ ps_max s' = n_lit (-1) 0.
  Lemma run_none : forall s pp ld prev curr nxt rest, no_ray (leg_ s pp ld prev curr nxt rest) ->
    ended (parse_go w t (nxt :: rest) prev curr pp ld s).
  Proof.
    intros s pp ld prev curr nxt rest [s' [E A]]. unfold leg_ in E. cbn [parse_go]. rewrite E. cbn [bind].
    exists s'. auto.
  Qed.

  Definition has_boundary (legs : list string) : Prop := exists x, In x legs /\ In x boundary_legs.

  Lemma ray_run : forall start legs path, ray moho cmb iocb n start legs path -> forall s a l prev pp ld nxt rest,
    at_ s start a l -> (0 <= start < cmb)%Z -> a = TRANSDOWN \/ a = REFLECTTOP -> In nxt stops ->
    exists x r, legs = x :: r /\ In x ["P"; "S"; "Pn"; "Sn"] /\
      (goes (parse_go w t (r ++ nxt :: rest) prev x pp ld s) rest nxt (l ++ path) \/
       (ended (parse_go w t (r ++ nxt :: rest) prev x pp ld s) /\ has_boundary legs)).
  Proof.
    intros start legs path H s a l prev pp ld nxt rest A Hs Ha Hn.
    destruct H as [x v Hx|x v y u Hx Hy|x v r v' path y u Hx Hc Hy|x v Hx].
    - exists x, []. split; [reflexivity|]. split; [destruct Hx; cbn; auto|]. left. cbn [app].
      exists x, (leg_wave pp x). apply run_leg.
      apply (leg_PS_down x v nxt s pp ld prev rest start a l Hx A Hs Ha). exact Hn.
    - exists x, ["c"; y]. split; [reflexivity|]. split; [destruct Hx; cbn; auto|]. left. cbn [app].
      destruct (leg_PS_down x v "c" s pp ld prev (y :: nxt :: rest) start a l Hx A Hs Ha) as [_ [H _]].
      destruct (run_leg _ _ _ _ _ _ _ _ _ _ (H eq_refl)) as [ld1 [s1 [E1 A1]]]. rewrite E1.
      pose proof (leg_boundary "c" y s1 (leg_wave pp x) ld1 x (nxt :: rest) _ _ _ (or_introl eq_refl) A1 ltac:(discriminate)) as H2.
      destruct (run_leg _ _ _ _ _ _ _ _ _ _ H2) as [ld2 [s2 [E2 A2]]]. rewrite E2.
      eexists _, _. rewrite app_assoc. apply run_leg.
      apply (leg_PS_up y u nxt s2 _ ld2 "c" rest _ _ Hy A2); auto.
    - destruct (core_run _ _ _ _ Hc (mkPS n_0 n_0 cmb REFLECTTOP []) REFLECTTOP [] "K" false "P" [])
        as [r' [-> _]]; try (discriminate || auto).
      { unfold at_. cbn [ps_curr ps_end ps_seq map]. repeat split; try discriminate; try contradiction. }
      exists x, (("K" :: r') ++ [y]). split; [reflexivity|]. split; [destruct Hx; cbn; auto|]. left.
      rewrite <- app_assoc. cbn [app].
      destruct (leg_PS_down x v "K" s pp ld prev (r' ++ y :: nxt :: rest) start a l Hx A Hs Ha) as [_ [_ H]].
      destruct (run_leg _ _ _ _ _ _ _ _ _ _ (H eq_refl)) as [ld1 [s1 [E1 A1]]]. rewrite E1.
      replace (leg_wave pp x) with v by (destruct Hx; reflexivity).
      destruct (core_run _ _ _ _ Hc s1 _ _ x ld1 y (nxt :: rest) A1) as [r2 [E2 R2]];
        [discriminate|destruct Hx; auto|destruct Hy; auto|].
      injection E2 as <-. destruct R2 as [ld2 [s2 [E2 A2]]]. rewrite E2.
      replace (l ++ down v start cmb ++ path ++ up u 0 cmb) with
        (((l ++ down v start cmb) ++ path) ++ up u 0 cmb) by (rewrite <- !app_assoc; reflexivity).
      eexists _, _. apply run_leg. apply (leg_PS_up y u nxt s2 _ ld2 "K" rest _ _ Hy A2); auto.
    - exists (x ++ "n")%string, []. split; [reflexivity|]. split; [destruct Hx; cbn; auto|]. cbn [app].
      destruct (leg_special x v nxt s pp ld prev rest start a l Hx A Hs Ha) as [_ [_ [H|H]]].
      + unfold all_stops. apply in_or_app. auto.
      + left. eexists _, _. apply run_leg. exact H.
      + right. split; [apply run_none; exact H|]. exists (x ++ "n")%string.
        split; [left; reflexivity|destruct Hx; cbn; tauto].
  Qed.
  Lemma slow_run : forall start legs path, slow_ray moho cmb start legs path -> forall s a l prev pp ld nxt rest,
    at_ s start a l -> (0 <= start < cmb)%Z -> a = TRANSDOWN \/ a = REFLECTTOP -> In nxt all_stops ->
    exists x, legs = [x] /\ In x ["Pdiff"; "Sdiff"; "Pg"; "Sg"] /\
      (goes (parse_go w t (nxt :: rest) prev x pp ld s) rest nxt (l ++ path) \/
       (ended (parse_go w t (nxt :: rest) prev x pp ld s) /\ has_boundary legs)).
  Proof.
    intros start legs path H s a l prev pp ld nxt rest A Hs Ha Hn.
    destruct H as [x v Hx|x v Hx]; eexists; (split; [reflexivity|]; split; [destruct Hx; cbn; tauto|]);
      destruct (leg_special x v nxt s pp ld prev rest start a l Hx A Hs Ha Hn) as [H1 [H2 _]].
    - destruct H1 as [H|H].
      + left. eexists _, _. apply run_leg. exact H.
      + right. split; [apply run_none; exact H|]. eexists.
        split; [left; reflexivity|destruct Hx; cbn; tauto].
    - destruct H2 as [H|H].
      + left. eexists _, _. apply run_leg. exact H.
      + right. split; [apply run_none; exact H|]. eexists.
        split; [left; reflexivity|destruct Hx; cbn; tauto].
  Qed.

  (** the result of the loop *)
  Definition result_is (x : result (pstate T)) (legs : list string) (l : list crossing) : Prop :=
    exists s', x = Ok s' /\ (map view (ps_seq s') = l \/ (ps_max s' = n_lit (-1) 0 /\ has_boundary legs)).
  Lemma run_end : forall x l legs, goes x [] "END" l -> result_is x legs l.
  Proof.
    intros x l legs [prev [v [ld [s' [E A]]]]]. exists s'. cbn [parse_go] in E. split; [exact E|]. left. apply A.
  Qed.
  Lemma boundary_app : forall l l', has_boundary l \/ has_boundary l' -> has_boundary (l ++ l').
  Proof. intros l l' [[x [H1 H2]]|[x [H1 H2]]]; exists x; (split; [apply in_or_app; auto|assumption]). Qed.

  Lemma rays_run : forall start legs path, rays moho cmb iocb n start legs path -> forall s a l prev pp ld,
    at_ s start a l -> (0 <= start < cmb)%Z -> a = TRANSDOWN \/ a = REFLECTTOP ->
    exists x r, legs = x :: r /\ In x ["P"; "S"; "Pn"; "Sn"] /\
      result_is (parse_go w t (r ++ ["END"]) prev x pp ld s) legs (l ++ path).
  Proof.
    induction 1 as [start legs path Hr|start legs path legs' path' Hr Hrs IH]; intros s a l prev pp ld A Hs Ha.
    - destruct (ray_run _ _ _ Hr s a l prev pp ld "END" [] A Hs Ha ltac:(cbn; tauto)) as [x [r [-> [Hx R]]]].
      exists x, r. split; [reflexivity|]. split; [assumption|].
      destruct R as [R|[[s' [E1 E2]] B]]; [apply run_end; exact R|]. exists s'. split; [exact E1|]. right. split; assumption.
    - assert (E0 : exists y r', legs' = y :: r' /\ In y ["P"; "S"; "Pn"; "Sn"]).
      { destruct (IH (mkPS n_0 n_0 0 REFLECTTOP []) REFLECTTOP [] "" true true) as [y [r' [E [Hy _]]]];
          [unfold at_; cbn [ps_curr ps_end ps_seq map]; repeat split; try discriminate; try contradiction|lia|auto|eauto]. }
      destruct E0 as [y [r' [-> Hy]]].
      destruct (ray_run _ _ _ Hr s a l prev pp ld y (r' ++ ["END"]) A Hs Ha) as [x [r [-> [Hx R]]]].
      { cbn [In] in Hy |- *. cbn. tauto. }
      exists x, (r ++ y :: r'). split; [reflexivity|]. split; [assumption|]. rewrite <- app_assoc. cbn [app].
      destruct R as [[p1 [v1 [ld1 [s1 [E1 A1]]]]]|[[s' [E1 E2]] B]].
      + rewrite E1. destruct (IH s1 _ _ p1 v1 ld1 A1 ltac:(lia) ltac:(auto)) as [y' [r2 [E2 [_ [s2 [E3 R]]]]]].
        injection E2 as <- <-. exists s2. split; [exact E3|]. rewrite <- app_assoc in R.
        destruct R as [R|[R B]]; [left; exact R|right; split; [exact R|apply (boundary_app (x :: r)); auto]].
      + exists s'. split; [exact E1|]. right. split; [assumption|]. apply (boundary_app (x :: r)); auto.
  Qed.
  Lemma all_run : forall start legs path, all_rays_from moho cmb iocb n start legs path -> forall s a l prev pp ld,
    at_ s start a l -> (0 <= start < cmb)%Z -> a = TRANSDOWN \/ a = REFLECTTOP ->
    exists x r, legs = x :: r /\ In x (["Pdiff"; "Sdiff"; "Pg"; "Sg"] ++ ["P"; "S"; "Pn"; "Sn"]) /\
      result_is (parse_go w t (r ++ ["END"]) prev x pp ld s) legs (l ++ path).
  Proof.
    induction 1 as [start legs path Hr|start legs path Hr|start legs path legs' path' Hr Hrs IH];
      intros s a l prev pp ld A Hs Ha.
    - destruct (rays_run _ _ _ Hr s a l prev pp ld A Hs Ha) as [x [r [E [Hx R]]]]. exists x, r.
      split; [assumption|]. split; [apply in_or_app; auto|assumption].
    - destruct (slow_run _ _ _ Hr s a l prev pp ld "END" [] A Hs Ha ltac:(cbn; tauto)) as [x [-> [Hx R]]].
      exists x, []. split; [reflexivity|]. split; [apply in_or_app; auto|].
      destruct R as [R|[[s' [E1 E2]] B]]; [apply run_end; exact R|]. exists s'. split; [exact E1|]. right. split; assumption.
    - assert (E0 : exists y r', legs' = y :: r' /\ In y (["Pdiff"; "Sdiff"; "Pg"; "Sg"] ++ ["P"; "S"; "Pn"; "Sn"])).
      { destruct (IH (mkPS n_0 n_0 0 REFLECTTOP []) REFLECTTOP [] "" true true) as [y [r' [E [Hy _]]]];
          [unfold at_; cbn [ps_curr ps_end ps_seq map]; repeat split; try discriminate; try contradiction|lia|auto|eauto]. }
      destruct E0 as [y [r' [-> Hy]]].
      destruct (slow_run _ _ _ Hr s a l prev pp ld y (r' ++ ["END"]) A Hs Ha) as [x [-> [Hx R]]].
      { cbn [In app all_stops stops] in Hy |- *. tauto. }
      exists x, (y :: r'). split; [reflexivity|]. split; [apply in_or_app; auto|]. cbn [app].
      destruct R as [[p1 [v1 [ld1 [s1 [E1 A1]]]]]|[[s' [E1 E2]] B]].
      + rewrite E1. destruct (IH s1 _ _ p1 v1 ld1 A1 ltac:(lia) ltac:(auto)) as [y' [r2 [E2 [_ [s2 [E3 R]]]]]].
        injection E2 as <- <-. exists s2. split; [exact E3|]. rewrite <- app_assoc in R.
        destruct R as [R|[R B]]; [left; exact R|right; split; [exact R|apply (boundary_app [x]); auto]].
      + exists s'. split; [exact E1|]. right. split; [assumption|]. apply (boundary_app [x]); auto.
  Qed.
  (** why there may be no ray *)
  Definition no_ray_reason (legs : list string) : Prop :=
    has_boundary legs \/
    (exists r, legs = "p" :: r \/ legs = "s" :: r) /\ sb = 0%Z \/
    (exists c x r, legs = String c x :: r /\ (c = "s" \/ c = "S")%char) /\
      n_ltb (tm_cmbDepth t) (tm_sourceDepth t) = true /\ n_ltb (tm_sourceDepth t) (tm_iocbDepth t) = true.

  Lemma start_max : forall v, exists mx,
    (if (sb =? 0)%Z then let! b := getTauBranch t sb v in Ok (tb_maxRP b)
     else let! a := getTauBranch t (sb - 1) v in let! b := getTauBranch t sb v in
          Ok (py_max (tb_minTurnRP a) (tb_maxRP b))) = Ok mx.
  Proof.
    intros v. destruct (branch_ok sb v) as [b Hb]; [lia|]. destruct (branch_ok (sb - 1) v) as [a Ha]; [lia|].
    destruct (sb =? 0)%Z; rewrite Hb; [|rewrite Ha]; cbn [bind]; eauto.
  Qed.
  Lemma at_start : forall mx mn c, at_ (mkPS mx mn c TRANSDOWN []) c TRANSDOWN [].
  Proof.
    intros mx mn c. unfold at_. cbn [ps_curr ps_end ps_seq map]. split; [reflexivity|]. split; [reflexivity|].
    split; [reflexivity|]. split; [intros x []|]. intros _ l x E. destruct l; discriminate.
  Qed.

  Ltac heads Hx := cbn [In app] in Hx; repeat destruct Hx as [<-|Hx]; try contradiction.
  Lemma parse_textbook : forall legs path, textbook sb moho cmb iocb n legs path -> forall name,
    str_in "J" name && negb (sm_allowInnerCoreS (tm_sMod t)) = false ->
    exists s, parseName w t name (legs ++ ["END"]) = Ok (Some s) /\
      (map view (ps_seq s) = path \/ (ps_max s = n_lit (-1) 0 /\ no_ray_reason legs)).
  Proof.
    intros legs path H name HJ. destruct H as [legs path Ha|x v Hx|x v legs path Hx Ha].
    - assert (E0 : exists x r, legs = x :: r /\ In x (["Pdiff"; "Sdiff"; "Pg"; "Sg"] ++ ["P"; "S"; "Pn"; "Sn"])).
      { destruct (all_run _ _ _ Ha (mkPS n_0 n_0 sb TRANSDOWN []) TRANSDOWN [] "" true true (at_start _ _ _)) as [x [r [E [Hx _]]]];
          [lia|auto|eauto]. }
      destruct E0 as [x [r [-> Hx]]].
      unfold parseName. cbn [app]. change (py_index (x :: r ++ ["END"]) 0) with (Ok x). cbn [bind List.tl].
      rewrite HJ. fold sb. destruct (start_max (first_wave x)) as [mx Emx].
      assert (Ek : str_endswith "kmps" x = false) by (heads Hx; reflexivity). rewrite Ek, andb_false_r.
      assert (Ed : sw x "P" || sw x "S" = true) by (heads Hx; reflexivity).
      destruct ((sw x "s" || sw x "S") && n_ltb (tm_cmbDepth t) (tm_sourceDepth t) && n_ltb (tm_sourceDepth t) (tm_iocbDepth t)) eqn:Ec.
      + eexists. split; [reflexivity|]. right. cbn [ps_max]. split; [reflexivity|]. right. right.
        apply andb_true_iff in Ec. destruct Ec as [Ec E2]. apply andb_true_iff in Ec. destruct Ec as [Ec E1].
        split; [|auto]. heads Hx; try discriminate; eauto 10.
      + rewrite Ed, Emx. cbn [bind].
        destruct (all_run _ _ _ Ha (mkPS mx n_0 sb TRANSDOWN []) TRANSDOWN [] "START" (first_wave x) false (at_start _ _ _))
          as [x' [r' [E [_ [s [Es R]]]]]]; [lia|auto|]. injection E as <- <-. rewrite Es. cbn [bind].
        exists s. split; [reflexivity|]. destruct R as [R|[R B]]; [left; exact R|right; split; [exact R|left; exact B]].
    - unfold parseName. cbn [app]. change (py_index [x; "END"] 0) with (Ok x). cbn [bind List.tl].
      rewrite HJ. fold sb. destruct (start_max (first_wave x)) as [mx Emx].
      assert (Ek : str_endswith "kmps" x = false) by (destruct Hx; reflexivity). rewrite Ek, andb_false_r.
      assert (Ed : sw x "P" || sw x "S" = false) by (destruct Hx; reflexivity).
      assert (Ep : seq_ x "p" || seq_ x "s" = true) by (destruct Hx; reflexivity).
      destruct ((sw x "s" || sw x "S") && n_ltb (tm_cmbDepth t) (tm_sourceDepth t) && n_ltb (tm_sourceDepth t) (tm_iocbDepth t)) eqn:Ec.
      + eexists. split; [reflexivity|]. right. cbn [ps_max]. split; [reflexivity|]. right. right.
        apply andb_true_iff in Ec. destruct Ec as [Ec E2]. apply andb_true_iff in Ec. destruct Ec as [Ec E1].
        split; [|auto]. destruct Hx; try discriminate; eauto 10.
      + rewrite Ed, Ep, Emx. destruct (Z.eqb_spec sb 0).
        * eexists. split; [reflexivity|]. right. cbn [ps_max]. split; [reflexivity|]. right. left.
          split; [destruct Hx; eauto|assumption].
        * cbn [bind].
          pose proof (leg_up_source x v "END" (mkPS mx n_0 (sb - 1) TRANSDOWN []) (first_wave x) false "START" [] TRANSDOWN [] Hx
            (at_start _ _ _) ltac:(lia) ltac:(discriminate) ltac:(cbn; tauto)) as H.
          destruct (run_leg _ _ _ _ _ _ _ _ _ _ H) as [ld1 [s1 [E1 A1]]]. rewrite E1. cbn [parse_go bind].
          exists s1. split; [reflexivity|]. left. apply A1.
    - assert (E0 : exists y r, legs = y :: r /\ In y (["Pdiff"; "Sdiff"; "Pg"; "Sg"] ++ ["P"; "S"; "Pn"; "Sn"])).
      { destruct (all_run _ _ _ Ha (mkPS n_0 n_0 0 TRANSDOWN []) TRANSDOWN [] "" true true (at_start _ _ _)) as [y [r [E [Hy _]]]];
          [lia|auto|eauto]. }
      destruct E0 as [y [r [-> Hy]]].
      unfold parseName. cbn [app]. change (py_index (x :: y :: r ++ ["END"]) 0) with (Ok x). cbn [bind List.tl].
      rewrite HJ. fold sb. destruct (start_max (first_wave x)) as [mx Emx].
      assert (Ek : str_endswith "kmps" x = false) by (destruct Hx; reflexivity). rewrite Ek, andb_false_r.
      assert (Ed : sw x "P" || sw x "S" = false) by (destruct Hx; reflexivity).
      assert (Ep : seq_ x "p" || seq_ x "s" = true) by (destruct Hx; reflexivity).
      destruct ((sw x "s" || sw x "S") && n_ltb (tm_cmbDepth t) (tm_sourceDepth t) && n_ltb (tm_sourceDepth t) (tm_iocbDepth t)) eqn:Ec.
      + eexists. split; [reflexivity|]. right. cbn [ps_max]. split; [reflexivity|]. right. right.
        apply andb_true_iff in Ec. destruct Ec as [Ec E2]. apply andb_true_iff in Ec. destruct Ec as [Ec E1].
        split; [|auto]. destruct Hx; try discriminate; eauto 10.
      + rewrite Ed, Ep, Emx. destruct (Z.eqb_spec sb 0).
        * eexists. split; [reflexivity|]. right. cbn [ps_max]. split; [reflexivity|]. right. left.
          split; [destruct Hx; eauto|assumption].
        * cbn [bind].
          pose proof (leg_up_source x v y (mkPS mx n_0 (sb - 1) TRANSDOWN []) (first_wave x) false "START" (r ++ ["END"]) TRANSDOWN [] Hx
            (at_start _ _ _) ltac:(lia) ltac:(discriminate) ltac:(cbn [In app stops] in Hy |- *; tauto)) as H.
          destruct (run_leg _ _ _ _ _ _ _ _ _ _ H) as [ld1 [s1 [E1 A1]]]. rewrite E1.
          destruct (all_run _ _ _ Ha s1 _ _ x (leg_wave (first_wave x) x) ld1 A1)
            as [x' [r' [E [_ [s [Es R]]]]]]; [lia|auto|]. injection E as <- <-. rewrite Es. cbn [bind].
          exists s. split; [reflexivity|]. cbn [app] in R. destruct R as [R|[R [z [B1 B2]]]]; [left; exact R|right].
          split; [exact R|left]. exists z. split; [right; exact B1|exact B2].
  Qed.
End Parse.

(** ** Standard names are split into these legs *)
Section Tokens.
  Variables sb moho cmb iocb n : Z.
  Definition alphabet : list string :=
    ["P"; "S"; "Pn"; "Sn"; "Pg"; "Sg"; "Pdiff"; "Sdiff"; "p"; "s"; "c"; "K"; "i"; "I"; "J"].
  (** after a P or S leg comes P.., S.., c or K, or nothing *)
  Definition follows (x : string) (l : list string) : Prop :=
    x = "P" \/ x = "S" ->
    match l with [] => True | y :: _ => In y ["P"; "S"; "Pn"; "Sn"; "Pg"; "Sg"; "Pdiff"; "Sdiff"; "c"; "K"] end.
  Fixpoint readable (l : list string) : Prop :=
    match l with [] => True | x :: r => In x alphabet /\ follows x r /\ readable r end.

  Lemma readable_tokens : forall l, readable l -> Tokens (join l) l.
  Proof.
    induction l as [|x r IH]; cbn [readable]; [intros _; constructor|].
    intros [Hx [Hf Hr]]. specialize (IH Hr). cbn [join fold_right]. fold (join r).
    assert (Si : forall c, In c simple_chars -> Tokens (String c "" ++ join r) (String c "" :: r)).
    { intros c Hc. cbn [append]. apply Tok_simple; assumption. }
    assert (Tw : forall c d, ~ In c simple_chars -> In d second_chars -> Tokens (String c (String d "") ++ join r) (String c (String d "") :: r)).
    { intros c e Hc Hd. cbn [append]. apply Tok_two; assumption. }
    assert (On : forall c, c = "P"%char \/ c = "S"%char -> x = String c "" -> Tokens (String c "" ++ join r) (String c "" :: r)).
    { intros c Hc E. assert (Nc : ~ In c simple_chars) by (destruct Hc; subst c; cbn; intuition discriminate).
      cbn [append]. destruct r as [|y r']; [cbn [join fold_right]; apply Tok_last; assumption|].
      assert (Hy : In y ["P"; "S"; "Pn"; "Sn"; "Pg"; "Sg"; "Pdiff"; "Sdiff"; "c"; "K"]) by (apply Hf; destruct Hc; subst; auto).
      assert (Ey : exists e z, y = String e z /\ In e follow_chars).
      { cbn [In] in Hy. repeat destruct Hy as [<-|Hy]; try contradiction; eexists _, _; (split; [reflexivity|cbn; tauto]). }
      destruct Ey as [e [z [-> He]]]. cbn [join fold_right append] in IH |- *. apply Tok_one; assumption. }
    cbn [alphabet In] in Hx.
    repeat (destruct Hx as [<-|Hx];
      [first [apply On; [tauto|reflexivity] | apply Tw; cbn; [intuition discriminate|tauto] | apply Si; cbn; tauto
             | apply (Tok_diff "Pdiff"); auto | apply (Tok_diff "Sdiff"); auto]|]). contradiction.
  Qed.

  Lemma no_m : forall l, readable l -> ~ has_char "m" (join l).
  Proof.
    induction l as [|x r IH]; cbn [readable].
    - intros _ [a [b E]]. destruct a; discriminate.
    - intros [Hx [_ Hr]] H. specialize (IH Hr). cbn [join fold_right] in H. fold (join r) in H.
      cbn [alphabet In] in Hx.
      repeat (destruct Hx as [<-|Hx];
        [cbn [append] in H; repeat (apply has_char_cons in H; destruct H as [H|H]; [discriminate|]); exact (IH H)|]).
      contradiction.
  Qed.
  Lemma readable_puller : forall l, readable l -> legPuller (join l) = Ok (l ++ ["END"]).
  Proof.
    intros l H. apply legPuller_iff. right. split; [|exists l; split; [apply readable_tokens; assumption|reflexivity]].
    intros [p E]. apply (no_m l H). rewrite E. exists (p ++ "k")%string, "ps". rewrite str_app_assoc. reflexivity.
  Qed.

  Definition mantle_heads : list string := ["P"; "S"; "Pn"; "Sn"; "Pg"; "Sg"; "Pdiff"; "Sdiff"].
  Definition starts (hs l : list string) : Prop := exists x r, l = x :: r /\ In x hs.

  Lemma inner_read : forall l v path, inner_core iocb n l v path -> forall r, readable r -> readable (l ++ r).
  Proof.
    induction 1 as [x v Hx|x v l v' path Hx Hl IH]; intros r Hr; cbn [app readable].
    - split; [destruct Hx; cbn; tauto|]. split; [|assumption]. intros [E|E]; destruct Hx; discriminate.
    - split; [destruct Hx; cbn; tauto|]. split; [|auto]. intros [E|E]; destruct Hx; discriminate.
  Qed.
  Lemma K_read : forall r, readable r -> readable ("K" :: r).
  Proof. intros r H. cbn [readable]. split; [cbn; tauto|]. split; [intros [E|E]; discriminate|assumption]. Qed.
  Lemma bounce_read : forall v l v' path, bounce cmb iocb n v l v' path -> (exists r, l = "K" :: r) /\ forall r, readable r -> readable (l ++ r).
  Proof.
    destruct 1 as [| |l v' path Hi]; (split; [eauto|]); intros r Hr.
    - apply K_read. assumption.
    - apply K_read. cbn [app readable]. split; [cbn; tauto|]. split; [intros [E|E]; discriminate|]. apply K_read. assumption.
    - cbn [app]. apply K_read. rewrite <- app_assoc. apply (inner_read _ _ _ Hi). apply K_read. assumption.
  Qed.
  Lemma core_read : forall v l v' path, core cmb iocb n v l v' path -> (exists r, l = "K" :: r) /\ forall r, readable r -> readable (l ++ r).
  Proof.
    induction 1 as [v l v' path Hb|v l v1 path l' v2 path' Hb Hc IH].
    - eapply bounce_read. eassumption.
    - destruct (bounce_read _ _ _ _ Hb) as [[r1 ->] H1]. destruct IH as [_ H2]. split; [cbn [app]; eauto|].
      intros r Hr. rewrite <- app_assoc. auto.
  Qed.
  Lemma follows_mantle : forall x l, starts mantle_heads l \/ l = [] -> follows x l.
  Proof.
    intros x l [[y [r [-> Hy]]]| ->] _; [|exact I]. cbn [mantle_heads In] in *. tauto.
  Qed.
  Lemma ray_read : forall start l path, ray moho cmb iocb n start l path ->
    starts mantle_heads l /\ forall r, readable r -> starts mantle_heads r \/ r = [] -> readable (l ++ r).
  Proof.
    destruct 1 as [x v Hx|x v y u Hx Hy|x v l v' path y u Hx Hc Hy|x v Hx].
    - split; [exists x, []; split; [reflexivity|destruct Hx; cbn; tauto]|]. intros r Hr Hs. cbn [app readable].
      split; [destruct Hx; cbn; tauto|]. split; [apply follows_mantle|]; assumption.
    - split; [exists x; eexists; split; [reflexivity|destruct Hx; cbn; tauto]|]. intros r Hr Hs. cbn [app readable].
      split; [destruct Hx; cbn; tauto|]. split; [intros _; cbn; tauto|].
      split; [cbn; tauto|]. split; [intros [E|E]; discriminate|].
      split; [destruct Hy; cbn; tauto|]. split; [apply follows_mantle|]; assumption.
    - split; [exists x; eexists; split; [reflexivity|destruct Hx; cbn; tauto]|]. intros r Hr Hs.
      destruct (core_read _ _ _ _ Hc) as [[l' ->] Hl]. cbn [app readable].
      split; [destruct Hx; cbn; tauto|]. split; [intros _; cbn; tauto|].
      change (readable ((("K" :: l') ++ [y]) ++ r)). rewrite <- app_assoc. apply Hl. cbn [app readable].
      split; [destruct Hy; cbn; tauto|]. split; [apply follows_mantle|]; assumption.
    - split; [eexists _, []; split; [reflexivity|destruct Hx; cbn; tauto]|]. intros r Hr Hs. cbn [app readable].
      split; [destruct Hx; cbn; tauto|]. split; [apply follows_mantle|]; assumption.
  Qed.
  Lemma slow_read : forall start l path, slow_ray moho cmb start l path ->
    starts mantle_heads l /\ forall r, readable r -> starts mantle_heads r \/ r = [] -> readable (l ++ r).
  Proof.
    destruct 1 as [x v Hx|x v Hx];
      (split; [eexists _, []; split; [reflexivity|destruct Hx; cbn; tauto]|]; intros r Hr Hs; cbn [app readable];
       split; [destruct Hx; cbn; tauto|]; split; [apply follows_mantle|]; assumption).
  Qed.
  Lemma starts_app : forall hs l l', starts hs l -> starts hs (l ++ l').
  Proof. intros hs l l' [x [r [-> H]]]. exists x, (r ++ l'). auto. Qed.
  Lemma rays_read : forall start l path, rays moho cmb iocb n start l path -> starts mantle_heads l /\ readable l.
  Proof.
    induction 1 as [start l path Hr|start l path l' path' Hr Hrs [H1 H2]];
      destruct (ray_read _ _ _ Hr) as [Hs Hl].
    - split; [assumption|]. rewrite <- (app_nil_r l). apply Hl; [exact I|auto].
    - split; [apply starts_app; assumption|]. apply Hl; auto.
  Qed.
  Lemma all_read : forall start l path, all_rays_from moho cmb iocb n start l path -> starts mantle_heads l /\ readable l.
  Proof.
    induction 1 as [start l path Hr|start l path Hr|start l path l' path' Hr Hrs [H1 H2]].
    - eapply rays_read. eassumption.
    - destruct (slow_read _ _ _ Hr) as [Hs Hl]. split; [assumption|]. rewrite <- (app_nil_r l). apply Hl; [exact I|auto].
    - destruct (slow_read _ _ _ Hr) as [Hs Hl]. split; [apply starts_app; assumption|]. apply Hl; auto.
  Qed.
  Lemma textbook_read : forall l path, textbook sb moho cmb iocb n l path -> readable l.
  Proof.
    destruct 1 as [l path Ha|x v Hx|x v l path Hx Ha].
    - apply (all_read _ _ _ Ha).
    - cbn [readable]. split; [destruct Hx; cbn; tauto|]. split; [intros [E|E]; destruct Hx; discriminate|exact I].
    - cbn [readable]. split; [destruct Hx; cbn; tauto|].
      split; [intros [E|E]; destruct Hx; discriminate|]. apply (all_read _ _ _ Ha).
  Qed.
End Tokens.

Section Phase.
  Context {T : Type} {N : Num T} {L : Libm T}.
  Variable show : T -> string.

  Lemma phase_seq : forall w (t : tmodel T) tid name ph, newPhase show w t tid name = Ok ph ->
    exists legs s, legPuller name = Ok legs /\ parseName w t name legs = Ok (Some s) /\
      ph_seq ph = ps_seq s /\ ph_legs ph = legs /\ ph_name ph = name /\
      (ph_max ph = ps_max s \/ ph_max ph = n_lit (-1) 0).
  Proof.
    intros w t tid name ph H. unfold newPhase in H.
    inv_as H as legs Hl. inv_as H as purist Hp. inv_as H as o Ho. destruct o as [s|]; [|discriminate].
    exists legs, s. split; [assumption|]. split; [assumption|].
    match type of H with (if ?b then _ else _) = _ => destruct b end; [injection H as <-; cbn; auto 10|].
    inv_as H as nP HnP. inv_as H as nS HnS. inv_as H as dist0 Hd0. inv_as H as time0 Ht0. inv_as H as sp Hsp.
    destruct sp as [[dist time]|]; [|injection H as <-; cbn; auto 10].
    inv_as H as mind Hmin. inv_as H as maxd Hmax. inv_as H as st1 H1. inv_as H as st H2. injection H as <-.
    cbn; auto 10.
  Qed.

  Lemma parse_J : forall w (t : tmodel T) name legs s, parseName w t name legs = Ok (Some s) ->
    str_in "J" name && negb (sm_allowInnerCoreS (tm_sMod t)) = false.
  Proof.
    intros w t name legs s H. unfold parseName in H. inv_as H as first Hf.
    match type of H with (if ?b then _ else _) = _ => destruct b end; [discriminate|].
    match type of H with (if ?b then _ else _) = _ => destruct b end; [discriminate|reflexivity].
  Qed.
End Phase.

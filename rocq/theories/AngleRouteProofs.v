(** First and last crossing of textbook rays. *)
From Coq Require Import ZArith Bool List String Ascii Reals Lia Lra.
From Verif Require Import Base Num PyStr VelocityModel SlownessLayer SlownessModel TauModel Legs SeismicPhase
  NameSpec NameProofs VelSpec TimeSpec RouteSpec RouteProofs AngleSpec.
Import ListNotations.
Local Open Scope string_scope.
Local Open Scope list_scope.
Local Open Scope Z_scope.

Lemma branches_first : forall a b, 0 <= a < b -> exists m, branches a b = a :: m.
Proof.
  intros a b H. unfold branches. destruct (Z.to_nat b - Z.to_nat a)%nat eqn:E; [lia|]. cbn [seq map].
  rewrite Z2Nat.id by lia. eauto.
Qed.
Lemma down_first : forall w a b, 0 <= a < b -> exists m, down w a b = (a, true, w) :: m.
Proof. intros w a b H. unfold down. destruct (branches_first a b H) as [m ->]. cbn [map]. eauto. Qed.
Lemma up_last : forall w a b, 0 <= a < b -> exists m, up w a b = m ++ [(a, false, w)].
Proof.
  intros w a b H. unfold up. destruct (branches_first a b H) as [m ->]. cbn [rev]. rewrite map_app. cbn [map]. eauto.
Qed.
Lemma up_first : forall w a b, 0 <= a < b -> exists m, up w a b = (b - 1, false, w) :: m.
Proof.
  intros w a b H. unfold up, branches.
  replace (Z.to_nat b - Z.to_nat a)%nat with (Z.to_nat (b - 1) - Z.to_nat a + 1)%nat by lia.
  rewrite seq_app, map_app, rev_app_distr. cbn [seq map rev app].
  replace (Z.of_nat (Z.to_nat a + (Z.to_nat (b - 1) - Z.to_nat a))) with (b - 1) by lia. eauto.
Qed.

Section Ends.
  Variables source moho cmb iocb n : Z.
  Hypothesis Hm : 0 < moho < cmb.

  (** the ray starts downwards in branch [start] with the wave of the first leg and ends upwards in branch 0
      with the wave of the last leg *)
  Definition starts (start : Z) (legs : list string) (path : list crossing) : Prop :=
    exists c r l isP m, legs = String c r :: l /\ letter c true isP /\ path = (start, true, isP) :: m.
  Definition ends (legs : list string) (path : list crossing) : Prop :=
    exists l c r dn isP m, legs = l ++ [String c r] /\ letter c dn isP /\ path = m ++ [(0, false, isP)].

  Lemma mantle_letter : forall x w, mantle_leg x w -> exists c, x = String c "" /\ letter c true w.
  Proof. intros x w []; eexists; split; [reflexivity|constructor|reflexivity|constructor]. Qed.
  Lemma starts_app : forall start l path l' path', starts start l path -> starts start (l ++ l') (path ++ path').
  Proof.
    intros start l path l' path' [c [r [k [isP [m [-> [Hc ->]]]]]]]. exists c, r, (k ++ l'), isP, (m ++ path').
    split; [reflexivity|]. split; [exact Hc|reflexivity].
  Qed.
  Lemma ends_app : forall l path l' path', ends l' path' -> ends (l ++ l') (path ++ path').
  Proof.
    intros l path l' path' [k [c [r [dn [isP [m [-> [Hc ->]]]]]]]]. exists (l ++ k), c, r, dn, isP, (path ++ m).
    rewrite !app_assoc. split; [reflexivity|]. split; [exact Hc|reflexivity].
  Qed.
  Lemma starts_down : forall start x w r l b m, mantle_leg x w -> 0 <= start < b ->
    starts start ((x ++ r)%string :: l) (down w start b ++ m).
  Proof.
    intros start x w r l b m Hx Hb. destruct (mantle_letter x w Hx) as [c [-> Hc]].
    destruct (down_first w start b Hb) as [k ->]. exists c, r, l, w, (k ++ m). split; [reflexivity|]. split; [exact Hc|reflexivity].
  Qed.
  Lemma ends_up : forall x w r l b m, mantle_leg x w -> 0 < b -> ends (l ++ [(x ++ r)%string]) (m ++ up w 0 b).
  Proof.
    intros x w r l b m Hx Hb. destruct (mantle_letter x w Hx) as [c [-> Hc]].
    destruct (up_last w 0 b ltac:(lia)) as [k ->]. exists l, c, r, true, w, (m ++ k). split; [reflexivity|]. split; [exact Hc|].
    rewrite app_assoc. reflexivity.
  Qed.
  Lemma app_empty : forall x : string, x = (x ++ "")%string.
  Proof. induction x as [|c x IH]; cbn; congruence. Qed.

  Definition shallow : list string := ["Pn"; "Sn"; "Pg"; "Sg"].
  Definition reachable (start : Z) (legs : list string) : Prop :=
    start < moho \/ forall x r, legs = x :: r -> ~ In x shallow.

  Lemma ray_ends : forall start l path, ray moho cmb iocb n start l path -> 0 <= start < cmb -> reachable start l ->
    starts start l path /\ ends l path.
  Proof.
    intros start l path H Hs Hr. destruct H as [x w Hx|x w y v Hx Hy|x w l w' path y v Hx Hc Hy|x w Hx].
    - rewrite (app_empty x). split; [apply starts_down; assumption|]. apply (ends_up x w "" []); [assumption|lia].
    - split; [rewrite (app_empty x); apply starts_down; assumption|].
      rewrite (app_empty y). apply (ends_up y v "" [x; "c"]); [assumption|lia].
    - split; [rewrite (app_empty x); apply starts_down; assumption|].
      rewrite (app_empty y). rewrite app_assoc. apply (ends_up y v "" (x :: l)); [assumption|lia].
    - assert (start < moho).
      { destruct Hr as [Hr|Hr]; [exact Hr|]. exfalso. apply (Hr _ _ eq_refl). destruct Hx; cbn; tauto. }
      split; [apply starts_down; [assumption|lia]|]. apply (ends_up x w "n" []); [assumption|lia].
  Qed.
  Lemma slow_ends : forall start l path, slow_ray moho cmb start l path -> 0 <= start < cmb -> reachable start l ->
    starts start l path /\ ends l path.
  Proof.
    intros start l path H Hs Hr. destruct H as [x w Hx|x w Hx].
    - split; [apply starts_down; assumption|]. apply (ends_up x w "diff" []); [assumption|lia].
    - assert (start < moho).
      { destruct Hr as [Hr|Hr]; [exact Hr|]. exfalso. apply (Hr _ _ eq_refl). destruct Hx; cbn; tauto. }
      split; [apply starts_down; [assumption|lia]|]. apply (ends_up x w "g" []); [assumption|lia].
  Qed.
  Lemma reach_app : forall start l l', l <> [] -> reachable start (l ++ l') -> reachable start l.
  Proof.
    intros start l l' Hl [H|H]; [left; exact H|right]. intros x r ->. apply (H x (r ++ l')). reflexivity.
  Qed.
  Lemma ray_nonempty : forall start l path, ray moho cmb iocb n start l path -> l <> [].
  Proof. intros start l path []; discriminate. Qed.
  Lemma slow_nonempty : forall start l path, slow_ray moho cmb start l path -> l <> [].
  Proof. intros start l path []; discriminate. Qed.
  Lemma rays_ends : forall start l path, rays moho cmb iocb n start l path -> 0 <= start < cmb -> reachable start l ->
    starts start l path /\ ends l path.
  Proof.
    induction 1 as [start l path H|start l path l' path' H H' IH]; intros Hs Hr; [apply ray_ends; assumption|].
    destruct (ray_ends _ _ _ H Hs (reach_app _ _ _ (ray_nonempty _ _ _ H) Hr)) as [A _].
    destruct (IH ltac:(lia) ltac:(left; lia)) as [_ B].
    split; [apply starts_app; exact A|apply ends_app; exact B].
  Qed.
  Lemma all_ends : forall start l path, all_rays_from moho cmb iocb n start l path -> 0 <= start < cmb -> reachable start l ->
    starts start l path /\ ends l path.
  Proof.
    induction 1 as [start l path H|start l path H|start l path l' path' H H' IH]; intros Hs Hr;
      [apply rays_ends; assumption|apply slow_ends; assumption|].
    destruct (slow_ends _ _ _ H Hs (reach_app _ _ _ (slow_nonempty _ _ _ H) Hr)) as [A _].
    destruct (IH ltac:(lia) ltac:(left; lia)) as [_ B].
    split; [apply starts_app; exact A|apply ends_app; exact B].
  Qed.

  Lemma textbook_ends : forall l path, textbook source moho cmb iocb n l path -> 0 <= source < cmb ->
    reachable source l ->
    ((exists x r, l = x :: r /\ In x ["p"; "s"]) -> 0 < source) ->
    (exists c r k dn isP b m, l = String c r :: k /\ letter c dn isP /\ path = (b, dn, isP) :: m) /\ ends l path.
  Proof.
    intros l path H Hs Hr Hu. destruct H as [l path H|x w Hx|x w l path Hx H].
    - destruct (all_ends _ _ _ H Hs Hr) as [[c [r [k [isP [m A]]]]] B]. split; [|exact B]. exists c, r, k, true, isP, source, m. exact A.
    - assert (0 < source) by (apply Hu; exists x, []; split; [reflexivity|destruct Hx; cbn; tauto]).
      assert (L : exists c, x = String c "" /\ letter c false w) by (destruct Hx; eexists; split; [reflexivity|constructor|reflexivity|constructor]).
      destruct L as [c [-> Hc]]. split.
      + destruct (up_first w 0 source ltac:(lia)) as [m ->]. exists c, "", [], false, w, (source - 1), m. auto.
      + destruct (up_last w 0 source ltac:(lia)) as [m ->]. exists [], c, "", false, w, m. auto.
    - assert (0 < source) by (apply Hu; exists x, l; split; [reflexivity|destruct Hx; cbn; tauto]).
      assert (L : exists c, x = String c "" /\ letter c false w) by (destruct Hx; eexists; split; [reflexivity|constructor|reflexivity|constructor]).
      destruct L as [c [-> Hc]]. split.
      + destruct (up_first w 0 source ltac:(lia)) as [m ->]. exists c, "", l, false, w, (source - 1), (m ++ path). auto.
      + destruct (all_ends _ _ _ H ltac:(lia) ltac:(left; lia)) as [_ B]. apply (ends_app [String c ""]). exact B.
  Qed.
End Ends.

Lemma one_letter : forall c w, same_word (String c "") w <-> exists e, w = String e "" /\ same_letter c e.
Proof.
  intros c w. unfold same_word. cbn [list_ascii_of_string]. split.
  - intros H. inversion H as [|x y l l' Hx Hl E1 E2]; subst. inversion Hl; subst. destruct w as [|e [|f w]]; try discriminate.
    cbn in E2. injection E2 as ->. eauto.
  - intros [e [-> He]]. cbn. constructor; [exact He|constructor].
Qed.
Lemma letter_values_iff : forall c dn isP (l : vlayer R) tv bv, letter c dn isP ->
  (values l (String c "") tv bv <-> tv = (if isP then vl_topP l else vl_topS l) /\ bv = (if isP then vl_botP l else vl_botS l)).
Proof.
  intros c dn isP l tv bv H. unfold values.
  assert (D : ~ exists w, In w density_words /\ same_word (String c "") w).
  { intros [w [Hw Hs]]. apply one_letter in Hs. destruct Hs as [e [-> He]].
    cbn in Hw. destruct Hw as [E|[E|[E|[E|[]]]]]; try discriminate; injection E as <-;
      destruct H; destruct He as [He|[_ He]]; discriminate. }
  assert (Pp : same_word (String c "") "p" <-> isP = true).
  { rewrite one_letter. destruct H; (split; intros Hx; [|try discriminate]);
      try reflexivity; try (exists "p"%char; split; [reflexivity|]; first [left; reflexivity|right; cbn; lia]);
      destruct Hx as [e [E He]]; injection E as <-; destruct He as [He|[_ He]]; discriminate. }
  assert (Ps : same_word (String c "") "s" <-> isP = false).
  { rewrite one_letter. destruct H; (split; intros Hx; [|try discriminate]);
      try reflexivity; try (exists "s"%char; split; [reflexivity|]; first [left; reflexivity|right; cbn; lia]);
      destruct Hx as [e [E He]]; injection E as <-; destruct He as [He|[_ He]]; discriminate. }
  rewrite Pp, Ps. destruct isP; split; try tauto.
  - intros [[_ Q]|[[Q _]|[Q _]]]; [exact Q|discriminate|contradiction].
  - intros [[Q _]|[[_ Q]|[Q _]]]; [discriminate|exact Q|contradiction].
Qed.
Lemma letter_speed : forall m below c dn isP z v, letter c dn isP ->
  (speed m below (String c "") z v <-> speed m below (wave_name isP) z v).
Proof.
  intros m below c dn isP z v H. unfold speed.
  assert (W : exists c', wave_name isP = String c' "" /\ letter c' true isP) by (destruct isP; eexists; split; [reflexivity|constructor|reflexivity|constructor]).
  destruct W as [c' [-> Hc']].
  split; intros [l [tv [bv [Hl [Hz [Hv E]]]]]]; exists l, tv, bv; (split; [exact Hl|]; split; [exact Hz|]; split; [|exact E]).
  - apply (letter_values_iff c' true isP l tv bv Hc'). apply (letter_values_iff c dn isP l tv bv H). exact Hv.
  - apply (letter_values_iff c dn isP l tv bv H). apply (letter_values_iff c' true isP l tv bv Hc'). exact Hv.
Qed.

(** a phase without rays has no samples *)
Lemma no_rays : forall show w (t : tmodel R) tid name ph, newPhase show w t tid name = Ok ph ->
  ph_max ph = n_lit (-1) 0 -> ph_dist ph = [].
Proof.
  intros show w t tid name ph H Hm. unfold newPhase in H.
  inv_as H as legs Hl. inv_as H as purist Hp. inv_as H as o Ho. destruct o as [s|]; [|discriminate].
  match type of H with (if ?b then _ else _) = _ => destruct b eqn:E end; [injection H as <-; reflexivity|].
  inv_as H as nP HnP. inv_as H as nS HnS. inv_as H as dist0 Hd0. inv_as H as time0 Ht0. inv_as H as sp Hsp.
  destruct sp as [[dist time]|]; [|injection H as <-; reflexivity].
  inv_as H as mind Hmin. inv_as H as maxd Hmax. inv_as H as st1 H1. inv_as H as st H2. injection H as <-.
  exfalso. cbn [ph_max] in Hm. apply orb_false_iff in E. destruct E as [E _]. rewrite Hm, n_0_R in E.
  cbn in E. rewrite Rlit_0 in E. destruct (Rltb_spec (IZR (-1)) 0) as [_|F]; [discriminate|]. apply F. lra.
Qed.

Lemma phase_same : forall show w (t : tmodel R) tid name ph, newPhase show w t tid name = Ok ph ->
  ph_tMod ph = t /\ ph_sourceDepth ph = tm_sourceDepth t.
Proof.
  intros show w t tid name ph H. unfold newPhase in H.
  inv_as H as legs Hl. inv_as H as purist Hp. inv_as H as o Ho. destruct o as [s|]; [|discriminate].
  match type of H with (if ?b then _ else _) = _ => destruct b eqn:E end; [injection H as <-; split; reflexivity|].
  inv_as H as nP HnP. inv_as H as nS HnS. inv_as H as dist0 Hd0. inv_as H as time0 Ht0. inv_as H as sp Hsp.
  destruct sp as [[dist time]|]; [|injection H as <-; split; reflexivity].
  inv_as H as mind Hmin. inv_as H as maxd Hmax. inv_as H as st1 H1. inv_as H as st H2. injection H as <-. split; reflexivity.
Qed.

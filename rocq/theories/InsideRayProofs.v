(** Proofs for C57: rays, branches and limits when layers are cut in pieces. *)
From Coq Require Import ZArith Bool List String Reals Lia Lra Psatz.
From Verif Require Import Base Num PyStr VelocityModel VelSpec VelProofs SlownessLayer SlownessModel
  SlowSpec SlowProofs CritSpec CritProofs SlowRealProofs SampleProofs StackSpec StackProofs
  SplitSpec SplitProofs TauModel TauSpec TauProofs PathSpec PathLegProofs MonoSpec LimitSpec LimitProofs
  BullenSpec BullenProofs BullenProps ShellProps ErrSpec ErrProofs SourceSpec SourceProofs InsideSpec InsideProofs.
Import ListNotations.
Local Open Scope list_scope.
Local Open Scope R_scope.

Lemma fat_deep : forall (ls : list (slayer R)) i y x, s_meet ls -> s_upright ls -> nth_error ls i = Some y -> fat y -> sl_topDepth y = x ->
  deepest ls x i.
Proof.
  intros ls i y x Hm Hu Hy Fy E. unfold fat in Fy. split.
  - exists y. split; [exact Hy|]. split; apply Rleb_le; lra.
  - intros q z Hz [A B]. apply Rleb_le in A, B. destruct (Nat.le_gt_cases q i) as [X|X]; [exact X|exfalso].
    pose proof (srt ls Hm Hu i q y z X Hy Hz). lra.
Qed.
Lemma fat_shallow : forall (ls : list (slayer R)) i y x, s_meet ls -> s_upright ls -> nth_error ls i = Some y -> fat y -> sl_botDepth y = x ->
  shallowest ls x i.
Proof.
  intros ls i y x Hm Hu Hy Fy E. unfold fat in Fy. split.
  - exists y. split; [exact Hy|]. split; apply Rleb_le; lra.
  - intros q z Hz [A B]. apply Rleb_le in A, B. destruct (Nat.le_gt_cases i q) as [X|X]; [exact X|exfalso].
    pose proof (srt ls Hm Hu q i z y X Hz Hy). lra.
Qed.
(** the layers at the ends of a stretch between two boundaries *)
Lemma deep_fat : forall (ls : list (slayer R)) x x' i j, s_meet ls -> s_upright ls -> bnd ls x -> bnd ls x' -> x < x' ->
  deepest ls x i -> shallowest ls x' j -> exists y z, nth_error ls i = Some y /\ nth_error ls j = Some z /\ fat y /\ fat z /\
    sl_topDepth y = x /\ sl_botDepth z = x' /\ (i <= j)%nat.
Proof.
  intros ls x x' i j Hm Hu Bx Bx' Lt Di Sj.
  pose proof Di as [[y [Hy [Y1 Y2]]] Dy]. pose proof Sj as [[z [Hz [Z1 Z2]]] Dz]. apply Rleb_le in Y1, Y2, Z1, Z2.
  assert (Ty : sl_topDepth y = x).
  { apply Reqb_eq. apply (deepest_top ls x i y z Hm Hu Bx Di Hy (nth_error_In _ _ Hz)). apply Rltb_lt. lra. }
  assert (Tz : sl_botDepth z = x').
  { apply Reqb_eq. apply (shallowest_bot ls x' j z y Hm Hu Bx' Sj Hz (nth_error_In _ _ Hy)). apply Rltb_lt. lra. }
  assert (Uy := upr ls Hu y (nth_error_In _ _ Hy)). assert (Uz := upr ls Hu z (nth_error_In _ _ Hz)).
  assert (Lij : (i <= j)%nat).
  { destruct (Nat.le_gt_cases i j) as [X|X]; [exact X|exfalso]. pose proof (srt ls Hm Hu j i z y X Hz Hy). lra. }
  exists y, z. split; [exact Hy|]. split; [exact Hz|].
  assert (Fy : fat y).
  { unfold fat. destruct (Req_dec (sl_topDepth y) (sl_botDepth y)) as [E|]; [exfalso|lra].
    destruct (nth_error ls (S i)) as [v|] eqn:Ev.
    - pose proof (Hm _ _ _ Hy Ev) as M. apply Reqb_eq in M. pose proof (upr ls Hu v (nth_error_In _ _ Ev)) as Uv.
      specialize (Dy _ _ Ev ltac:(split; apply Rleb_le; lra)). lia.
    - apply nth_error_None in Ev. assert (j < List.length ls)%nat by (apply nth_error_Some; congruence). assert (j = i) by lia. subst j.
      assert (y = z) by congruence. subst z. lra. }
  split; [exact Fy|]. split; [|auto].
  unfold fat in *. destruct (Req_dec (sl_topDepth z) (sl_botDepth z)) as [E|]; [exfalso|lra].
  destruct j as [|j]; [assert (i = 0%nat) by lia; subst i; assert (y = z) by congruence; subst; lra|].
  destruct (nth_error ls j) as [v|] eqn:Ev; [|apply nth_error_None in Ev; assert (S j < List.length ls)%nat by (apply nth_error_Some; congruence); lia].
  pose proof (Hm _ _ _ Ev Hz) as M. apply Reqb_eq in M. pose proof (upr ls Hu v (nth_error_In _ _ Ev)) as Uv.
  specialize (Dz _ _ Ev ltac:(split; apply Rleb_le; lra)). lia.
Qed.

(** the part of the stack between two layers *)
Section Segment.
  Variables (rad : R) (ls ls' : list (slayer R)).
  Hypothesis Hr : refines rad ls ls'.
  Hypothesis Hm : s_meet ls.
  Hypothesis Hu : s_upright ls.
  Hypothesis Ho : forall y, In y ls -> lay_ok rad y.
  Variables (i j : nat) (yi yj : slayer R).
  Hypothesis Hi : nth_error ls i = Some yi.
  Hypothesis Hj : nth_error ls j = Some yj.
  Hypothesis Fi : fat yi.
  Hypothesis Fj : fat yj.
  Hypothesis Hij : (i <= j)%nat.

  Definition segment (l1 a b l1' a' b' : list (slayer R)) : Prop :=
    ls = l1 ++ a ++ b /\ ls' = l1' ++ a' ++ b' /\ refines rad l1 l1' /\ refines rad a a' /\ refines rad b b' /\
    List.length l1 = i /\ (List.length l1 + List.length a = S j)%nat /\
    (exists f, nth_error ls' (List.length l1') = Some f /\ fat f /\ sl_topDepth f = sl_topDepth yi /\ sl_topP f = sl_topP yi) /\
    exists e n, (List.length l1' + List.length a')%nat = S n /\ (List.length l1' <= n)%nat /\ nth_error ls' n = Some e /\ fat e /\ sl_botDepth e = sl_botDepth yj.
  Lemma piece_fat : forall u us v, fat u -> pieces rad u us -> In v us -> fat v.
  Proof.
    intros u us v Fu Hp Hv. pose proof Hp as [_ [[q E]|[_ F]]]; [|apply (F v Hv)]. pose proof (one_same _ _ _ Hp q E) as [_ [S1 [_ S2]]].
    rewrite E in Hv. destruct Hv as [<-|[]]. unfold fat in *. lra.
  Qed.
  Lemma segment_exists : exists l1 a b l1' a' b', segment l1 a b l1' a' b'.
  Proof.
    assert (Lj : (j < List.length ls)%nat) by (apply nth_error_Some; congruence).
    set (l1 := firstn i ls). set (a := firstn (S j - i) (skipn i ls)). set (b := skipn (S j - i) (skipn i ls)).
    assert (E : ls = l1 ++ a ++ b) by (unfold l1, a, b; rewrite !firstn_skipn; reflexivity).
    assert (L1 : List.length l1 = i) by (unfold l1; rewrite firstn_length; lia).
    assert (La : List.length a = (S j - i)%nat) by (unfold a; rewrite firstn_length, skipn_length; lia).
    clearbody l1 a b. pose proof Hr as Hr'. rewrite E in Hr'.
    apply refines_inv_app in Hr'. destruct Hr' as [l1' [t' [E' [R1 Rt]]]]. apply refines_inv_app in Rt. destruct Rt as [a' [b' [-> [Ra Rb]]]].
    exists l1, a, b, l1', a', b'. split; [exact E|]. split; [exact E'|]. split; [exact R1|]. split; [exact Ra|]. split; [exact Rb|].
    split; [exact L1|]. split; [lia|].
    assert (Ha0 : nth_error a 0 = Some yi).
    { rewrite E in Hi. rewrite nth_error_app2 in Hi by lia. rewrite nth_error_app1 in Hi by lia. replace (i - List.length l1)%nat with 0%nat in Hi by lia. exact Hi. }
    assert (Haj : nth_error a (j - i) = Some yj).
    { rewrite E in Hj. rewrite nth_error_app2 in Hj by lia. rewrite nth_error_app1 in Hj by lia. replace (j - List.length l1)%nat with (j - i)%nat in Hj by lia. exact Hj. }
    split.
    - destruct (refines_at _ _ _ Ra 0%nat yi Ha0) as [c [d [c' [ys [d' [A1 [A2 [A3 [A4 [A5 A6]]]]]]]]]].
      destruct c; [|discriminate]. inversion A4; subst c'. destruct (pieces_ends _ _ _ A5) as [f [r [_ [_ [Ef [_ [T1 [T2 _]]]]]]]].
      exists f. split.
      + rewrite E', A3, Ef. rewrite nth_error_app2 by lia. replace (List.length l1' - List.length l1')%nat with 0%nat by lia. reflexivity.
      + split; [apply (piece_fat yi ys); [exact Fi|exact A5|rewrite Ef; left; reflexivity]|]. auto.
    - destruct (refines_at _ _ _ Ra (j - i)%nat yj Haj) as [c [d [c' [ys [d' [A1 [A2 [A3 [A4 [A5 A6]]]]]]]]]].
      assert (d = []).
      { apply (f_equal (@List.length _)) in A1. rewrite app_length in A1. cbn [List.length] in A1. destruct d; [reflexivity|cbn [List.length] in A1; lia]. }
      subst d. inversion A6; subst d'. destruct (pieces_ends _ _ _ A5) as [_ [_ [e [s [_ [Ee [_ [_ [_ B2]]]]]]]]].
      assert (La' : List.length a' = (List.length c' + List.length s + 1)%nat).
      { rewrite A3, Ee. repeat rewrite app_length. cbn [List.length]. lia. }
      exists e, (List.length l1' + (List.length c' + List.length s))%nat. split; [lia|]. split; [lia|]. split.
      + rewrite E'. rewrite nth_error_app2 by lia. replace (List.length l1' + (List.length c' + List.length s) - List.length l1')%nat with (List.length c' + List.length s)%nat by lia.
        rewrite nth_error_app1 by lia. rewrite A3, Ee, app_nil_r. rewrite nth_error_app2 by lia.
        replace (List.length c' + List.length s - List.length c')%nat with (List.length s) by lia. rewrite nth_error_app2 by lia.
        rewrite Nat.sub_diag. reflexivity.
      + split; [|exact B2]. apply (piece_fat yj ys); [exact Fj|exact A5|]. rewrite Ee. apply in_or_app. right. left. reflexivity.
  Qed.

  (** steady stretches stay so *)
  Lemma rf_falls : forall l1 a b l1' a' b' n, segment l1 a b l1' a' b' -> (List.length l1' + List.length a')%nat = S n ->
    (falls ls i j -> falls ls' (List.length l1') n) /\ (rises ls i j -> rises ls' (List.length l1') n).
  Proof.
    intros l1 a b l1' a' b' n [E [E' [R1 [Ra [Rb [L1 [La _]]]]]]] Ln.
    assert (Ia : forall y, In y a -> In y ls) by (intros y Hy; rewrite E; apply in_or_app; right; apply in_or_app; left; exact Hy).
    assert (Na : forall k y, nth_error a k = Some y -> nth_error ls (i + k) = Some y).
    { intros k y Hk. assert (k < List.length a)%nat by (apply nth_error_Some; congruence). rewrite E, nth_error_app2 by lia.
      rewrite nth_error_app1 by lia. replace (i + k - List.length l1)%nat with k by lia. exact Hk. }
    assert (Na' : forall k z, (List.length l1' <= k <= n)%nat -> nth_error ls' k = Some z -> nth_error a' (k - List.length l1') = Some z).
    { intros k z Hk Hz. rewrite E', nth_error_app2 in Hz by lia. rewrite nth_error_app1 in Hz by lia. exact Hz. }
    assert (Pc : forall k z, (List.length l1' <= k <= n)%nat -> nth_error ls' k = Some z -> exists q y, (i <= q <= j)%nat /\ nth_error ls q = Some y /\
      (sl_topP y < sl_botP y -> sl_topP z < sl_botP z) /\ (sl_botP y < sl_topP y -> sl_botP z < sl_topP z) /\
      (sl_topDepth y = sl_botDepth y -> same y z)).
    { intros k z Hk Hz. apply Na' in Hz; [|exact Hk]. destruct (refines_in _ _ _ Ra z (nth_error_In _ _ Hz)) as [y [ys [Hy [Py Iz]]]].
      apply In_nth_error in Hy as Hq. destruct Hq as [q Hq]. exists (i + q)%nat, y.
      assert (q < List.length a)%nat by (apply nth_error_Some; congruence). split; [lia|]. split; [apply Na; exact Hq|].
      destruct (rf_between rad ls Hu Ho y ys z (Ia y Hy) Py Iz) as [_ [_ [B1 B2]]].
      split; [exact B1|]. split; [exact B2|]. intros Ey.
      pose proof Py as [_ [[u Eu]|[_ F]]].
      - pose proof (one_same _ _ _ Py u Eu) as S. rewrite Eu in Iz. destruct Iz as [<-|[]]. exact S.
      - exfalso. destruct (F z Iz) as [Fz _]. unfold fat in Fz.
        pose proof (pieces_range rad y ys Py ltac:(lra) z Iz). lra. }
    split; intros Fa k z Hk Hz.
    - destruct (Pc k z Hk Hz) as [q [y [Hq [Hy [P1 [P2 P3]]]]]]. destruct (Fa q y Hq Hy) as [F1 [F2 _]].
      assert (D : sl_botP z < sl_topP z \/ same y z).
      { destruct (Req_dec (sl_botP y) (sl_topP y)) as [X|X]; [right; auto|left; apply P2; lra]. }
      split; [destruct D as [D|[D1 [_ [D2 _]]]]; lra|]. split.
      + intros Ez. destruct D as [D|[D1 [D2 [D3 D4]]]]; [lra|]. rewrite <- D2, <- D4. apply F2. congruence.
      + intros z2 Lk Hz2. apply Na' in Hz; [|lia]. apply Na' in Hz2; [|lia]. replace (S k - List.length l1')%nat with (S (k - List.length l1')) in Hz2 by lia.
        refine (rf_next rad a a' Ra (fun z z2 => sl_topP z2 <= sl_botP z) _ _ _ z z2 Hz Hz2).
        * intros v c e Hc He c' e' E1 _ E2 _. rewrite E1, E2.
          assert (S v < List.length a)%nat by (apply nth_error_Some; congruence).
          destruct (Fa (i + v)%nat c ltac:(lia) (Na _ _ Hc)) as [_ [_ G]]. apply G; [lia|]. rewrite plus_n_Sm. apply Na. exact He.
        * intros c e E1 _. lra.
    - destruct (Pc k z Hk Hz) as [q [y [Hq [Hy [P1 [P2 P3]]]]]]. destruct (Fa q y Hq Hy) as [F1 [F2 _]].
      assert (D : sl_topP z < sl_botP z \/ same y z).
      { destruct (Req_dec (sl_botP y) (sl_topP y)) as [X|X]; [right; auto|left; apply P1; lra]. }
      split; [destruct D as [D|[D1 [_ [D2 _]]]]; lra|]. split.
      + intros Ez. destruct D as [D|[D1 [D2 [D3 D4]]]]; [lra|]. rewrite <- D2, <- D4. apply F2. congruence.
      + intros z2 Lk Hz2. apply Na' in Hz; [|lia]. apply Na' in Hz2; [|lia]. replace (S k - List.length l1')%nat with (S (k - List.length l1')) in Hz2 by lia.
        refine (rf_next rad a a' Ra (fun z z2 => sl_botP z <= sl_topP z2) _ _ _ z z2 Hz Hz2).
        * intros v c e Hc He c' e' E1 _ E2 _. rewrite E1, E2.
          assert (S v < List.length a)%nat by (apply nth_error_Some; congruence).
          destruct (Fa (i + v)%nat c ltac:(lia) (Na _ _ Hc)) as [_ [_ G]]. apply G; [lia|]. rewrite plus_n_Sm. apply Na. exact He.
        * intros c e E1 _. lra.
  Qed.
End Segment.

(** limits *)
Lemma rf_floor : forall rad ls ls' x M, refines rad ls ls' -> s_meet ls -> s_upright ls -> (forall y, In y ls -> lay_ok rad y) -> bnd ls x ->
  floor_of (down_past ls x) M -> floor_of (down_past ls' x) M.
Proof.
  intros rad ls ls' x M Hr Hm Hu Ho [u [Iu Eu]] [[y [Hy Hs]] Hmin]. split.
  - destruct (refines_out _ _ _ Hr y Hy) as [ys [Hp Hin]]. destruct (pieces_ends _ _ _ Hp) as [f [r [e [s [E1 [E2 [A1 [A2 [A3 A4]]]]]]]]].
    destruct Hs as [[L ->]|[L ->]].
    + exists f. split; [apply Hin; rewrite E1; left; reflexivity|]. left. split; [lra|congruence].
    + exists e. split; [apply Hin; rewrite E2; apply in_or_app; right; left; reflexivity|]. right. split; [lra|congruence].
  - intros s [z [Hz Hzs]]. destruct (refines_in _ _ _ Hr z Hz) as [v [vs [Hv [Pv Iz]]]].
    assert (Uv := upr ls Hu v Hv). pose proof (pieces_range rad v vs Pv Uv z Iz) as [R1 R2]. pose proof (pieces_up rad v vs Pv Uv z Iz) as R3.
    destruct (rf_between rad ls Hu Ho v vs z Hv Pv Iz) as [B1 [B2 _]].
    assert (C : sl_botDepth v <= x \/ x <= sl_topDepth v).
    { apply In_nth_error in Iu. destruct Iu as [k Hk]. apply In_nth_error in Hv. destruct Hv as [l Hl].
      assert (Uu := upr ls Hu u (nth_error_In _ _ Hk)).
      destruct (Nat.lt_trichotomy k l) as [X|[X|X]].
      - pose proof (srt ls Hm Hu k l u v X Hk Hl). right. destruct Eu as [E|E]; apply Reqb_eq in E; lra.
      - subst l. assert (u = v) by congruence. subst v. destruct Eu as [E|E]; apply Reqb_eq in E; lra.
      - pose proof (srt ls Hm Hu l k v u X Hl Hk). left. destruct Eu as [E|E]; apply Reqb_eq in E; lra. }
    destruct C as [C|C].
    + assert (M1 : M <= sl_topP v) by (apply Hmin; exists v; split; [exact Hv|]; left; split; [lra|reflexivity]).
      assert (M2 : M <= sl_botP v) by (apply Hmin; exists v; split; [exact Hv|]; right; split; [lra|reflexivity]).
      unfold btw in *. destruct Hzs as [[_ ->]|[_ ->]]; lra.
    + (* only the top of the layer is reached *)
      pose proof Pv as [Tv [[q E]|[_ F]]].
      * pose proof (one_same _ _ _ Pv q E) as [S1 [S2 [S3 S4]]]. rewrite E in Iz. destruct Iz as [<-|[]]. apply Hmin. exists v. split; [exact Hv|].
        destruct Hzs as [[L ->]|[L ->]]; [left|right]; (split; [lra|congruence]).
      * destruct (F z Iz) as [Fz _]. unfold fat in Fz. destruct Hzs as [[L ->]|[L _]]; [|lra].
        apply In_nth_error in Iz. destruct Iz as [k Hk]. destruct k as [|k].
        -- destruct (pieces_ends _ _ _ Pv) as [f [r [_ [_ [E1 [_ [A1 [A2 _]]]]]]]]. rewrite E1 in Hk. cbn in Hk. inversion Hk; subst f.
           apply Hmin. exists v. split; [exact Hv|]. left. split; [lra|congruence].
        -- exfalso. destruct (nth_error vs k) as [z0|] eqn:E0; [|apply nth_error_None in E0; assert (S k < List.length vs)%nat by (apply nth_error_Some; congruence); lia].
           destruct (tiles_next _ _ _ _ _ Tv k z0 z E0 Hk) as [_ Q]. destruct (F z0 (nth_error_In _ _ E0)) as [F0 _]. unfold fat in F0.
           pose proof (pieces_range rad v vs Pv Uv z0 (nth_error_In _ _ E0)). lra.
Qed.

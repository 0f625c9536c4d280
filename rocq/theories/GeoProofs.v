(** Lemmas about the great circle distance. *)
From Coq Require Import Reals Lra Bool List ZArith String Psatz.
From Verif Require Import Base Num SlownessLayer SeismicPhase TauPTime GeoSpec.
Import ListNotations.
Local Open Scope R_scope.

Lemma sincos1 : forall x, sin x * sin x + cos x * cos x = 1.
Proof. intros. pose proof (sin2_cos2 x). unfold Rsqr in *. lra. Qed.

Lemma point_unit : forall a b, dot (point a b) (point a b) = 1.
Proof.
  intros. unfold dot, point.
  replace (cos (rad a) * cos (rad b) * (cos (rad a) * cos (rad b))
           + cos (rad a) * sin (rad b) * (cos (rad a) * sin (rad b)) + sin (rad a) * sin (rad a))
    with (cos (rad a) * cos (rad a) * (sin (rad b) * sin (rad b) + cos (rad b) * cos (rad b))
          + sin (rad a) * sin (rad a)) by ring.
  rewrite sincos1. pose proof (sincos1 (rad a)). lra.
Qed.

Lemma dot_sym : forall u v, dot u v = dot v u.
Proof. intros [[a b] c] [[x y] z]. unfold dot. ring. Qed.

(** Lagrange *)
Lemma dot_cs : forall u v, dot u v * dot u v <= dot u u * dot v v.
Proof.
  intros [[a b] c] [[x y] z]. unfold dot.
  pose proof (Rle_0_sqr (a*y-b*x)). pose proof (Rle_0_sqr (a*z-c*x)).
  pose proof (Rle_0_sqr (b*z-c*y)). unfold Rsqr in *. nra.
Qed.

Lemma dot_range : forall u v, dot u u = 1 -> dot v v = 1 -> -1 <= dot u v <= 1.
Proof. intros u v Hu Hv. pose proof (dot_cs u v). rewrite Hu, Hv in H. nra. Qed.

Lemma dot_one_eq : forall u v, dot u u = 1 -> dot v v = 1 -> dot u v = 1 -> u = v.
Proof.
  intros [[a b] c] [[x y] z]. unfold dot. intros.
  assert (Hs : (a-x)*(a-x) + (b-y)*(b-y) + (c-z)*(c-z) = 0) by nra.
  pose proof (Rle_0_sqr (a-x)) as H2. pose proof (Rle_0_sqr (b-y)) as H3.
  pose proof (Rle_0_sqr (c-z)) as H4. unfold Rsqr in *.
  assert (a - x = 0) by (apply Rsqr_0_uniq; unfold Rsqr; lra).
  assert (b - y = 0) by (apply Rsqr_0_uniq; unfold Rsqr; lra).
  assert (c - z = 0) by (apply Rsqr_0_uniq; unfold Rsqr; lra).
  repeat f_equal; lra.
Qed.

Lemma rad_le : forall x y, x <= y -> rad x <= rad y.
Proof. intros. unfold rad. pose proof PI_RGT_0. apply Rmult_le_compat_r; [lra|]. nra. Qed.
Lemma rad_0 : rad 0 = 0. Proof. unfold rad. lra. Qed.
Lemma rad_180 : rad 180 = PI. Proof. unfold rad. field. Qed.
Lemma rad_add : forall x y, rad (x + y) = rad x + rad y.
Proof. intros. unfold rad. field. Qed.
Lemma rad_inj : forall x y, rad x = rad y -> x = y.
Proof. intros x y. unfold rad. pose proof PI_RGT_0. intros. nra. Qed.
Lemma rad_range : forall d, 0 <= d <= 180 -> 0 <= rad d <= PI.
Proof.
  intros d [H H']. pose proof (rad_le _ _ H). pose proof (rad_le _ _ H').
  rewrite rad_0 in *. rewrite rad_180 in *. lra.
Qed.

Lemma angle_unique : forall u v d d', angle_between u v d -> angle_between u v d' -> d = d'.
Proof.
  intros u v d d' [H1 H2] [H3 H4]. apply rad_inj.
  apply rad_range in H1. apply rad_range in H3.
  apply cos_inj; lra.
Qed.

Lemma gc_dot : forall a b c d,
  sin (rad a) * sin (rad c) + cos (rad a) * cos (rad c) * cos (rad (d - b))
  = dot (point a b) (point c d).
Proof.
  intros. unfold dot, point. replace (rad (d - b)) with (rad d - rad b) by (unfold rad; field).
  rewrite cos_minus. ring.
Qed.

Lemma gc_ok : forall a b c d, exists x,
  great_circle_dist a b c d = Ok x /\ angle_between (point a b) (point c d) x.
Proof.
  intros. unfold great_circle_dist. rewrite !n_int_R.
  rewrite !py_div_R by (try lra; apply PI_neq0). unfold bind.
  cbn [m_pi Libm_R m_sin m_cos m_acos n_mul n_add n_sub Num_R].
  assert (E : forall x, x * (PI / 180) = rad x) by (intro; unfold rad; field). rewrite !E.
  rewrite gc_dot.
  pose proof (dot_range _ _ (point_unit a b) (point_unit c d)) as Hr.
  destruct (Rleb_spec (-1) (dot (point a b) (point c d))); [|lra].
  destruct (Rleb_spec (dot (point a b) (point c d)) 1); [|lra]. cbn [andb].
  eexists. split; [reflexivity|].
  pose proof (acos_bound (dot (point a b) (point c d))) as Hb. pose proof PI_RGT_0.
  assert (F : rad (180 / PI * acos (dot (point a b) (point c d))) = acos (dot (point a b) (point c d)))
    by (unfold rad; field; lra).
  split.
  - split.
    + apply Rmult_le_pos; [|lra]. apply Rlt_le, Rdiv_lt_0_compat; lra.
    + apply Rmult_le_reg_r with (PI / 180); [apply Rdiv_lt_0_compat; lra|].
      replace (180 / PI * acos (dot (point a b) (point c d)) * (PI / 180))
        with (acos (dot (point a b) (point c d))) by (field; lra).
      replace (180 * (PI / 180)) with PI by field. lra.
  - rewrite F. apply cos_acos. lra.
Qed.

Lemma gc_iff : forall a b c d x,
  great_circle_dist a b c d = Ok x <-> angle_between (point a b) (point c d) x.
Proof.
  intros. destruct (gc_ok a b c d) as [y [Hy Ha]]. split; intros H.
  - congruence.
  - rewrite Hy. f_equal. eauto using angle_unique.
Qed.

(** cosine rule: the angle u-w is at most the sum of the angles u-v and v-w *)
Lemma angle_triangle : forall u v w a b c,
  dot u u = 1 -> dot v v = 1 -> dot w w = 1 ->
  angle_between u v a -> angle_between v w b -> angle_between u w c -> c <= a + b.
Proof.
  intros u v w a b c Hu Hv Hw [Ra Ea] [Rb Eb] [Rc Ec].
  destruct (Rle_dec 180 (a + b)) as [|Hlt]; [lra|].
  pose proof (rad_range _ Ra). pose proof (rad_range _ Rb). pose proof (rad_range _ Rc).
  assert (Hs : rad (a + b) <= PI) by (rewrite <- rad_180; apply rad_le; lra).
  assert (Hc : cos (rad (a + b)) <= cos (rad c)).
  { rewrite rad_add, cos_plus.
    pose proof (sin_ge_0 (rad a) ltac:(lra) ltac:(lra)).
    pose proof (sin_ge_0 (rad b) ltac:(lra) ltac:(lra)).
    pose proof (sincos1 (rad a)). pose proof (sincos1 (rad b)).
    set (x := cos (rad a)) in *. set (y := cos (rad b)) in *. set (z := cos (rad c)) in *.
    set (s := sin (rad a)) in *. set (t := sin (rad b)) in *.
    assert (G : (z - x * y) * (z - x * y) <= (s * t) * (s * t)).
    { replace ((s * t) * (s * t)) with ((1 - x * x) * (1 - y * y)) by nra.
      destruct u as [[u1 u2] u3], v as [[v1 v2] v3], w as [[w1 w2] w3].
      pose proof (dot_cs (u1 - x * v1, u2 - x * v2, u3 - x * v3)
                         (w1 - y * v1, w2 - y * v2, w3 - y * v3)) as CS.
      assert (D1 : dot (u1 - x * v1, u2 - x * v2, u3 - x * v3)
                       (w1 - y * v1, w2 - y * v2, w3 - y * v3) = z - x * y).
      { rewrite Ec. transitivity (dot (u1,u2,u3) (w1,w2,w3) - y * dot (u1,u2,u3) (v1,v2,v3)
          - x * dot (v1,v2,v3) (w1,w2,w3) + x * y * dot (v1,v2,v3) (v1,v2,v3)).
        - unfold dot. ring.
        - rewrite <- Ea, <- Eb, Hv. fold x y. ring. }
      assert (D2 : dot (u1 - x * v1, u2 - x * v2, u3 - x * v3)
                       (u1 - x * v1, u2 - x * v2, u3 - x * v3) = 1 - x * x).
      { transitivity (dot (u1,u2,u3) (u1,u2,u3) - 2 * x * dot (u1,u2,u3) (v1,v2,v3)
          + x * x * dot (v1,v2,v3) (v1,v2,v3)).
        - unfold dot. ring.
        - rewrite <- Ea, Hv, Hu. fold x. ring. }
      assert (D3 : dot (w1 - y * v1, w2 - y * v2, w3 - y * v3)
                       (w1 - y * v1, w2 - y * v2, w3 - y * v3) = 1 - y * y).
      { transitivity (dot (w1,w2,w3) (w1,w2,w3) - 2 * y * dot (v1,v2,v3) (w1,w2,w3)
          + y * y * dot (v1,v2,v3) (v1,v2,v3)).
        - unfold dot. ring.
        - rewrite <- Eb, Hv, Hw. fold y. ring. }
      rewrite D1, D2, D3 in CS. exact CS. }
    assert (0 <= s * t) by nra. nra. }
  destruct (Rle_dec c (a + b)) as [|Hn]; [assumption|]. exfalso.
  assert (rad (a + b) < rad c) by (unfold rad; pose proof PI_RGT_0; nra).
  assert (0 <= rad (a + b)) by (rewrite rad_add; lra).
  pose proof (cos_decreasing_1 (rad (a + b)) (rad c) ltac:(lra) ltac:(lra) ltac:(lra) ltac:(lra)
              ltac:(lra)). lra.
Qed.

Lemma point_shift : forall a b k, point a (b + 360 * IZR k) = point a b.
Proof.
  intros. unfold point.
  assert (E : rad (b + 360 * IZR k) = rad b + 2 * IZR k * PI) by (unfold rad; field).
  rewrite E. destruct (Z_le_dec 0 k) as [Hk|Hk].
  - rewrite <- (Z2Nat.id k Hk), <- INR_IZR_INZ. rewrite cos_period, sin_period. reflexivity.
  - set (n := Z.to_nat (- k)).
    assert (Hn : IZR k = - INR n).
    { unfold n. rewrite INR_IZR_INZ, Z2Nat.id by lia. rewrite opp_IZR. ring. }
    rewrite Hn.
    assert (Hc : cos (rad b) = cos (rad b + 2 * - INR n * PI)).
    { rewrite <- (cos_period (rad b + 2 * - INR n * PI) n). f_equal. ring. }
    assert (Hs : sin (rad b) = sin (rad b + 2 * - INR n * PI)).
    { rewrite <- (sin_period (rad b + 2 * - INR n * PI) n). f_equal. ring. }
    rewrite <- Hc, <- Hs. reflexivity.
Qed.

Lemma dot_turn : forall a b c d e,
  dot (point a (b + e)) (point c (d + e)) = dot (point a b) (point c d).
Proof.
  intros. rewrite <- !gc_dot. replace (d + e - (b + e)) with (d - b) by ring. reflexivity.
Qed.

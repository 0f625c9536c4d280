(** Property C38: the great circle distance is the angle between two points. *)
From Coq Require Import Reals Lra Bool List ZArith String Psatz.
From Verif Require Import Base Num PyStr VelocityModel SlownessLayer SlownessModel TauModel Legs SeismicPhase Pierce
  TauPTime GeoSpec GeoProofs.
Import ListNotations.
Local Open Scope R_scope.

(** Always defined, in [0, 180], and the angle between the two position vectors; the angle is
    determined by that. *)
Theorem C38_angle : forall latA lonA latB lonB,
  (exists d, great_circle_dist latA lonA latB lonB = Ok d) /\
  (forall d, great_circle_dist latA lonA latB lonB = Ok d
             <-> angle_between (point latA lonA) (point latB lonB) d).
Proof.
  intros. split.
  - destruct (gc_ok latA lonA latB lonB) as [x [H _]]. eauto.
  - intros. apply gc_iff.
Qed.

Example C38_angle_ex :
  great_circle_dist 0 0 0 90 = Ok 90 /\ great_circle_dist 90 17 (-90) 4 = Ok 180 /\
  great_circle_dist 45 10 45 190 = Ok 90.
Proof.
  split; [|split]; apply C38_angle; (split; [lra|]); unfold point, dot.
  - replace (rad 90) with (PI/2) by (unfold rad; field). replace (rad 0) with 0 by (unfold rad; field).
    rewrite cos_PI2, sin_0, cos_0, sin_PI2. ring.
  - replace (rad 90) with (PI/2) by (unfold rad; field). replace (rad (-90)) with (-(PI/2)) by (unfold rad; field).
    replace (rad 180) with PI by (unfold rad; field).
    rewrite sin_neg, cos_neg, cos_PI2, sin_PI2, cos_PI. ring.
  - replace (rad 90) with (PI/2) by (unfold rad; field). replace (rad 45) with (PI/4) by (unfold rad; field).
    replace (rad 190) with (rad 10 + PI) by (unfold rad; field).
    rewrite neg_cos, neg_sin, cos_PI2. pose proof (sincos1 (rad 10)) as H.
    rewrite sin_PI4, cos_PI4.
    assert (K : forall c s : R, s * s + c * c = 1 -> forall q, 0 = q * c * (q * - c) + q * s * (q * - s) + q * q)
      by (intros; nra).
    apply K. exact H.
Qed.

(** It is a metric on positions. *)
Theorem C38_metric :
  (forall a b c d, great_circle_dist a b c d = great_circle_dist c d a b) /\
  (forall a b c d, great_circle_dist a b c d = Ok 0 <-> point a b = point c d) /\
  (forall a b c d e f x y z,
     great_circle_dist a b c d = Ok x -> great_circle_dist c d e f = Ok y ->
     great_circle_dist a b e f = Ok z -> z <= x + y).
Proof.
  split; [|split].
  - intros. destruct (gc_ok c d a b) as [x [H [H1 H2]]]. rewrite H. apply gc_iff.
    split; [assumption|]. rewrite dot_sym. assumption.
  - intros. rewrite gc_iff. split.
    + intros [_ H]. rewrite rad_0, cos_0 in H. apply dot_one_eq; auto using point_unit.
    + intros H. rewrite H. split; [lra|]. rewrite point_unit, rad_0, cos_0. reflexivity.
  - intros a b c d e f x y z Hx Hy Hz. apply gc_iff in Hx, Hy, Hz.
    eapply angle_triangle; [| | |exact Hx|exact Hy|exact Hz]; apply point_unit.
Qed.

(** the two directions to the same place have distance zero although the numbers differ *)
Example C38_metric_ex : great_circle_dist 90 0 90 77 = Ok 0 /\ great_circle_dist 10 (-170) 10 190 = Ok 0.
Proof.
  split; apply C38_metric.
  - unfold point. replace (rad 90) with (PI/2) by (unfold rad; field). rewrite cos_PI2, !Rmult_0_l. reflexivity.
  - replace 190 with (-170 + 360 * IZR 1) by (simpl; ring). rewrite point_shift. reflexivity.
Qed.

(** Shifting longitudes by full turns, or both by the same amount, changes nothing. *)
Theorem C38_shift :
  (forall a b c d j k, great_circle_dist a (b + 360 * IZR j) c (d + 360 * IZR k) = great_circle_dist a b c d) /\
  (forall a b c d e, great_circle_dist a (b + e) c (d + e) = great_circle_dist a b c d).
Proof.
  split; intros.
  - destruct (gc_ok a b c d) as [x [H H1]]. rewrite H. apply gc_iff. rewrite !point_shift. assumption.
  - destruct (gc_ok a b c d) as [x [H [H1 H2]]]. rewrite H. apply gc_iff. split; [assumption|].
    rewrite dot_turn. assumption.
Qed.

Example C38_shift_ex :
  great_circle_dist 20 (350 + 360 * IZR (-1)) 30 (10 + 360 * IZR 2) = great_circle_dist 20 350 30 10 /\
  great_circle_dist 20 (350 + 33) 30 (10 + 33) = great_circle_dist 20 350 30 10.
Proof. split; apply C38_shift. Qed.

(** A query by coordinates [event latitude, event longitude, station latitude, station longitude]
    is the query at the angle between event and station; an explicit distance wins; with a missing
    coordinate and no distance the query is refused. *)
Theorem C38_query : forall {T} {N : Num T} {L : Libm T} show fuel order w (t : tmodel T) depth pl,
  (forall eLat eLon sLat sLon rest d, great_circle_dist sLat sLon eLat eLon = Ok d ->
     get_travel_times show fuel order w t depth None pl (Some (Some eLat :: Some eLon :: Some sLat :: Some sLon :: rest))
     = get_travel_times show fuel order w t depth (Some d) pl None) /\
  (forall d c1 c2 c3 c4 rest,
     get_travel_times show fuel order w t depth (Some d) pl (Some (c1 :: c2 :: c3 :: c4 :: rest))
     = get_travel_times show fuel order w t depth (Some d) pl None) /\
  get_travel_times show fuel order w t depth None pl None = Raise ValueError /\
  (forall c1 c2 c3 c4 rest, c1 = None \/ c2 = None \/ c3 = None \/ c4 = None ->
     get_travel_times show fuel order w t depth None pl (Some (c1 :: c2 :: c3 :: c4 :: rest)) = Raise ValueError) /\
  (forall d c, (List.length c < 4)%nat ->
     get_travel_times show fuel order w t depth d pl (Some c) = Raise IndexError).
Proof.
  intros.
  assert (Q4 : forall c1 c2 c3 c4 (rest : list (option T)) d,
    query_degrees d (Some (c1 :: c2 :: c3 :: c4 :: rest))
    = match d with
      | Some d => Ok d
      | None => match c3, c4, c1, c2 with
                | Some sLat, Some sLon, Some eLat, Some eLon => great_circle_dist sLat sLon eLat eLon
                | _, _, _, _ => Raise ValueError
                end
      end).
  { intros. unfold query_degrees. change 0%Z with (Z.of_nat 0). change 1%Z with (Z.of_nat 1).
    change 2%Z with (Z.of_nat 2). change 3%Z with (Z.of_nat 3). rewrite !py_index_nat. reflexivity. }
  unfold get_travel_times, tt_run, tt_rerun. split; [|split; [|split; [|split]]].
  - intros. rewrite Q4, H. reflexivity.
  - intros. rewrite Q4. reflexivity.
  - reflexivity.
  - intros c1 c2 c3 c4 rest H. rewrite Q4. destruct c1, c2, c3, c4; try reflexivity.
    destruct H as [H|[H|[H|H]]]; discriminate.
  - intros d c H.
    assert (E : query_degrees d (Some c) = Raise IndexError).
    { unfold query_degrees. change 0%Z with (Z.of_nat 0). change 1%Z with (Z.of_nat 1).
      change 2%Z with (Z.of_nat 2). change 3%Z with (Z.of_nat 3). rewrite !py_index_nat.
      destruct c as [|? [|? [|? [|? ?]]]]; try reflexivity. simpl in H. lia. }
    rewrite E. reflexivity.
Qed.

(** north pole to equator, given as coordinates *)
Example C38_query_ex : forall show fuel order w t depth pl,
  get_travel_times show fuel order w t depth None pl (Some [Some 90; Some 12; Some 0; Some 45])
  = get_travel_times show fuel order w t depth (Some 90) pl None.
Proof.
  intros. apply C38_query. apply C38_angle. split; [lra|]. unfold dot, point.
  replace (rad 90) with (PI/2) by (unfold rad; field). replace (rad 0) with 0 by (unfold rad; field).
  rewrite cos_PI2, sin_0, sin_PI2. ring.
Qed.

Print Assumptions C38_angle.
Print Assumptions C38_metric.
Print Assumptions C38_shift.
Print Assumptions C38_query.

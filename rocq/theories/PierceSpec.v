(** Independent vocabulary for the pierce points of an arrival (property C35). *)
From Coq Require Import ZArith Bool List String Reals.
From Verif Require Import Base Num VelocityModel SlownessLayer SlownessModel TauModel SeismicPhase CurveSpec.
Import ListNotations.
Local Open Scope R_scope.

(** no diffracted, head or surface wave *)
Definition plain_name (name : string) : Prop := ~ diffracted name /\ ~ head_wave name /\ ~ contains "kmps" name.

(** the part [r] of the way from [x] to [y] *)
Definition mix (r x y : R) : R := (1 - r) * x + r * y.

Section Pierced.
  Variable t : tmodel R.
  (** the ray lies the part [r] of the way from sample [i] to sample [j] *)
  Variables (i j : Z) (r : R).

  (** distance and time of this ray after the legs [l] *)
  Definition reached (l : list seg) (d tm : R) : Prop :=
    exists d0 d1 t0 t1,
      legs_total t tb_dist i l d0 /\ legs_total t tb_dist j l d1 /\
      legs_total t tb_time i l t0 /\ legs_total t tb_time j l t1 /\
      d = mix r d0 d1 /\ tm = mix r t0 t1.

  (** the depth down to which a ray [p] gets in the branch [b]: its top if the ray cannot enter it, its
      bottom if the ray passes it, else the depth at which the ray turns.  In a fluid there are only P
      waves. *)
  Definition gets_to (b : tbranch R) (isP : bool) (p x : R) : Prop :=
    (tb_maxRP b < p /\ x = tb_top b) \/
    (p <= tb_maxRP b /\ p <= tb_minRP b /\ x = tb_bot b) \/
    (p <= tb_maxRP b /\ tb_minRP b < p /\
     exists w, findDepth_from_depths (tm_sMod t) p (tb_top b) (tb_bot b) w = Ok x /\
       (w = true <-> isP = true \/
        exists z, In z (sm_fluid (tm_sMod t)) /\ dr_top z <= (tb_top b + tb_bot b) / 2 < dr_bot z)).
  (** the depth at the end of a leg *)
  Definition leg_end (p : R) (s : seg) (z : R) : Prop :=
    exists b x, leg_branch t s b /\ gets_to b (sg_isP s) p x /\
      z = if sg_down s then Rmin (tb_bot b) x else Rmin (tb_top b) x.

  (** after the legs [done], the legs [todo] are passed with a point at the end of each leg that takes
      some time *)
  Inductive pierced (p : R) : list seg -> list seg -> list (timedist R) -> Prop :=
  | pi_end : forall done, pierced p done [] []
  | pi_point : forall done s l d tm d' tm' z pts,
      reached done d tm -> reached (done ++ [s]) d' tm' -> leg_end p s z ->
      / 10 ^ 10 < Rabs (tm' - tm) ->
      pierced p (done ++ [s]) l pts -> pierced p done (s :: l) (mkTD p tm' d' z :: pts)
  | pi_skip : forall done s l d tm d' tm' z pts,
      reached done d tm -> reached (done ++ [s]) d' tm' -> leg_end p s z ->
      Rabs (tm' - tm) <= / 10 ^ 10 ->
      pierced p (done ++ [s]) l pts -> pierced p done (s :: l) pts.
End Pierced.

(** the sample that a ray [p] lies on or after, not the last one *)
Definition ray_number (l : list R) (p : R) (i : Z) : Prop :=
  last_sample (removelast l) p i \/ (i = 0%Z /\ forall q, In q (removelast l) -> q < p).

(** time and distance of later points are not smaller *)
Definition never_back (l : list (timedist R)) : Prop :=
  forall m n x y, (m < n)%nat -> nth_error l m = Some x -> nth_error l n = Some y ->
    td_time x <= td_time y /\ td_dist x <= td_dist y.

(** head and diffracted waves: [n] legs along the boundary at depth [z], together [d] long and lasting
    [tm], are put in after the points at that depth; [k] of them so far *)
Inductive along (z d tm : R) (n : Z) : Z -> list (timedist R) -> list (timedist R) -> Prop :=
| al_nil : forall k, along z d tm n k [] []
| al_other : forall k x l l', td_depth x <> z -> along z d tm n k l l' ->
    along z d tm n k (x :: l)
      (mkTD (td_p x) (td_time x + IZR k * tm / IZR n) (td_dist x + IZR k * d / IZR n) (td_depth x) :: l')
| al_at : forall k x l l', td_depth x = z -> along z d tm n (k + 1) l l' ->
    along z d tm n k (x :: l)
      (mkTD (td_p x) (td_time x + IZR k * tm / IZR n) (td_dist x + IZR k * d / IZR n) (td_depth x) ::
       mkTD (td_p x) (td_time x + IZR (k + 1) * tm / IZR n) (td_dist x + IZR (k + 1) * d / IZR n) (td_depth x) :: l').

(** the arrival lies the part [q] of the way from sample [k] of its phase to the next one, and at the
    next one only if that is the last *)
Definition on_curve (ph : phase R) (a : arrival R) (k : nat) (q : R) : Prop :=
  exists p0 d0 t0 p1 d1 t1,
    nth_error (curve_of ph) k = Some (p0, d0, t0) /\ nth_error (curve_of ph) (S k) = Some (p1, d1, t1) /\
    ar_index a = Z.of_nat k /\ d0 <> d1 /\ 0 <= q <= 1 /\ (q = 1 -> S (S k) = List.length (curve_of ph)) /\
    ar_dist a = mix q d0 d1 /\ ar_time a = mix q t0 t1 /\ ar_rayParam a = mix q p0 p1.

(** the wave along a boundary that a name contains: head waves count first, P before S *)
Definition boundary_wave (name word : string) : Prop :=
  contains word name /\
  (word = "Pn" \/ (word = "Sn" /\ ~ contains "Pn" name) \/
   (word = "Pdiff" /\ ~ head_wave name) \/
   (word = "Sdiff" /\ ~ head_wave name /\ ~ contains "Pdiff" name))%string.
(** the depth of that boundary *)
Definition boundary_depth (t : tmodel R) (word : string) (z : R) : Prop :=
  ((word = "Pn" \/ word = "Sn") /\ z = tm_mohoDepth t \/
   (word = "Pdiff" \/ word = "Sdiff") /\ z = tm_cmbDepth t)%string.
(** the number of points at depth [z] *)
Fixpoint points_at (z : R) (l : list (timedist R)) : Z :=
  match l with
  | [] => 0
  | x :: l => ((if Req_EM_T (td_depth x) z then 1 else 0) + points_at z l)%Z
  end.

(** Independent vocabulary for the properties of phase curves (C33, C34): sums over the legs of a
    phase, sampled ray parameters and shadow zones. *)
From Coq Require Import ZArith Bool List String Reals.
From Verif Require Import Base Num SlownessLayer SlownessModel TauModel SeismicPhase.
Import ListNotations.
Local Open Scope list_scope.

(** element number [i]; negative numbers count from the end *)
Definition at_index {A : Type} (l : list A) (i : Z) (a : A) : Prop :=
  let n := Z.of_nat (List.length l) in
  ((0 <= i)%Z /\ nth_error l (Z.to_nat i) = Some a) \/
  ((- n <= i < 0)%Z /\ nth_error l (Z.to_nat (n + i)) = Some a).

(** the word [x] occurs in [name] *)
Definition contains (x name : string) : Prop := exists a b, name = (a ++ x ++ b)%string.
(** diffracted and head waves *)
Definition diffracted (name : string) : Prop := contains "Sdiff" name \/ contains "Pdiff" name.
Definition head_wave (name : string) : Prop := contains "Pn" name \/ contains "Sn" name.

Section Legs.
  Context {T : Type}.
  (** the branch that a leg passes *)
  Definition leg_branch (t : tmodel T) (s : seg) (b : tbranch T) : Prop :=
    at_index (if sg_isP s then tm_P t else tm_S t) (sg_branch s) b.

  (** two successive legs, the last one being followed by the first *)
  Definition successive (l : list seg) (a b : seg) : Prop :=
    (exists l1 l2, l = l1 ++ a :: b :: l2) \/ (exists l1 l2, l = l1 ++ [a] /\ l = b :: l2).
  (** a downgoing wave of this type crosses the top of branch [n] *)
  Definition goes_down_into (l : list seg) (n : Z) (isP : bool) : Prop :=
    exists a b, successive l a b /\
      sg_branch a = (n - 1)%Z /\ sg_isP a = isP /\ sg_down a = true /\
      sg_branch b = n /\ sg_isP b = isP /\ sg_down b = true.
End Legs.

Local Open Scope R_scope.

(** [y] = sum of sample [i] of [f] over all legs *)
Inductive legs_total (t : tmodel R) (f : tbranch R -> list R) (i : Z) : list seg -> R -> Prop :=
| lt_nil : legs_total t f i [] 0
| lt_cons : forall s l b x y, leg_branch t s b -> at_index (f b) i x -> legs_total t f i l y ->
    legs_total t f i (s :: l) (x + y).

(** the same over the legs in branches that start above depth [top] *)
Inductive legs_above (t : tmodel R) (f : tbranch R -> list R) (top : R) (i : Z) : list seg -> R -> Prop :=
| la_nil : legs_above t f top i [] 0
| la_cons : forall s l b x y, leg_branch t s b -> tb_top b < top -> at_index (f b) i x ->
    legs_above t f top i l y -> legs_above t f top i (s :: l) (x + y)
| la_skip : forall s l b y, leg_branch t s b -> top <= tb_top b ->
    legs_above t f top i l y -> legs_above t f top i (s :: l) y.

(** [i] is the last sample not below [p] *)
Definition last_sample (l : list R) (p : R) (i : Z) : Prop :=
  (0 <= i)%Z /\ (exists r, nth_error l (Z.to_nat i) = Some r /\ p <= r) /\
  forall j r, (Z.to_nat i < j)%nat -> nth_error l j = Some r -> r < p.

(** a point of the curve: ray parameter, distance, time *)
Definition point : Type := (R * R * R)%type.
Definition curve_of (ph : phase R) : list point :=
  combine (combine (ph_rayParams ph) (ph_dist ph)) (ph_time ph).

(** one point for each sample from [lo] to [hi], with the sums over the legs *)
Definition sampled_curve (t : tmodel R) (seq : list seg) (lo hi : Z) (c : list point) : Prop :=
  Z.of_nat (List.length c) = (hi - lo + 1)%Z /\
  forall k p d tm, nth_error c k = Some (p, d, tm) ->
    at_index (tm_rayParams t) (lo + Z.of_nat k) p /\
    legs_total t tb_dist (lo + Z.of_nat k) seq d /\
    legs_total t tb_time (lo + Z.of_nat k) seq tm.
(** a single sample [lo], entered twice with ray parameter [p] *)
Definition single_curve (t : tmodel R) (seq : list seg) (lo : Z) (p : R) (c : list point) : Prop :=
  exists d tm, c = [(p, d, tm); (p, d, tm)] /\
    legs_total t tb_dist lo seq d /\ legs_total t tb_time lo seq tm.

(** the effect on the curve of one high slowness zone: none, or a second point with the same ray
    parameter, in front of the first such one, made of the legs above the zone.  The samples used for
    it are those numbered [lo] + position - number of earlier insertions for this wave type. *)
Definition shadow (t : tmodel R) (seq : list seg) (lo : Z) (pmin pmax : R) (isP : bool)
  (z : drange R) (c : list point) (off : Z) (c' : list point) (off' : Z) : Prop :=
  (c' = c /\ off' = off /\
   ~ (pmin < dr_rayParam z < pmax /\
      exists n, findBranch t (dr_top z) = Ok n /\ goes_down_into seq n isP)) \/
  (pmin < dr_rayParam z < pmax /\
   (exists n, findBranch t (dr_top z) = Ok n /\ goes_down_into seq n isP) /\
   exists l1 d tm l2 d' tm',
     c = l1 ++ (dr_rayParam z, d, tm) :: l2 /\
     (forall p e u, In (p, e, u) l1 -> p <> dr_rayParam z) /\
     c' = l1 ++ (dr_rayParam z, d', tm') :: (dr_rayParam z, d, tm) :: l2 /\
     legs_above t tb_dist (dr_top z) (lo + Z.of_nat (List.length l1) - off) seq d' /\
     legs_above t tb_time (dr_top z) (lo + Z.of_nat (List.length l1) - off) seq tm' /\
     off' = (off + 1)%Z).

(** one zone after the other *)
Inductive shadows (t : tmodel R) (seq : list seg) (lo : Z) (pmin pmax : R) (isP : bool)
  : list (drange R) -> list point -> Z -> list point -> Z -> Prop :=
| sh_nil : forall c off, shadows t seq lo pmin pmax isP [] c off c off
| sh_cons : forall z zs c off c1 off1 c2 off2,
    shadow t seq lo pmin pmax isP z c off c1 off1 ->
    shadows t seq lo pmin pmax isP zs c1 off1 c2 off2 ->
    shadows t seq lo pmin pmax isP (z :: zs) c off c2 off2.

(** a point made of the legs above one of the zones [zs].  The samples used for it are [shift] samples
    after the one whose ray parameter is that of the zone. *)
Definition inserted (t : tmodel R) (seq : list seg) (pmin pmax : R) (zs : list (drange R)) (shift : Z)
  (x : point) : Prop :=
  exists z i d tm, In z zs /\ pmin < dr_rayParam z < pmax /\ at_index (tm_rayParams t) i (dr_rayParam z) /\
    x = (dr_rayParam z, d, tm) /\
    legs_above t tb_dist (dr_top z) (i + shift) seq d /\
    legs_above t tb_time (dr_top z) (i + shift) seq tm.

(** deeper zones have smaller ray parameters *)
Definition zones_fall (zs : list (drange R)) : Prop :=
  forall i j z z', (i < j)%nat -> nth_error zs i = Some z -> nth_error zs j = Some z' ->
    dr_rayParam z' < dr_rayParam z.

(** Specification of drawn ray paths and printed pierce points (properties C60 to C62). *)
From Coq Require Import ZArith Bool List String Ascii Reals.
From Verif Require Import Base Num PyStr VelocityModel SlownessLayer SlownessModel TauModel SeismicPhase
  TauSpec VelSpec TimeSpec PierceSpec PrintSpec.
Import ListNotations.
Local Open Scope list_scope.
Local Open Scope R_scope.

(** ** drawing a path *)

(** a point of a drawing: time, distance in degrees, depth *)
Definition dot : Type := (R * R * R)%type.
Definition dot_time (x : dot) : R := fst (fst x).
Definition dot_dist (x : dot) : R := snd (fst x).
Definition dot_depth (x : dot) : R := snd x.
Definition degrees_of (x : timedist R) : R := td_dist x * (180 / PI).
(** a given point of a path *)
Definition dot_at (x : timedist R) : dot := (td_time x, degrees_of x, td_depth x).
(** the point that divides the straight line from [x] to [y] in the ratio [u] to 1 - [u] *)
Definition dot_between (x y : timedist R) (u : R) : dot :=
  (td_time x + u * (td_time y - td_time x),
   degrees_of x + u * (degrees_of y - degrees_of x),
   td_depth x + u * (td_depth y - td_depth x)).

(** [n] is the smallest number of equal pieces, each at most [inc] degrees long, that the line from
    [x] to [y] can be cut into; a vertical ray is not cut *)
Definition pieces (inc p : R) (x y : timedist R) (n : nat) : Prop :=
  (1 <= n)%nat /\
  (p = 0 -> n = 1%nat) /\
  (p <> 0 -> degrees_of y - degrees_of x <= INR n * inc /\
             forall k, (1 <= k)%nat -> degrees_of y - degrees_of x <= INR k * inc -> (n <= k)%nat).
(** the points at which it is cut *)
Definition cuts (x y : timedist R) (n : nat) : list dot :=
  map (fun k => dot_between x y (INR k / INR n)) (seq 1 (n - 1)).

(** What is drawn of a path up to the time [tmax]: all its points and, between them, more points so
    that the pieces are short enough; if the path goes on after [tmax], it ends with the point at that
    time. *)
Inductive drawn (tmax inc p : R) : list (timedist R) -> list dot -> Prop :=
| drawn_nothing : drawn tmax inc p [] []
| drawn_late : forall x l, tmax < td_time x -> drawn tmax inc p (x :: l) []
| drawn_stop : forall x l, td_time x = tmax -> drawn tmax inc p (x :: l) [dot_at x]
| drawn_last : forall x, td_time x < tmax -> drawn tmax inc p [x] [dot_at x]
| drawn_on : forall x y l n rest, td_time x < tmax -> td_time y <= tmax -> pieces inc p x y n ->
    drawn tmax inc p (y :: l) rest -> drawn tmax inc p (x :: y :: l) (dot_at x :: cuts x y n ++ rest)
| drawn_cut : forall x y l n here beyond u, td_time x < tmax -> tmax < td_time y -> pieces inc p x y n ->
    cuts x y n = here ++ beyond ->
    (forall q, In q here -> dot_time q <= tmax) -> (forall q, In q beyond -> tmax < dot_time q) ->
    dot_time (dot_between x y u) = tmax ->
    drawn tmax inc p (x :: y :: l) (dot_at x :: here ++ [dot_between x y u]).

(** [q] lies on the path through the points [l] *)
Definition on_path (l : list (timedist R)) (q : dot) : Prop :=
  (exists x, In x l /\ q = dot_at x) \/
  (exists i x y u, nth_error l i = Some x /\ nth_error l (S i) = Some y /\ 0 <= u <= 1 /\ q = dot_between x y u).

(** consecutive elements of a list *)
Definition next_to {A : Type} (l : list A) (x y : A) : Prop := exists l1 l2, l = l1 ++ x :: y :: l2.
(** the last element *)
Definition ends_with {A : Type} (l : list A) (x : A) : Prop := exists l0, l = l0 ++ [x].

(** The line that shows a point: distance, and radius of the point in a sphere of radius [r]; distances
    are negative for rays that come the long way round. *)
Definition dot_line (r : R) (long : Prop) (q : dot) (s : string) : Prop :=
  exists x wd wr, (long -> x = - dot_dist q) /\ (~ long -> x = dot_dist q) /\
    shows 2 x wd /\ shows 1 (r - dot_depth q) wr /\ words s [wd; wr] /\
    starts_at s 0 wd /\ ends_at s (String.length wd + 2 + Nat.max 4 (String.length wr)) wr.

(** the distance of an arrival in degrees, full turns left out, is more than half a turn *)
Definition long_way (a : arrival R) : Prop :=
  exists k : Z, 180 < ar_dist a * (180 / PI) - 360 * IZR k < 360.

(** The line above the points of an arrival *)
Definition heading (show : R -> string) (modelName : string) (a : arrival R) (s : string) : Prop :=
  exists wn wt wd wp,
    (ar_name a = ar_purist a -> wn = ar_name a) /\
    (ar_name a <> ar_purist a -> wn = (ar_name a ++ "(" ++ ar_purist a ++ ")")%string) /\
    shows 2 (ar_time a) wt /\ shows 2 (ar_dist a * (180 / PI)) wd /\ shows 3 (ar_rayParam a * (PI / 180)) wp /\
    s = ("> " ++ wn ++ " at  " ++ wt ++ " seconds at  " ++ wd ++ " degrees for a  " ++ show (ar_sourceDepth a)
         ++ " km deep source in the  " ++ modelName ++ " model with rayParam " ++ wp ++ " s/deg.")%string.

(** ** printing pierce points *)

(** The line that shows a pierce point: distance (negative for rays that come the long way round), depth
    and time.  Numbers of ordinary size end at fixed columns. *)
Definition pierce_row (long : Prop) (x : timedist R) (s : string) : Prop :=
  exists dd wd wz wt, (long -> dd = - degrees_of x) /\ (~ long -> dd = degrees_of x) /\
    shows 2 dd wd /\ shows 1 (td_depth x) wz /\ shows 1 (td_time x) wt /\ words s [wd; wz; wt] /\
    ((String.length wd <= 7)%nat -> (String.length wz <= 7)%nat -> (String.length wt <= 7)%nat ->
     ends_at s 7 wd /\ ends_at s 15 wz /\ ends_at s 23 wt /\ String.length s = 23%nat).

(** which points are wanted *)
Record wanted := mkWanted { want_turn : Prop; want_rev : Prop; want_under : Prop; want_add : Prop; want_depths : list R }.
(** Point number [j] at depth [z], with the next point at depth [nz], is shown for a ray whose first point
    is at depth [first].  (All comparisons are with the first point, not with the one before.) *)
Definition shown (v : wanted) (first : R) (j : nat) (z nz : R) : Prop :=
  (~ want_turn v /\ ~ want_rev v /\ ~ want_under v /\ ~ want_add v) \/
  (want_add v /\ In z (want_depths v)) \/
  (want_rev v /\ (first < z /\ nz < z \/ z < first /\ z < nz)) \/
  (want_turn v /\ j <> 0%nat /\ first <= z /\ nz <= z) \/
  (want_under v /\ z <= first /\ z <= nz).

(** [lines] are the lines for those points of [l] that are to be shown, in order; the next point after the
    last one is that point itself *)
Inductive rows (sel : nat -> R -> R -> Prop) (row : timedist R -> string -> Prop) : nat -> list (timedist R) -> list string -> Prop :=
| rows_nil : forall j, rows sel row j [] []
| rows_show : forall j x l s lines nz,
    nz = match l with y :: _ => td_depth y | [] => td_depth x end ->
    sel j (td_depth x) nz -> row x s -> rows sel row (S j) l lines -> rows sel row j (x :: l) (s :: lines)
| rows_skip : forall j x l lines nz,
    nz = match l with y :: _ => td_depth y | [] => td_depth x end ->
    ~ sel j (td_depth x) nz -> rows sel row (S j) l lines -> rows sel row j (x :: l) lines.

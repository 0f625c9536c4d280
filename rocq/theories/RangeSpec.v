(** Which rays belong to a standard phase name (property C55): every leg puts a bound on the ray parameter.  Independent of the code
    that builds phases; the legs are those of RouteSpec.v. *)
From Coq Require Import ZArith Bool List Ascii String.
From Verif Require Import Base Num TauModel NameSpec RouteSpec.
Import ListNotations.
Local Open Scope string_scope.
Local Open Scope list_scope.

(** Three ray parameters belong to branch [i] for wave type [w]: [Top], above which no ray comes down to its top; [Turn], above which rays
    turn within it or above; [Through], above which no ray leaves it through its bottom. *)
Inductive limit := Top | Turn | Through.
Inductive bound :=
| AtMost (k : limit) (i : Z) (w : bool)
| AtLeast (k : limit) (i : Z) (w : bool)
| Exactly (k : limit) (i : Z) (w : bool)
| Never.

(** how the ray came to the boundary where the next leg starts: bounced at the top of branch [i], reflected at its bottom, passed
    through its top or through its bottom, as a wave of type [w] *)
Inductive how := Bounced | Reflected | Upwards | Downwards.
Inductive place := Source | From (h : how) (i : Z) (w : bool).

(** a change of the wave type needs a ray of both types at the boundary *)
Definition conversion (a : place) (w : bool) : list bound :=
  match a with
  | Source => []
  | From h i w' =>
      if Bool.eqb w' w then []
      else match h with
           | Bounced => [AtMost Top i w'; AtMost Top i w]
           | Reflected => [AtMost Turn i w'; AtMost Turn i w]
           | Upwards => [AtMost Top i w'; AtMost Turn (i - 1) w]
           | Downwards => [AtMost Through i w'; AtMost Top (i + 1) w]
           end
  end.

Section Bounds.
  Variables source moho cmb iocb n : Z.

  Inductive inner_b : place -> list string -> bool -> list bound -> Prop :=
  | ib_one : forall a x w, inner_leg x w ->
      inner_b a [x] w (conversion a w ++ [AtLeast Turn (n - 1) w; AtMost Top iocb w])
  | ib_more : forall a x w l w' bs, inner_leg x w -> inner_b (From Bounced iocb w) l w' bs ->
      inner_b a (x :: l) w' (conversion a w ++ [AtLeast Turn (n - 1) w; AtMost Top iocb w] ++ bs).

  Inductive bounce_b (w : bool) : list string -> bool -> list bound -> Prop :=
  | bb_turn : bounce_b w ["K"] w [AtLeast Turn (iocb - 1) w; AtMost Top cmb w]
  | bb_reflect : bounce_b w ["K"; "i"; "K"] w [AtMost Turn (iocb - 1) w; AtMost Top cmb w]
  | bb_inner : forall l w' bs, inner_b (From Downwards (iocb - 1) w) l w' bs ->
      bounce_b w ("K" :: l ++ ["K"]) w' ([AtMost Through (iocb - 1) w] ++ bs ++ [AtMost Top cmb w']).
  Inductive core_b : bool -> list string -> bool -> list bound -> Prop :=
  | cb_one : forall w l w' bs, bounce_b w l w' bs -> core_b w l w' bs
  | cb_more : forall w l w1 bs l' w2 bs', bounce_b w l w1 bs -> core_b w1 l' w2 bs' -> core_b w (l ++ l') w2 (bs ++ bs').

  (** from branch [start] down and back to the surface; the boolean is the type of the last leg *)
  Inductive ray_b (start : Z) (a : place) : list string -> bool -> list bound -> Prop :=
  | rb_turn : forall x w, mantle_leg x w ->
      ray_b start a [x] w (conversion a w ++ [AtLeast Turn (cmb - 1) w; AtMost Top 0 w])
  | rb_reflect : forall x w y v, mantle_leg x w -> mantle_leg y v ->
      ray_b start a [x; "c"; y] v
        (conversion a w ++ [AtMost Turn (cmb - 1) w] ++ conversion (From Reflected (cmb - 1) w) v ++ [AtMost Top 0 v])
  | rb_core : forall x w l w' bs y v, mantle_leg x w -> core_b w l w' bs -> mantle_leg y v ->
      ray_b start a (x :: l ++ [y]) v
        (conversion a w ++ [AtMost Through (cmb - 1) w] ++ bs ++ conversion (From Upwards cmb w') v ++ [AtMost Top 0 v])
  | rb_moho : forall x w, mantle_leg x w ->
      ray_b start a [(x ++ "n")%string] w
        (conversion a w ++ (if (start <? moho)%Z then [Exactly Top moho w] else [Never]) ++ [AtMost Top 0 w]).
  Inductive slow_b (start : Z) (a : place) : list string -> bool -> list bound -> Prop :=
  | sb_diff : forall x w, mantle_leg x w ->
      slow_b start a [(x ++ "diff")%string] w (conversion a w ++ [Exactly Turn (cmb - 1) w] ++ [AtMost Top 0 w])
  | sb_crust : forall x w, mantle_leg x w ->
      slow_b start a [(x ++ "g")%string] w
        (conversion a w ++ (if (start <? moho)%Z then [AtLeast Turn (moho - 1) w] else [Never]) ++ [AtMost Top 0 w]).

  Inductive rays_b : Z -> place -> list string -> list bound -> Prop :=
  | rsb_one : forall start a l v bs, ray_b start a l v bs -> rays_b start a l bs
  | rsb_more : forall start a l v bs l' bs', ray_b start a l v bs -> rays_b 0 (From Bounced 0 v) l' bs' ->
      rays_b start a (l ++ l') (bs ++ bs').
  Inductive all_b : Z -> place -> list string -> list bound -> Prop :=
  | alb_plain : forall start a l bs, rays_b start a l bs -> all_b start a l bs
  | alb_one : forall start a l v bs, slow_b start a l v bs -> all_b start a l bs
  | alb_more : forall start a l v bs l' bs', slow_b start a l v bs -> all_b 0 (From Bounced 0 v) l' bs' ->
      all_b start a (l ++ l') (bs ++ bs').

  (** a ray up from the source needs a branch above it *)
  Definition up_bounds (w : bool) : list bound := (if (source =? 0)%Z then [Never] else []) ++ [AtMost Top 0 w].
  (** the boolean is the type of the first leg *)
  Inductive bounds : list string -> bool -> list bound -> Prop :=
  | bd_down : forall l w bs, all_b source Source l bs ->
      (exists c x r, l = String c x :: r /\ (c = "P"%char /\ w = true \/ c = "S"%char /\ w = false)) -> bounds l w bs
  | bd_up : forall x w, up_leg x w -> bounds [x] w (up_bounds w)
  | bd_depth : forall x w l bs, up_leg x w -> all_b 0 (From Bounced 0 w) l bs -> bounds (x :: l) w (up_bounds w ++ bs).
End Bounds.

(** ** What the bounds say about a ray parameter in a model *)
Section Values.
  Context {T : Type} {N : Num T}.
  Variable t : tmodel T.
  Definition limit_of (k : limit) (b : tbranch T) : T :=
    match k with Top => tb_maxRP b | Turn => tb_minTurnRP b | Through => tb_minRP b end.
  Definition branch_at (i : Z) (w : bool) : option (tbranch T) := nth_error (if w then tm_P t else tm_S t) (Z.to_nat i).
  Definition meets (p : T) (c : bound) : Prop :=
    match c with
    | AtMost k i w => exists b, branch_at i w = Some b /\ n_leb p (limit_of k b) = true
    | AtLeast k i w => exists b, branch_at i w = Some b /\ n_leb (limit_of k b) p = true
    | Exactly k i w => exists b, branch_at i w = Some b /\ n_eqb p (limit_of k b) = true
    | Never => False
    end.
  (** rays that leave the source: down into its branch, or down to it from the branch above *)
  Definition leaves (w : bool) (p : T) : Prop :=
    meets p (AtMost Top (tm_sourceBranch t) w) \/
    ((0 < tm_sourceBranch t)%Z /\ meets p (AtMost Turn (tm_sourceBranch t - 1) w)).
End Values.

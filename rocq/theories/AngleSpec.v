(** Independent vocabulary for takeoff and incidence angles (property C37). *)
From Coq Require Import ZArith Bool List String Ascii Reals.
From Verif Require Import Base Num VelocityModel SlownessLayer SlownessModel TauModel SeismicPhase NameSpec VelSpec TimeSpec.
Import ListNotations.
Local Open Scope R_scope.

(** [v] is the speed of the wave at depth [z], just below or just above this depth *)
Definition speed (m : vmodel R) (below : bool) (wave : string) (z v : R) : Prop :=
  exists l tv bv, In l (vm_layers m) /\
    (if below then vl_topDepth l <= z < vl_botDepth l else vl_topDepth l < z <= vl_botDepth l) /\
    values l wave tv bv /\ v = line (vl_topDepth l) tv (vl_botDepth l) bv z.

(** Snell's law on a sphere of radius [r]: a ray of parameter [p] makes the angle [ang] (in degrees) with the
    vertical where the speed is [v] *)
Definition snell (ang v p r : R) : Prop := -90 <= ang <= 90 /\ sin (rad ang) * r = v * p.

(** the angles at source and receiver of a ray [p] of a phase *)
Definition angles_of (ph : phase R) (p takeoff incident : R) : Prop :=
  let m := sm_vMod (tm_sMod (ph_tMod ph)) in
  let radius := tm_radius (ph_tMod ph) in
  exists c rest first later before leg lst lc lrest v w,
    (* leaving the source: first letter of the name, direction of the first leg *)
    ph_name ph = String c rest /\ ph_seq ph = first :: later /\
    speed m (sg_down first) (String c "") (ph_sourceDepth ph) v /\
    snell takeoff (if sg_down first then v else - v) p (radius - ph_sourceDepth ph) /\
    (* arriving at the surface: first letter of the last leg (there is an end mark after it) *)
    ph_legs ph = (before ++ [leg; lst])%list /\ leg = String lc lrest /\
    speed m true (String lc "") 0 w /\ snell incident w p radius.

(** what the first letter of a leg tells: downgoing?, compressional? *)
Inductive letter : ascii -> bool -> bool -> Prop :=
| le_P : letter "P" true true | le_S : letter "S" true false
| le_p : letter "p" false true | le_s : letter "s" false false.
Definition wave_name (isP : bool) : string := if isP then "P" else "S".

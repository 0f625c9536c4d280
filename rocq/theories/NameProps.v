(** Properties C01-C04 and C42: phase names and phase lists. *)
From Coq Require Import ZArith Bool List String Ascii Permutation Lia.
From Verif Require Import Base Num PyStr VelocityModel SlownessLayer SlownessModel TauModel Legs
  SeismicPhase Pierce TauPTime NameSpec NameProofs NamePhaseProofs Toy.
Import ListNotations.
Local Open Scope string_scope.

(** ** C01 *)
Theorem C01_tokenize_exact : forall name legs,
  legPuller name = Ok legs <->
  (is_kmps name /\ legs = [name; "END"])
  \/ (~ is_kmps name /\ exists l, Tokens name l /\ legs = (l ++ ["END"])%list).
Proof. exact legPuller_iff. Qed.
Theorem C01_tokenize_total : forall name,
  (exists legs, legPuller name = Ok legs) \/ legPuller name = Raise TauModelError.
Proof. exact legPuller_total. Qed.
Theorem C01_tokenize_lossless : forall name legs, legPuller name = Ok legs ->
  exists l, legs = (l ++ ["END"])%list /\ join l = name /\ ~ In "" l /\ ~ In "END" l.
Proof. exact legPuller_shape. Qed.
Example C01_ex : legPuller "SKiKPdiffPnc" = Ok ["S"; "K"; "i"; "K"; "Pdiff"; "Pn"; "c"; "END"].
Proof. reflexivity. Qed.
Example C01_ex_kmps : legPuller "3.5kmps" = Ok ["3.5kmps"; "END"].
Proof. reflexivity. Qed.
Example C01_ex_bad : legPuller "Px" = Raise TauModelError.
Proof. reflexivity. Qed.

(** ** C02: no leg of an accepted name holds '^' or 'v' followed by a number; a digit is
    always a leg of its own (or the first letter of a leg ending in g, b or n). *)
Theorem C02_leg_shapes : forall name legs, legPuller name = Ok legs -> ~ is_kmps name ->
  forall x, In x legs -> x <> "END" ->
  (exists c, x = String c "")
  \/ (exists c d, ~ In c simple_chars /\ In d second_chars /\ x = String c (String d ""))
  \/ x = "Sdiff" \/ x = "Pdiff".
Proof. exact leg_shapes. Qed.
Theorem C02_documented_split_refuted :
  legPuller "p^410P" <> Ok ["p"; "^410"; "P"; "END"] /\
  forall name legs c a b, legPuller name = Ok legs -> ~ is_kmps name ->
    In a number_chars -> ~ In (String c (String a b)) legs.
Proof. split; [discriminate|exact no_depth_leg]. Qed.
Example C02_ex : legPuller "p^410P" = Ok ["p"; "^"; "4"; "1"; "0"; "P"; "END"].
Proof. reflexivity. Qed.

(** ** C03: '^' and 'v' in a name *)
Theorem C03_reflection_names_raise :
  forall {T} {N : Num T} {L : Libm T} (show : T -> string) w t tid name c,
  ~ is_kmps name -> c = "^"%char \/ c = "v"%char -> has_char c name ->
  ((exists l, Tokens name l) ->
     newPhase show w t tid name = Raise IndexError \/ newPhase show w t tid name = Raise ValueError)
  /\ ((forall l, ~ Tokens name l) -> newPhase show w t tid name = Raise TauModelError).
Proof. exact @caret_raises. Qed.
Theorem C03_error_escapes :
  forall {T} {N : Num T} {L : Libm T} (show : T -> string) fuel order w t depth deg names coords
         name c l r,
  set_order_ok order -> In name names ->
  ~ is_kmps name -> c = "^"%char \/ c = "v"%char -> has_char c name -> Tokens name l ->
  get_travel_times show fuel order w t depth deg (Some names) coords <> Ok r.
Proof. exact @caret_escapes. Qed.
Example C03_ex_tokens : Tokens "P^410P" ["P"; "^"; "4"; "1"; "0"; "P"].
Proof. apply leg_go_iff. reflexivity. Qed.
Example C03_ex_has : has_char "^" "P^410P" /\ ~ is_kmps "P^410P".
Proof. split; [exists "P", "410P"; reflexivity|rewrite <- is_kmps_iff; discriminate]. Qed.
(** the same query returns without the name and fails with it *)
Example C03_ex_without : toy_query ["P"] 100 40 = Ok [("P", 484%Z)].
Proof. vm_compute. reflexivity. Qed.
Example C03_ex_with : toy_query ["P"; "P^410P"] 100 40 = Raise IndexError.
Proof. vm_compute. reflexivity. Qed.
Example C03_ex_value : toy_query ["P^gP"] 100 40 = Raise ValueError.
Proof. vm_compute. reflexivity. Qed.
Example C03_ex_skipped : toy_query ["P"; "P^x"] 100 40 = Ok [("P", 484%Z)].
Proof. vm_compute. reflexivity. Qed.

(** ** C04 *)
Theorem C04_phase_list_exact : forall order, set_order_ok order -> forall l,
  NoDup (parsePhaseList order l) /\
  forall x, In x (parsePhaseList order l) <-> exists n, In n l /\ stands_for n x.
Proof. exact parsePhaseList_spec. Qed.
Theorem C04_phase_list_as_set : forall o1 o2 l1 l2, set_order_ok o1 -> set_order_ok o2 ->
  (forall x, In x l1 <-> In x l2) -> Permutation (parsePhaseList o1 l1) (parsePhaseList o2 l2).
Proof. exact parsePhaseList_set. Qed.
Theorem C04_groups_nested : forall order, set_order_ok order ->
  let ph a := parsePhaseList order [a] in
  incl (ph "ttp") (ph "ttp+") /\ incl (ph "ttp+") (ph "ttbasic") /\
  incl (ph "tts") (ph "tts+") /\ incl (ph "tts+") (ph "ttbasic") /\
  incl (ph "ttbasic") (ph "ttall").
Proof. exact groups_nested. Qed.
Example C04_ex_order : set_order_ok (nodup string_dec).
Proof. intros l. split; [apply NoDup_nodup|apply nodup_In]. Qed.
Example C04_ex : Permutation (parsePhaseList (nodup string_dec) ["TTp"; "PcS"; "P"; "Ttp"])
       ["PcS"; "p"; "P"; "Pn"; "Pdiff"; "PKP"; "PKiKP"; "PKIKP"].
Proof.
  apply NoDup_Permutation.
  - apply NoDup_nodup.
  - repeat (constructor; [simpl; intuition discriminate|]). constructor.
  - intros x. vm_compute. intuition.
Qed.
Example C04_ex_words : same_word "TtAll" "ttall" /\ ~ same_word "ttal" "ttall".
Proof.
  split; [apply str_lower_same; [repeat constructor; simpl; lia|reflexivity]|].
  intros H. inversion H; subst. inversion H5; subst. inversion H7; subst. inversion H9; subst. inversion H11.
Qed.

(** ** C42: surface wave names *)
Theorem C42_kmps_construction_raises :
  forall {T} {N : Num T} {L : Libm T} (show : T -> string) w t tid name, is_kmps name ->
  newPhase show w t tid name = Raise TypeError.
Proof. exact @newPhase_kmps. Qed.
Theorem C42_kmps_no_result :
  forall {T} {N : Num T} {L : Libm T} (show : T -> string) fuel order w t depth deg names coords
         name r,
  set_order_ok order -> In name names -> is_kmps name ->
  get_travel_times show fuel order w t depth deg (Some names) coords <> Ok r.
Proof. exact @kmps_escapes. Qed.
Example C42_ex : is_kmps "3.5kmps".
Proof. exists "3.5". reflexivity. Qed.
Example C42_ex_query : toy_query ["P"; "3.5kmps"] 100 40 = Raise TypeError.
Proof. vm_compute. reflexivity. Qed.

Print Assumptions C01_tokenize_exact.
Print Assumptions C01_tokenize_total.
Print Assumptions C01_tokenize_lossless.
Print Assumptions C02_leg_shapes.
Print Assumptions C02_documented_split_refuted.
Print Assumptions C03_reflection_names_raise.
Print Assumptions C03_error_escapes.
Print Assumptions C04_phase_list_exact.
Print Assumptions C04_phase_list_as_set.
Print Assumptions C04_groups_nested.
Print Assumptions C42_kmps_construction_raises.
Print Assumptions C42_kmps_no_result.

(** Properties C10-C14: velocity models. *)
From Coq Require Import ZArith Bool List String Ascii Reals Lia Lra.
From Verif Require Import Base Num PyStr VelocityModel NameSpec VelSpec VelProofs Toy.
Import ListNotations.
Local Open Scope num_scope.

(** ** C10: layer lookup, for every arithmetic with a total order on non-NaN numbers
    (exact reals and IEEE doubles, see [NumOrd_R] and [NumOrd_B64]) *)
Theorem C10_layer_below_iff : forall {T} {N : Num T} {O : NumOrd T} (m : vmodel T) x i,
  contiguous (vm_layers m) -> thick (vm_layers m) ->
  (v_layerNumberBelow m x = Ok i <->
   exists l, nth_layer (vm_layers m) i l /\ vl_topDepth l <=? x = true /\ x <? vl_botDepth l = true).
Proof. exact @below_iff. Qed.
Theorem C10_layer_above_iff : forall {T} {N : Num T} {O : NumOrd T} (m : vmodel T) x i,
  contiguous (vm_layers m) -> thick (vm_layers m) ->
  (v_layerNumberAbove m x = Ok i <->
   exists l, nth_layer (vm_layers m) i l /\ vl_topDepth l <? x = true /\ x <=? vl_botDepth l = true).
Proof. exact @above_iff. Qed.
Theorem C10_below_defined : forall {T} {N : Num T} {O : NumOrd T} (m : vmodel T) f ls x,
  vm_layers m = f :: ls -> contiguous (vm_layers m) -> thick (vm_layers m) ->
  ((exists i, v_layerNumberBelow m x = Ok i) <->
   vl_topDepth f <=? x = true /\ x <? vl_botDepth (last ls f) = true).
Proof. exact @below_defined. Qed.
Theorem C10_above_defined : forall {T} {N : Num T} {O : NumOrd T} (m : vmodel T) f ls x,
  vm_layers m = f :: ls -> contiguous (vm_layers m) -> thick (vm_layers m) ->
  ((exists i, v_layerNumberAbove m x = Ok i) <->
   vl_topDepth f <? x = true /\ x <=? vl_botDepth (last ls f) = true).
Proof. exact @above_defined. Qed.
Theorem C10_otherwise_raises : forall {T} {N : Num T} (m : vmodel T) x,
  ((exists i, v_layerNumberBelow m x = Ok i) \/ v_layerNumberBelow m x = Raise TauPException) /\
  ((exists i, v_layerNumberAbove m x = Ok i) \/ v_layerNumberAbove m x = Raise TauPException).
Proof. exact @lookup_total. Qed.
Theorem C10_on_boundary : forall {T} {N : Num T} {O : NumOrd T} (m : vmodel T) i a b x,
  contiguous (vm_layers m) -> thick (vm_layers m) ->
  nth_layer (vm_layers m) i a -> nth_layer (vm_layers m) (i + 1) b -> x =? vl_botDepth a = true ->
  v_layerNumberAbove m x = Ok i /\ v_layerNumberBelow m x = Ok (i + 1)%Z.
Proof. exact @lookup_boundary. Qed.
Example C10_ex : contiguous (vm_layers toy_vm) /\ thick (vm_layers toy_vm).
Proof.
  split.
  - unfold toy_vm; cbn [vm_layers].
    repeat (apply contiguous_cons; split; [reflexivity|]).
    intros i a b Ha Hb. apply nth_layer_cons in Hb. destruct Hb as [[Hb _]|[_ Hb]].
    + destruct Ha as [Ha _]. lia.
    + destruct (nth_layer_nil _ _ Hb).
  - intros l H. simpl in H. decompose [or] H; subst; try reflexivity. contradiction.
Qed.
Example C10_ex_values :
  v_layerNumberBelow toy_vm (d 2889 0) = Ok 2%Z /\ v_layerNumberAbove toy_vm (d 2889 0) = Ok 1%Z /\
  v_layerNumberBelow toy_vm (d 6371 0) = Raise TauPException /\
  v_layerNumberAbove toy_vm (d 0 0) = Raise TauPException.
Proof. repeat split; reflexivity. Qed.

(** ** C11: evaluation, exact reals *)
Theorem C11_below_is_line : forall (m : vmodel R) x prop v,
  contiguous (vm_layers m) -> thick (vm_layers m) ->
  (evaluateBelow m x prop = Ok v <->
   exists i l tv bv, nth_layer (vm_layers m) i l /\ (vl_topDepth l <= x < vl_botDepth l)%R /\
     values l prop tv bv /\ v = line (vl_topDepth l) tv (vl_botDepth l) bv x).
Proof. exact evaluateBelow_iff. Qed.
Theorem C11_above_is_line : forall (m : vmodel R) x prop v,
  contiguous (vm_layers m) -> thick (vm_layers m) ->
  (evaluateAbove m x prop = Ok v <->
   exists i l tv bv, nth_layer (vm_layers m) i l /\ (vl_topDepth l < x <= vl_botDepth l)%R /\
     values l prop tv bv /\ v = line (vl_topDepth l) tv (vl_botDepth l) bv x).
Proof. exact evaluateAbove_iff. Qed.
Theorem C11_line_between_and_at_ends : forall x0 y0 x1 y1 x, (x0 < x1)%R ->
  ((x0 <= x <= x1)%R -> (Rmin y0 y1 <= line x0 y0 x1 y1 x <= Rmax y0 y1)%R) /\
  line x0 y0 x1 y1 x0 = y0 /\ line x0 y0 x1 y1 x1 = y1.
Proof. intros. split; [apply line_between; assumption|apply line_ends; assumption]. Qed.
Theorem C11_sides_agree : forall (m : vmodel R) x prop v w,
  contiguous (vm_layers m) -> thick (vm_layers m) ->
  (forall i a b ta ba tb bb, nth_layer (vm_layers m) i a -> nth_layer (vm_layers m) (i + 1) b ->
     vl_botDepth a = x -> values a prop ta ba -> values b prop tb bb -> ba = tb) ->
  evaluateAbove m x prop = Ok v -> evaluateBelow m x prop = Ok w -> v = w.
Proof. exact evaluate_agree. Qed.
Theorem C11_otherwise_raises : forall (m : vmodel R) x prop,
  contiguous (vm_layers m) -> thick (vm_layers m) ->
  ((exists v, evaluateBelow m x prop = Ok v) \/ evaluateBelow m x prop = Raise TauPException) /\
  ((exists v, evaluateAbove m x prop = Ok v) \/ evaluateAbove m x prop = Raise TauPException).
Proof. exact evaluate_errors. Qed.
Theorem C11_known_properties : forall {T} (l : vlayer T) prop,
  known_property prop <-> exists tv bv, values l prop tv bv.
Proof. exact @known_iff. Qed.
Theorem C11_layer_ends : forall {T} {N : Num T} (l : vlayer T) prop v,
  (evaluateAtTop l prop = Ok v <-> exists bv, values l prop v bv) /\
  (evaluateAtBottom l prop = Ok v <-> exists tv, values l prop tv v).
Proof. intros. split; [apply evaluateAtTop_iff|apply evaluateAtBottom_iff]. Qed.
(** two layers: P rises from 5 to 6 on 0-10 km and from 8 to 9 on 10-30 km *)
Definition two_layers : vmodel R :=
  mkVModel "two" 30%R 10%R 20%R 25%R 0%R 30%R true
    [mkVLayer 0 0 10 5 6 3 3 2 2; mkVLayer 1 10 30 8 9 4 4 3 3]%R.
Example C11_ex_hyps : contiguous (vm_layers two_layers) /\ thick (vm_layers two_layers).
Proof.
  split.
  - apply contiguous_cons. split; [apply Reqb_true; reflexivity|].
    intros i a b Ha Hb. apply nth_layer_cons in Hb. destruct Hb as [[Hb _]|[_ Hb]].
    + destruct Ha as [Ha _]. lia.
    + destruct (nth_layer_nil _ _ Hb).
  - intros l H. simpl in H. destruct H as [<-|[<-|[]]]; apply Rltb_true; simpl; lra.
Qed.
Example C11_ex_values : evaluateAbove two_layers 10%R "P" = Ok 6%R /\ evaluateBelow two_layers 10%R "p" = Ok 8%R
  /\ evaluateBelow two_layers 20%R "p" = Ok (17 / 2)%R.
Proof.
  destruct C11_ex_hyps as [Hc Ht].
  assert (Vp : forall l : vlayer R, values l "p" (vl_topP l) (vl_botP l)).
  { intros l. left. split; [|auto]. constructor; [left; reflexivity|constructor]. }
  split; [|split].
  - apply C11_above_is_line; [assumption|assumption|].
    exists 0%Z, (mkVLayer 0 0 10 5 6 3 3 2 2)%R, 5%R, 6%R. split; [split; [lia|reflexivity]|].
    simpl. split; [lra|]. split; [|unfold line; field].
    left. split; [|auto]. constructor; [right; split; [split; apply Nat.leb_le; reflexivity|reflexivity]|constructor].
  - apply C11_below_is_line; [assumption|assumption|].
    exists 1%Z, (mkVLayer 1 10 30 8 9 4 4 3 3)%R, 8%R, 9%R. split; [split; [lia|reflexivity]|].
    simpl. split; [lra|]. split; [apply (Vp (mkVLayer 1 10 30 8 9 4 4 3 3)%R)|unfold line; field].
  - apply C11_below_is_line; [assumption|assumption|].
    exists 1%Z, (mkVLayer 1 10 30 8 9 4 4 3 3)%R, 8%R, 9%R. split; [split; [lia|reflexivity]|].
    simpl. split; [lra|]. split; [apply (Vp (mkVLayer 1 10 30 8 9 4 4 3 3)%R)|unfold line; field].
Qed.

(** ** C12: validate *)
Theorem C12_validate_iff : forall {T} {N : Num T} {O : NumOrd T} (m : vmodel T),
  model_numbers m -> vm_layers m <> [] ->
  (v_validate m = Ok true <->
     header_ok m /\ contiguous (vm_layers m) /\ forall l, In l (vm_layers m) -> layer_ok l) /\
  (v_validate m = Ok true \/ v_validate m = Ok false).
Proof. exact @validate_iff. Qed.
(** a model that goes down to 20 km, then up again to 5 km, is accepted *)
Definition folded_model : vmodel b64 :=
  mkVModel "folded" (d 30 0) (d 1 0) (d 2 0) (d 3 0) (d 0 0) (d 30 0) true
    [mkVLayer 0 (d 0 0) (d 20 0) (d 5 0) (d 6 0) (d 3 0) (d 3 0) (d 2 0) (d 2 0);
     mkVLayer 1 (d 20 0) (d 5 0) (d 7 0) (d 7 0) (d 3 0) (d 3 0) (d 2 0) (d 2 0)].
Theorem C12_increasing_depth_refuted : exists m : vmodel b64,
  model_numbers m /\ v_validate m = Ok true /\
  exists i l, nth_layer (vm_layers m) i l /\ vl_botDepth l <? vl_topDepth l = true.
Proof.
  exists folded_model. split; [|split; [reflexivity|]].
  - repeat split; simpl in H; destruct H as [<-|[<-|[]]]; reflexivity.
  - exists 1%Z. eexists. split; [split; [lia|reflexivity]|reflexivity].
Qed.
Example C12_ex : model_numbers toy_vm /\ v_validate toy_vm = Ok true.
Proof.
  split; [|reflexivity].
  repeat split; simpl in H; decompose [or] H; subst; try reflexivity; contradiction.
Qed.

(** ** C13: .tvel files; [py_float] is Python's float() *)
Theorem C13_read_iff : forall {T} {N : Num T} (py_float : string -> option T) base lines m,
  readTVelFile py_float base lines = Ok m <->
  exists row rows, Forall2 (row_of py_float) (skipn 2 lines) (row :: rows) /\
    layers_of 0 (row :: rows) (vm_layers m) /\
    m = mkVModel (strip5 base) (row_depth (last rows row)) (n_lit 35 0) (n_lit 2889 0) (n_lit 51539 (-1))
                 n_0 (row_depth (last rows row)) true (vm_layers m).
Proof. exact @readTVel_iff. Qed.
Theorem C13_layers_contiguous : forall {T} {N : Num T} (py_float : string -> option T) {O : NumOrd T}
    base lines m,
  (forall s x, py_float s = Some x -> n_ok x) ->
  readTVelFile py_float base lines = Ok m ->
  contiguous (vm_layers m) /\ (forall l, In l (vm_layers m) -> vl_topDepth l =? vl_botDepth l = false) /\
  (forall i l, nth_layer (vm_layers m) i l -> vl_num l = i).
Proof. exact @readTVel_contiguous. Qed.
Theorem C13_rejects_iff : forall {T} {N : Num T} (py_float : string -> option T) base lines e,
  readTVelFile py_float base lines = Raise e <->
  (skipn 2 lines = [] /\ e = IndexError) \/
  exists good line rest, (skipn 2 lines = good ++ line :: rest)%list /\
    (forall l, In l good -> exists r, row_of py_float l r) /\ bad_row py_float line e.
Proof. exact @readTVel_raise. Qed.
(** one-digit numbers *)
Definition digit_float (s : string) : option b64 :=
  match s with
  | String c EmptyString => if is_digit c then Some (n_int (Z.of_nat (nat_of_ascii c - 48))) else None
  | _ => None
  end.
Example C13_ex : exists m, readTVelFile digit_float "my.tvel"
    ["P header"; "S header"; "0 5 3 2 # top"; " 4 6 3 2"; "4 7 4 3"; "9 8 4 3"]%string = Ok m /\
  vm_name m = "my"%string /\
  vm_layers m = [mkVLayer 0 (d 0 0) (d 4 0) (d 5 0) (d 6 0) (d 3 0) (d 3 0) (d 2 0) (d 2 0);
                 mkVLayer 1 (d 4 0) (d 9 0) (d 7 0) (d 8 0) (d 4 0) (d 4 0) (d 3 0) (d 3 0)].
Proof. eexists. split; [reflexivity|]. split; reflexivity. Qed.
Example C13_ex_bad :
  readTVelFile digit_float "my.tvel" ["P"; "S"; "0 5 3 2"; "4 3 5 2"]%string = Raise TauPException /\
  readTVelFile digit_float "my.tvel" ["P"; "S"; "0 5 3 2"; "4 5 3"]%string = Raise ValueError /\
  readTVelFile digit_float "my.tvel" ["P"; "S"; "0 5 3 2"; ""]%string = Raise IndexError.
Proof. repeat split; reflexivity. Qed.

(** ** C14: snapping the major discontinuities *)
Theorem C14_nearest_discontinuities : forall {T} {N : Num T} {O : NumOrd T} (m : vmodel T),
  let m' := fst (fixDisconDepths m) in
  nearest_within (discon (vm_layers m)) (vm_moho m) (n_lit 65 0) n_0 (vm_moho m') /\
  nearest_within (discon (vm_layers m)) (vm_cmb m) (vm_radius m) (vm_radius m) (vm_cmb m') /\
  (exists ic,
    nearest_within (discon_fluid_solid (vm_layers m)) (vm_iocb m) (vm_radius m - n_lit 100 0)
                   (vm_radius m) ic /\
    (vm_cmb m' =? ic = true -> vm_iocb m' = vm_radius m) /\
    (vm_cmb m' =? ic = false -> vm_iocb m' = ic) /\
    (snd (fixDisconDepths m) = false <->
     vm_moho m =? vm_moho m' = true /\ vm_cmb m =? vm_cmb m' = true /\ vm_iocb m =? ic = true)).
Proof. exact @fix_spec. Qed.
Theorem C14_rest_unchanged : forall {T} {N : Num T} (m : vmodel T),
  let m' := fst (fixDisconDepths m) in
  vm_layers m' = vm_layers m /\ vm_radius m' = vm_radius m /\ vm_name m' = vm_name m /\
  vm_minRadius m' = vm_minRadius m /\ vm_maxRadius m' = vm_maxRadius m /\
  vm_spherical m' = vm_spherical m.
Proof. exact @fix_rest. Qed.
(** header values 30, 2900, 5000 become 35, 2889, 5154 *)
Example C14_ex :
  let m := mkVModel "toy" (d 6371 0) (d 30 0) (d 2900 0) (d 5000 0) (d 0 0) (d 6371 0) true
                    (vm_layers toy_vm) in
  let m' := fst (fixDisconDepths m) in
  vm_moho m' = d 35 0 /\ vm_cmb m' = d 2889 0 /\ vm_iocb m' = d 5154 0 /\
  snd (fixDisconDepths m) = true.
Proof. vm_compute. auto. Qed.

Print Assumptions C10_layer_below_iff.
Print Assumptions C10_layer_above_iff.
Print Assumptions C10_below_defined.
Print Assumptions C10_above_defined.
Print Assumptions C10_otherwise_raises.
Print Assumptions C10_on_boundary.
Print Assumptions C11_below_is_line.
Print Assumptions C11_above_is_line.
Print Assumptions C11_line_between_and_at_ends.
Print Assumptions C11_sides_agree.
Print Assumptions C11_otherwise_raises.
Print Assumptions C11_known_properties.
Print Assumptions C11_layer_ends.
Print Assumptions C12_validate_iff.
Print Assumptions C12_increasing_depth_refuted.
Print Assumptions C13_read_iff.
Print Assumptions C13_layers_contiguous.
Print Assumptions C13_rejects_iff.
Print Assumptions C14_nearest_discontinuities.
Print Assumptions C14_rest_unchanged.

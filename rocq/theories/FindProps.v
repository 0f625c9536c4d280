(** Property C50: the depth at which a ray of a given slowness turns. *)
From Coq Require Import ZArith Bool List String Reals Lra Lia.
From Verif Require Import Base Num VelocityModel VelSpec VelProofs SlownessLayer SlownessModel CritSpec
  SlowRealProofs FindSpec FindProofs RealRun SlowRun.
Import ListNotations.
Local Open Scope R_scope.

(** A depth found between [a] and [b] belongs to the first layer between them in which a ray of
    slowness [p] turns, or at whose bottom it is totally reflected; it is the depth with this slowness,
    or the layer boundary if that is within the tolerance. *)
Theorem C50_sound : forall (m : smodel R) w p a b z,
  contiguous (vm_layers (sm_vMod m)) -> thick (vm_layers (sm_vMod m)) ->
  (forall v, In v (vm_layers (sm_vMod m)) -> layer_ok v) ->
  findDepth_from_depths m p a b w = Ok z ->
  exists i v, nth_layer (vm_layers (sm_vMod m)) i v /\ covers a b v /\ turns m w p i v /\ turns_at m w p v z /\
    forall j u, (j < i)%Z -> nth_layer (vm_layers (sm_vMod m)) j u -> covers a b u -> ~ turns m w p j u.
Proof. intros m w p a b z Hc Ht Hl. exact (find_sound m w p Hc Ht Hl a b z). Qed.
(** Between two layer boundaries the result does not leave them. *)
Theorem C50_between : forall (m : smodel R) w p a b z,
  contiguous (vm_layers (sm_vMod m)) -> thick (vm_layers (sm_vMod m)) ->
  (forall v, In v (vm_layers (sm_vMod m)) -> layer_ok v) ->
  layer_end (sm_vMod m) a -> layer_end (sm_vMod m) b ->
  findDepth_from_depths m p a b w = Ok z -> a <= z <= b.
Proof. intros m w p a b z Hc Ht Hl. exact (find_between m w p Hc Ht Hl a b z). Qed.
(** If the slowness at the top of the first layer is not below [p] and that at the bottom of the last
    layer not above it, a depth is found, whatever the slowness does in between. *)
Theorem C50_found : forall (m : smodel R) w p a b i j u v,
  contiguous (vm_layers (sm_vMod m)) -> thick (vm_layers (sm_vMod m)) ->
  (forall v, In v (vm_layers (sm_vMod m)) -> layer_ok v) ->
  0 < sm_tolerance m -> fluid_runs (vm_layers (sm_vMod m)) (sm_fluid m) -> a < b ->
  nth_layer (vm_layers (sm_vMod m)) i u -> vl_topDepth u <= a < vl_botDepth u ->
  nth_layer (vm_layers (sm_vMod m)) j v -> vl_topDepth v < b <= vl_botDepth v ->
  (forall x, In x (vm_layers (sm_vMod m)) -> covers a b x -> w = true \/ vl_topS x <> 0) ->
  (exists q, slow_at (sm_radius m) w u (vl_topDepth u) q /\ p <= q) ->
  (exists q, slow_at (sm_radius m) w v (vl_botDepth v) q /\ q <= p) ->
  exists z, findDepth_from_depths m p a b w = Ok z.
Proof. intros m w p a b i j u v Hc Ht Hl. exact (find_found m w p Hc Ht Hl a b i j u v). Qed.

(** total reflection at 1 km, turning at 3186 km, and an S wave that turns; slowness 30 is
    nowhere *)
Definition f_s : smodel R := mkSM z_v 1 1000 10000 1 1 true 1 6371 [] [] [] [] [] [] 0.
Lemma f_ok : contiguous (vm_layers z_v) /\ thick (vm_layers z_v) /\ forall v, In v (vm_layers z_v) -> layer_ok v.
Proof.
  split; [|split].
  - apply contiguous_cons. split; [apply Reqb_eq; reflexivity|]. intros i x y Hx Hy.
    apply nth_layer_cons in Hy. destruct Hy as [[E _]|[_ Hy]]; [destruct Hx; lia|destruct (nth_layer_nil _ _ Hy)].
  - intros v [<-|[<-|[]]]; cbn; apply Rltb_true; lra.
  - intros v [<-|[<-|[]]]; unfold layer_ok; rewrite n_0_R, !Reqb_eq, !Rltb_lt, !Rleb_le; cbn; repeat split; lra.
Qed.
Example C50_ex :
  findDepth_from_depths f_s 12 0 6371 true = Ok 1 /\ findDepth_from_depths f_s 5 0 6371 true = Ok 3186 /\
  findDepth_from_depths f_s 30 0 6371 true = Raise SlownessModelError /\
  layer_end z_v 0 /\ layer_end z_v 6371 /\ fluid_runs (vm_layers z_v) (sm_fluid f_s) /\
  exists z, findDepth_from_depths f_s 100 0 6371 false = Ok z.
Proof.
  split; [cbv delta [findDepth_from_depths]; srun|]. split; [cbv delta [findDepth_from_depths]; srun|].
  split; [cbv delta [findDepth_from_depths]; srun|].
  split; [eexists; split; [left; reflexivity|left; reflexivity]|].
  split; [eexists; split; [right; left; reflexivity|right; reflexivity]|].
  assert (Fl : fluid_runs (vm_layers z_v) (sm_fluid f_s)).
  { cbn [vm_layers z_v]. repeat (apply fr_solid; [unfold fluid_layer; rewrite n_0_R; intros F; apply Reqb_eq in F; cbn in F; lra|]). constructor. }
  split; [exact Fl|]. destruct f_ok as [A [B C]].
  apply (C50_found f_s false 100 0 6371 0 1 (mkVLayer 0 0 1 277 490 23 26 3 3) (mkVLayer 1 1 6371 637 637 26 26 3 3) A B C);
    [cbn; lra|exact Fl|lra|split; [lia|reflexivity]|cbn; lra|split; [lia|reflexivity]|cbn; lra| | |].
  - intros x [<-|[<-|[]]] _; right; cbn; lra.
  - exists 277. unfold slow_at, wvel, line; cbn. split; lra.
  - exists 0. unfold slow_at, wvel, line; cbn. split; lra.
Qed.

Print Assumptions C50_sound.
Print Assumptions C50_between.
Print Assumptions C50_found.

(** C94: a lens node undoes a lens node of the opposite direction. *)
From Coq Require String.
Import String.StringSyntax.
From Coq Require Import Reals Floats.SpecFloat Psatz.
From Flocq Require Import Core.Core IEEE754.BinarySingleNaN.
From Verif Require Import Machine FloatModel FloatReal BBoxModel AttrModel StreamModel DeformModel NodeModel MergeSpec BakeSpec LineProofs
  LensModel LensSpec PropertiesDeform CoverSpec TripSpec TripProofs.
Local Open Scope string_scope.
Local Open Scope R_scope.

(** Points come back to where they were, up to the plug-in's own error [err] and
    a rounding error of (k + 1) * side / 131072 pixels, where the plug-in's way
    back stretches distances at most [k] times: k + 1 hundredths of a pixel for
    a display of 1311 pixels. *)
Theorem C94_nodes : forall L (P : plugin L) nx display b b' (fwd : bool) k err side q,
  1 <= side <= 65536 -> near_display side display -> 0 <= k ->
  b_i32 b "direction" = (if fwd then 1 else 0)%Z -> b_i32 b' "direction" = (if fwd then 0 else 1)%Z ->
  (forall n, b_f32 b n = b_f32 b' n) ->
  takes_back (with_lens nx P) display (lens_op b) fwd k err -> around display q ->
  exists q', carried (with_lens nx P) display [DTde4 (lens_op b); DTde4 (lens_op b')] q = Ok q' /\
    close_by (2 * err + (k + 1) * (side / 131072)) q' q.
Proof. exact opposite_nodes. Qed.
Print Assumptions C94_nodes.

(** So does baking a lens: where its mesh shows a point, its bake looks for the
    point. *)
Theorem C94_bake : forall nx display v (fwd : bool) k err side q,
  1 <= side <= 65536 -> near_display side display -> 0 <= k ->
  vi v "direction" = (if fwd then 1 else 0)%Z -> takes_back nx display v fwd k err -> around display q ->
  exists q1 q2, deform_point nx (DTde4 v) (bboxf_of display) false q = Ok q1 /\
    deform_point nx (DTde4 v) (bboxf_of display) true q1 = Ok q2 /\
    close_by (2 * err + (k + 1) * (side / 131072)) q2 q.
Proof. exact round_trip. Qed.
Print Assumptions C94_bake.

(** A plug-in that leaves every point where it is. *)
Definition idle : plugin unit := Plugin _ tt (fun _ _ _ => Some tt) Some (fun l _ p => (p, l)) (fun l _ b => (b, l)).
Definition other_way : block := put_i32 (default_attrs TLens) "direction" 1.
Lemma idle_takes_back nx display fwd : (min_x display < max_x display)%Z -> (min_y display < max_y display)%Z ->
  takes_back (with_lens nx idle) display (lens_op (default_attrs TLens)) fwd 1 0.
Proof.
  intros X Y. assert (M : forall w p, nx_lens (with_lens nx idle) (lens_op (default_attrs TLens)) w p = p) by (intros; vm_compute; reflexivity).
  split; [intros u U; rewrite M; exact U|]. split; [intros u U; rewrite M; exact U|]. split.
  - intros u U. rewrite !M. unfold apart. rewrite !Rminus_diag_eq, Rabs_R0 by reflexivity. lra.
  - intros u u' d U U' A. rewrite !M. unfold apart in *. lra.
Qed.

Lemma half_way : around (BBox 0 0 1920 1080) (f32_of_Z 640, f32_of_Z 480).
Proof.
  destruct (small_real 640 ltac:(lia)) as (V & F & E). destruct (small_real 480 ltac:(lia)) as (V' & F' & E').
  split; [split; [exact V|now apply fin_iff]|]. split; [split; [exact V'|now apply fin_iff]|]. cbn [fst snd min_x min_y max_x max_y].
  rewrite E, E'. change (1920 - 0)%Z with 1920%Z. change (1080 - 0)%Z with 1080%Z. split; apply Rabs_le; lra.
Qed.
Example C94_example :
  near_display 1920 (BBox 0 0 1920 1080) /\ b_i32 (default_attrs TLens) "direction" = 0%Z /\ b_i32 other_way "direction" = 1%Z /\
  (forall n, b_f32 (default_attrs TLens) n = b_f32 other_way n) /\
  takes_back (with_lens flat_numerics idle) (BBox 0 0 1920 1080) (lens_op (default_attrs TLens)) false 1 0 /\
  around (BBox 0 0 1920 1080) (f32_of_Z 640, f32_of_Z 480).
Proof.
  split; [unfold near_display; cbn [min_x min_y max_x max_y]; repeat split; try lia; apply Rabs_le; lra|].
  split; [reflexivity|]. split; [reflexivity|]. split; [reflexivity|].
  split; [apply idle_takes_back; cbn [min_x min_y max_x max_y]; lia|exact half_way].
Qed.

(** They do not come back exactly, even if the plug-in does nothing: 6.5 becomes
    another number. *)
Theorem C94_exact_refuted : exists nx display v q q1 q2 k,
  takes_back nx display v false k 0 /\ vi v "direction" = 0%Z /\ around display q /\
  deform_point nx (DTde4 v) (bboxf_of display) false q = Ok q1 /\
  deform_point nx (DTde4 v) (bboxf_of display) true q1 = Ok q2 /\ f32_eq (fst q2) (fst q) = false.
Proof.
  exists (with_lens flat_numerics idle), (BBox 0 0 11 1), (lens_op (default_attrs TLens)), (S754_finite false 13631488 (-21), f32_one). do 2 eexists. exists 1.
  split; [apply idle_takes_back; cbn [min_x min_y max_x max_y]; lia|]. split; [vm_compute; reflexivity|].
  split.
  - destruct (small_real 1 ltac:(lia)) as (V & F & E). split; [split; vm_compute; reflexivity|]. split; [split; [exact V|now apply fin_iff]|].
    cbn [fst snd min_x min_y max_x max_y]. change (R32 f32_one) with (R32 (f32_of_Z 1)). rewrite E. change (11 - 0)%Z with 11%Z. change (1 - 0)%Z with 1%Z. split; apply Rabs_le; [|lra].
    unfold R32. cbn [SF2R]. unfold F2R. cbn [Fnum Fexp cond_Zopp bpow]. change (Z.pow_pos radix2 21) with 2097152%Z. lra.
  - split; [vm_compute; reflexivity|]. split; [vm_compute; reflexivity|]. vm_compute. reflexivity.
Qed.
Print Assumptions C94_exact_refuted.

(** C93: a baked lens never cuts off what it moves beyond the picture's window;
    a baked transform does. *)
From Coq Require String.
Import String.StringSyntax.
From Coq Require Import Reals Floats.SpecFloat Psatz.
From Flocq Require Import Core.Core.
From Verif Require Import Machine FloatModel FloatReal BBoxModel PixelModel AttrModel StreamModel DeformModel NodeModel NodeExamples NodeProofs3 NodeSpec
  PropertiesDeform MergeSpec BakeSpec LineProofs LensModel CoverSpec CoverProofs.
Local Open Scope string_scope.
Local Open Scope R_scope.

(** Every point of the picture is carried by the lenses to a point of the
    window of the baked picture, if the plug-ins' boxes hold their points up to
    a pixel. *)
Theorem C93_lens : forall nx p ds display blk win dst w' a,
  usual_display display -> 0 <= a <= 8 -> reaches display win a -> fair_lenses nx display a ds ->
  deform_pixels nx p ds display blk win = Ok (dst, w') ->
  forall q, within 0 0 (bboxf_of win) q -> exists q', carried nx display ds q = Ok q' /\ inside w' q'.
Proof. exact nothing_cut_off. Qed.
Print Assumptions C93_lens.

(** The window stays what it is if no lens is on, wherever the other deformers
    carry its points. *)
Theorem C93_others : forall nx p ds display blk win dst w',
  (forall v, In (DTde4 v) ds -> vi v "enable" <> 1%Z) -> exact_window win ->
  deform_pixels nx p ds display blk win = Ok (dst, w') -> w' = win.
Proof. exact (fun nx p ds display blk win dst w' => deform_window p nx ds display blk win dst w'). Qed.
Print Assumptions C93_others.

(** So C93_lens is false of transforms: one that doubles the size of a picture
    leaves the right half out. *)
Lemma doubled : deform_point flat_numerics twice (bboxf_of (BBox 0 0 4 1)) false (f32_of_Z 3, f32_one) = Ok (f32_of_Z 6, f32_of_Z 2).
Proof. vm_compute. reflexivity. Qed.
Lemma at_three : plain_value (f32_of_Z 3) /\ R32 (f32_of_Z 3) = 3.
Proof. destruct (small_real 3 ltac:(lia)) as (V & F & E). split; [split; [exact V|now apply fin_iff]|exact E]. Qed.
Lemma at_one : plain_value f32_one /\ R32 f32_one = 1.
Proof. destruct (small_real 1 ltac:(lia)) as (V & F & E). split; [split; [exact V|now apply fin_iff]|exact E]. Qed.
Lemma three_in : within 0 0 (bboxf_of (BBox 0 0 4 1)) (f32_of_Z 3, f32_one).
Proof.
  split; [exact (proj1 at_three)|]. split; [exact (proj1 at_one)|]. cbn [bboxf_of min_x min_y max_x max_y fmin_x fmin_y fmax_x fmax_y fst snd].
  destruct (small_real 0 ltac:(lia)) as (_ & _ & E0). destruct (small_real 4 ltac:(lia)) as (_ & _ & E4). destruct (small_real 1 ltac:(lia)) as (_ & _ & E1).
  rewrite (proj2 at_three), (proj2 at_one), E0, E4, E1. lra.
Qed.
Theorem C93_transform_refuted : exists nx p v display blk win dst w' q q',
  usual_display display /\ reaches display win 1 /\ vi v "enable" = 1%Z /\
  deform_pixels nx p [DTransform v] display blk win = Ok (dst, w') /\
  within 0 0 (bboxf_of win) q /\ carried nx display [DTransform v] q = Ok q' /\ ~ inside w' q'.
Proof.
  exists flat_numerics, Release, (def_vals twice), (BBox 0 0 4 1), (ramp 4), (BBox 0 0 4 1). eexists. exists (BBox 0 0 4 1), (f32_of_Z 3, f32_one), (f32_of_Z 6, f32_of_Z 2).
  split; [unfold usual_display; cbn [min_x min_y max_x max_y]; lia|].
  split; [unfold reaches; cbn [min_x min_y max_x max_y Z.sub Z.opp Z.add Z.pos_sub Pos.add]; rewrite Rabs_R0; repeat split; rewrite ?Rabs_pos_eq; lra|].
  split; [vm_compute; reflexivity|]. split; [vm_compute; reflexivity|]. split; [exact three_in|]. split.
  - unfold carried. change (DTransform (def_vals twice)) with twice. rewrite doubled. reflexivity.
  - intros ((_ & H) & _). cbn [fst max_x] in H. destruct (small_real 6 ltac:(lia)) as (_ & _ & E6). rewrite E6 in H. lra.
Qed.
Print Assumptions C93_transform_refuted.

(** A plug-in that leaves every point where it is. *)
Definition plain_lens : deformer := DTde4 (lens_op (default_attrs TLens)).
Example C93_example :
  usual_display (BBox 0 0 4 1) /\ reaches (BBox 0 0 4 1) (BBox 0 0 4 1) 1 /\
  fair_lenses flat_numerics (BBox 0 0 4 1) 1 [plain_lens] /\
  within 0 0 (bboxf_of (BBox 0 0 4 1)) (f32_of_Z 3, f32_one) /\
  exists dst, deform_pixels flat_numerics Release [plain_lens] (BBox 0 0 4 1) (ramp 4) (BBox 0 0 4 1) = Ok (dst, BBox (-2) (-2) 6 3).
Proof.
  split; [unfold usual_display; cbn [min_x min_y max_x max_y]; lia|].
  split; [unfold reaches; cbn [min_x min_y max_x max_y Z.sub Z.opp Z.add Z.pos_sub Pos.add]; rewrite Rabs_R0; repeat split; rewrite ?Rabs_pos_eq; lra|].
  split.
  - exists (lens_op (default_attrs TLens)), (19 / 4), false. split; [reflexivity|]. split; [vm_compute; reflexivity|]. split; [vm_compute; reflexivity|].
    split; [|split; [lra|exact I]].
    intros box q P W U. cbn [nx_lens nx_lens_box flat_numerics]. unfold pixel_x, pixel_y in *. cbn [min_x min_y max_x max_y] in *.
    change (4 - 0)%Z with 4%Z in *. change (1 - 0)%Z with 1%Z in *.
    destruct W as (W1 & W2 & W3 & W4), U as (U1 & U2 & U3 & U4). apply Rabs_le_inv in U1, U2, U3, U4.
    split; [exact P|]. split; [repeat split; apply Rabs_le; lra|]. split; [split; [exact W1|split; [exact W2|]]; lra|]. split; apply Rabs_le; lra.
  - split; [exact three_in|]. eexists. vm_compute. reflexivity.
Qed.

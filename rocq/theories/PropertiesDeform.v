(** C62 and C63: baking deformations into pixels. *)
From Coq Require String.
Import String.StringSyntax.
From Coq Require Import Floats.SpecFloat.
From Verif Require Import Machine Loops FloatModel BBoxModel PixelModel PixelSpec AttrModel HashModel StreamModel GradeModel
  DeformModel NodeModel NodeExamples TransformProofs RemapSpec RemapProofs RemapReal RemapKeep EdgeSpec EdgeProofs PropertiesBake.
Local Open Scope string_scope.

(* ------------------------------ C62 ------------------------------ *)

(** A picture that fills a display window starting at the origin, and
    deformations that leave every pixel centre in place: the bake returns the
    same picture. *)
Theorem C62_kept : forall nx p ds blk w h,
  float_picture blk -> bs_w (pb_size blk) = w -> bs_h (pb_size blk) = h -> w <= 2 ^ 22 -> h <= 2 ^ 22 ->
  (forall v, In (DTde4 v) ds -> vi v "enable" <> 1) ->
  (forall x y, 0 <= x < w -> 0 <= y < h ->
     taken_back nx (BBox 0 0 w h) (enabled ds) (centre x, centre y) = Ok (centre x, centre y)) ->
  deform_pixels nx p ds (BBox 0 0 w h) blk (BBox 0 0 w h) = Ok (blk, BBox 0 0 w h).
Proof. exact kept. Qed.
Print Assumptions C62_kept.

(** In particular any number of transforms with default settings. *)
Theorem C62_default_transforms : forall nx p ds blk w h,
  exact_at_rest nx -> Forall default_transform ds ->
  float_picture blk -> bs_w (pb_size blk) = w -> bs_h (pb_size blk) = h -> w <= 2 ^ 22 -> h <= 2 ^ 22 ->
  deform_pixels nx p ds (BBox 0 0 w h) blk (BBox 0 0 w h) = Ok (blk, BBox 0 0 w h).
Proof. exact rest_kept. Qed.
Print Assumptions C62_default_transforms.

Definition at_rest : deformer := DTransform (transform_op (with_attrs TTransform [])).
Lemma at_rest_default : default_transform at_rest.
Proof.
  eexists. split; [reflexivity|]. split; [|split; reflexivity]. split; [reflexivity|]. split; [|split; reflexivity].
  intros n H. repeat (destruct H as [<-|H]; [reflexivity|]). contradiction.
Qed.
(** [w] x 1 pixels (0, 0, 0), (1, 1, 1), ... *)
Definition ramp (w : nat) : pixelblock :=
  PB (BS (Z.of_nat w) 1 3) (DF32 (flat_map (fun i => let v := f32_of_Z (Z.of_nat i) in [v; v; v]) (seq 0 w))).
Lemma ramp_ok w : (1 <= w <= 1000)%nat -> float_picture (ramp w).
Proof.
  intro H. unfold float_picture, wf_block, ramp. cbn [pb_size pb_data bs_w bs_h bs_nc db_len].
  split; [eexists; reflexivity|]. split; [|unfold two31; lia]. split; [lia|]. split; [lia|]. split; [lia|].
  unfold zlen. rewrite (flat_map_len _ 3) by reflexivity. rewrite seq_length. lia.
Qed.
Example C62_example :
  exact_at_rest demo_numerics /\ Forall default_transform [at_rest; at_rest] /\ enabled [at_rest; at_rest] = [at_rest; at_rest] /\
  float_picture (ramp 5) /\
  deform_pixels demo_numerics Debug [at_rest; at_rest] (BBox 0 0 5 1) (ramp 5) (BBox 0 0 5 1) = Ok (ramp 5, BBox 0 0 5 1).
Proof.
  split; [split; [reflexivity|]; split; [reflexivity|]; intros m _; exact I|].
  split; [constructor; [exact at_rest_default|]; constructor; [exact at_rest_default|constructor]|].
  split; [reflexivity|]. split; [apply ramp_ok; lia|vm_compute; reflexivity].
Qed.

(** The window must start at the origin: deformers that leave every pixel
    centre in place, a picture filling its display window (4,0)-(8,1), and each
    result pixel is the last pixel of the picture. *)
Definition unit_brownian : deformer := DBrownian (Vals [("enable", 1)] [("xc", 0); ("yc", 0); ("k1", 0); ("k2", 0)]).
Theorem C62_origin_refuted :
  exists ds blk win, float_picture blk /\ enabled ds = ds /\ placed blk win /\
    (forall x y, min_x win <= x < max_x win -> min_y win <= y < max_y win ->
       taken_back demo_numerics win ds (centre x, centre y) = Ok (centre x, centre y)) /\
    exists dst, deform_pixels demo_numerics Debug ds win blk win = Ok (dst, win) /\ pb_data dst <> pb_data blk /\
      forall x, 4 <= x < 8 -> pixel_val dst win x 0 0 = pixel_val blk win 7 0 0.
Proof.
  exists [unit_brownian], (ramp 4), (BBox 4 0 8 1).
  split; [apply ramp_ok; lia|].
  split; [reflexivity|]. split; [split; reflexivity|]. split.
  - cbn [min_x max_x min_y max_y]. intros x y Hx Hy. assert (y = 0) as -> by lia.
    assert (x = 4 \/ x = 5 \/ x = 6 \/ x = 7) as [-> | [-> | [-> | ->]]] by lia; vm_compute; reflexivity.
  - eexists. split; [vm_compute; reflexivity|]. split; [discriminate|]. intros x Hx.
    assert (x = 4 \/ x = 5 \/ x = 6 \/ x = 7) as [-> | [-> | [-> | ->]]] by lia; vm_compute; reflexivity.
Qed.
Print Assumptions C62_origin_refuted.

(** The picture must fill the display window: a picture of two pixels in a
    display window of four is squeezed. *)
Theorem C62_filled_refuted :
  exists dst, deform_pixels demo_numerics Debug [at_rest] (BBox 0 0 4 1) (ramp 2) (BBox 0 0 2 1) = Ok (dst, BBox 0 0 2 1) /\
    pixel_val dst (BBox 0 0 2 1) 1 0 0 = pixel_val (ramp 2) (BBox 0 0 2 1) 0 0 0 /\
    pixel_val dst (BBox 0 0 2 1) 1 0 0 <> pixel_val (ramp 2) (BBox 0 0 2 1) 1 0 0.
Proof. eexists. split; [vm_compute; reflexivity|]. split; vm_compute; [reflexivity|discriminate]. Qed.
Print Assumptions C62_filled_refuted.

(* ------------------------------ C63 ------------------------------ *)

(** Every pixel of a bake: its centre is taken back through the enabled
    deformers, the position is stretched from the display window to the
    picture, and the source pixel there is fetched. *)
Theorem C63_pixels : forall nx p ds display blk win dst w',
  enabled ds <> [] -> float_picture blk -> coords_small win ->
  deform_pixels nx p ds display blk win = Ok (dst, w') ->
  min_x w' <= max_x w' -> min_y w' <= max_y w' ->
  min_x w' < max_x w' /\ min_y w' < max_y w' /\ moved_pixels nx display (enabled ds) blk win dst w'.
Proof. exact deform_pixels_moved. Qed.
Print Assumptions C63_pixels.

(** The new data window is the smallest window of whole pixels that contains the
    deformed bounding box (edges beyond the range of i32 end up at its limits,
    NaN at 0). *)
Theorem C63_window : forall nx p ds display blk win dst w' b, enabled ds <> [] ->
  fold_box nx (enabled ds) (bboxf_of win) (bboxf_of display) = Ok b ->
  deform_pixels nx p ds display blk win = Ok (dst, w') -> encloses b w'.
Proof. exact window_encloses. Qed.
Print Assumptions C63_window.

(** Halves are enclosed, whole numbers kept, huge numbers cut off. *)
Example C63_window_example :
  encloses (BBoxF (f32_of_bits 3204448256) (f32_of_bits 1077936128) (f32_of_bits 1068498944) (f32_of_bits 1325400065)) (BBox (-1) 3 2 2147483647).
Proof.
  assert (E : forall v z, f32_floor_as_i32 v = z -> greatest_below v z) by (intros v z <-; apply floor_greatest).
  assert (C : forall v z, f32_ceil_as_i32 v = z -> least_above v z) by (intros v z <-; apply ceil_least).
  split; [|split; [|split]]; [apply E|apply E|apply C|apply C]; vm_compute; reflexivity.
Qed.

(** The bake does not panic unless the new window is empty or too large, or a
    deformer refuses its direction. *)
Theorem C63_runs : forall nx p ds display blk win b,
  enabled ds <> [] -> float_picture blk -> coords_small win ->
  fold_box nx (enabled ds) (bboxf_of win) (bboxf_of display) = Ok b ->
  forall w', encloses b w' -> min_x w' < max_x w' -> min_y w' < max_y w' ->
  (max_x w' - min_x w') * (max_y w' - min_y w') * bs_nc (pb_size blk) < two31 ->
  (forall x y, min_x w' <= x < max_x w' -> min_y w' <= y < max_y w' ->
     exists q, taken_back nx display (enabled ds) (centre x, centre y) = Ok q) ->
  exists dst, deform_pixels nx p ds display blk win = Ok (dst, w').
Proof. exact runs_enclosed. Qed.
Print Assumptions C63_runs.

(** Moving right by one pixel (in a window one wide), scaling by two. *)
Definition op_with (ws : list awrite) : deformer := DTransform (transform_op (with_attrs TTransform ws)).
Definition step_right : deformer := op_with [WF32 "translate_x" 1065353216; WF32 "pivot_x" 0; WF32 "pivot_y" 0].
Definition twice : deformer :=
  op_with [WF32 "scale_x" 1073741824; WF32 "scale_y" 1073741824; WF32 "pivot_x" 0; WF32 "pivot_y" 0].
(** The exact inverse of a scaling followed by a translation. *)
Definition flat_inverse (m : mat4) : option mat4 :=
  let o := f32_one in let z := f32_zero in
  let ix := f32_div o (mat m 0 0) in let iy := f32_div o (mat m 1 1) in
  Some [ix; z; z; f32_neg (f32_mul (mat m 0 3) ix);  z; iy; z; f32_neg (f32_mul (mat m 1 3) iy);  z; z; o; z;  z; z; z; o].
Definition flat_numerics : numerics :=
  Numerics (fun a _ => a) (fun _ => f32_one) (fun _ => f32_zero) flat_inverse (fun _ _ q => q) (fun _ _ b => b).

(** Moving the pixels of [ramp 4] one to the right. *)
Example C63_example :
  let ds := [op_with [WF32 "translate_x" 1082130432]] in
  enabled ds = ds /\ float_picture (ramp 4) /\ coords_small (BBox 0 0 4 1) /\
  exists dst, deform_pixels flat_numerics Release ds (BBox 0 0 4 1) (ramp 4) (BBox 0 0 4 1) = Ok (dst, BBox 0 0 4 1) /\
    map (fun x => pixel_val dst (BBox 0 0 4 1) x 0 0) [0; 1; 2; 3] =
    map (fun x => pixel_val (ramp 4) (BBox 0 0 4 1) x 0 0) [0; 0; 1; 2].
Proof.
  cbn zeta. split; [vm_compute; reflexivity|]. split; [|split; [unfold coords_small; cbn [min_x max_x min_y max_y]; lia|]].
  - apply ramp_ok. lia.
  - eexists. split; [vm_compute; reflexivity|]. vm_compute. reflexivity.
Qed.

(** "The bake undoes what the viewer's mesh shows" is false for two deformers,
    each of which undoes itself: positions go forward through the first and then
    the second, and back through the first and then the second. *)
Definition undoes (nx : numerics) (ds : list deformer) (win : bbox) (x y : f32) : Prop :=
  exists x' y', deform_positions nx ds (bboxf_of win) [x; y; f32_zero] = Ok [x'; y'; f32_zero] /\
    taken_back nx win (enabled ds) (x', y') = Ok (x, y).
Theorem C63_order_refuted :
  exists nx d1 d2 win x y,
    undoes nx [d1] win x y /\ (exists x' y', deform_positions nx [d1] (bboxf_of win) [x; y; f32_zero] = Ok [x'; y'; f32_zero] /\
                                 undoes nx [d2] win x' y') /\
    ~ undoes nx [d1; d2] win x y.
Proof.
  exists flat_numerics, twice, step_right, (BBox 0 0 1 1), f32_one, f32_one.
  split; [do 2 eexists; split; [vm_compute; reflexivity|vm_compute; reflexivity]|]. split.
  - do 2 eexists. split; [vm_compute; reflexivity|]. do 2 eexists; split; [vm_compute; reflexivity|vm_compute; reflexivity].
  - intros (x' & y' & E & T).
    assert (V : deform_positions flat_numerics [twice; step_right] (bboxf_of (BBox 0 0 1 1)) [f32_one; f32_one; f32_zero]
                = Ok [f32_of_Z 3; f32_of_Z 2; f32_zero]) by (vm_compute; reflexivity).
    rewrite V in E. assert (X : f32_of_Z 3 = x') by congruence. assert (Y : f32_of_Z 2 = y') by congruence. subst x' y'.
    assert (B : exists u v, taken_back flat_numerics (BBox 0 0 1 1) (enabled [twice; step_right]) (f32_of_Z 3, f32_of_Z 2)
              = Ok (u, v) /\ f32_eq u f32_one = false) by (do 2 eexists; split; [vm_compute; reflexivity|reflexivity]).
    destruct B as (u & v & B & N). rewrite B in T. injection T as -> _. discriminate N.
Qed.
Print Assumptions C63_order_refuted.

(** It is false for a single deformer when the data window is not the display
    window: the mesh is moved relative to the one, the pixels to the other. *)
Theorem C63_window_refuted :
  exists nx d data display x y x' y',
    undoes nx [d] data x y /\ undoes nx [d] display x y /\
    deform_positions nx [d] (bboxf_of data) [x; y; f32_zero] = Ok [x'; y'; f32_zero] /\
    taken_back nx display [d] (x', y') <> Ok (x, y).
Proof.
  exists flat_numerics, step_right, (BBox 0 0 1 1), (BBox 0 0 2 2), f32_one, f32_one. do 2 eexists.
  split; [do 2 eexists; split; [vm_compute; reflexivity|vm_compute; reflexivity]|]. split; [do 2 eexists; split; [vm_compute; reflexivity|vm_compute; reflexivity]|].
  split; [vm_compute; reflexivity|].
  assert (B : exists u v, taken_back flat_numerics (BBox 0 0 2 2) [step_right] (f32_of_Z 2, f32_of_Z 1)
            = Ok (u, v) /\ f32_eq u f32_one = false) by (do 2 eexists; split; [vm_compute; reflexivity|reflexivity]).
  destruct B as (u & v & B & N). intro T. change (taken_back flat_numerics (BBox 0 0 2 2) [step_right] (f32_of_Z 2, f32_of_Z 1) = Ok (f32_one, f32_one)) in T.
  rewrite B in T. injection T as -> _. discriminate N.
Qed.
Print Assumptions C63_window_refuted.

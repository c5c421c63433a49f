(** What it means to walk a picture, and to be a box of machine integers. *)
From Verif Require Import Machine Loops FloatModel BBoxModel PixelModel.

(** A float picture as the library makes them: [h] rows of [w] pixels of [nc]
    samples; their number is an i32. *)
Definition float_picture (w h nc : Z) (data : list f32) : pixelblock := PB (BS w h nc) (DF32 data).
Definition filled (w h nc : Z) (data : list f32) : Prop :=
  0 <= w < two31 /\ 0 <= h < two31 /\ 0 <= nc < two31 /\ zlen data = w * h * nc /\ w * h * nc < two31.

(** Corners that an i32 can hold. *)
Definition i32_box (b : bbox) : Prop :=
  - two31 <= min_x b < two31 /\ - two31 <= min_y b < two31 /\
  - two31 <= max_x b < two31 /\ - two31 <= max_y b < two31.

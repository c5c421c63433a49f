(** Single pixels of finished pictures with four, three or one channels. *)
From Coq Require Import Floats.SpecFloat.
From Verif Require Import Machine Loops FloatModel BBoxModel BBoxSpec PixelModel PixelSpec MergeModel MergeSpec EnumModel StreamModel DeformModel BakeSpec RemapSpec EdgeSpec PartSpec FinishSpec.

Definition channel3 (c : Z) (v : f32 * f32 * f32) : f32 :=
  let '(r, g, b) := v in if c =? 0 then r else if c =? 1 then g else b.

(** Pixel (X, Y) of the picture [r]: the pixel of the stream it comes from, of
    [n] channels, with the colours changed by [meaning]. *)
Definition pixel_follows {V} (n : Z) (chan : Z -> V -> f32) (meaning : V -> V) (nx : numerics) (s : stream) (ty : datatype) (r : pixelblock) (win : bbox) (X Y : Z) : Prop :=
  let b := pb_size (st_block s) in
  exists sx sy v, comes_from nx (st_display s) (st_deformers s) (bs_w b) (bs_h b) (st_data s) X Y sx sy /\
    forall c, 0 <= c < n -> exists e e',
      at_z (elems (pb_data (st_block s))) ((sy * bs_w b + sx) * n + c) = Some e /\ taken_as (db_type (pb_data (st_block s))) e (chan c v) /\
      pixel_val r win X Y c = Some e' /\ put_as ty (chan c (meaning v)) e'.

(** Pixels of red, green and blue: alpha counts as one. *)
Definition rgb_pixel_right (nx : numerics) (s : stream) (ty : datatype) (r : pixelblock) (win : bbox) (X Y : Z) : Prop :=
  pixel_follows 3 channel3 (rgb_meaning (nx_powf nx) (st_matrix s) (st_ops s)) nx s ty r win X Y.

(** Pixels of alpha only: the colours count as one. *)
Definition alpha_pixel_right (nx : numerics) (s : stream) (ty : datatype) (r : pixelblock) (win : bbox) (X Y : Z) : Prop :=
  pixel_follows 1 (fun _ a => a) (alpha_meaning (nx_powf nx) (st_matrix s) (st_ops s)) nx s ty r win X Y.

(** Comparing pictures. *)
From Coq Require Import Floats.SpecFloat.
From Verif Require Import Machine Loops FloatModel BBoxModel BBoxSpec PixelModel PixelSpec MergeModel MergeSpec.

(** All numbers of a picture are binary32 numbers, finite ones. *)
Definition valid_image (im : image) : Prop := forall x y c, 0 <= c -> f32_ok (channel_at im x y c).
Definition finite_image (im : image) : Prop := forall x y c, 0 <= c -> f32_finite (channel_at im x y c).
(** Same window, channels and pixels. *)
Definition same_picture (r s : image) : Prop :=
  im_data r = im_data s /\ bs_nc (pb_size (im_block r)) = bs_nc (pb_size (im_block s)) /\
  forall x y c, 0 <= c -> channel_at r x y c = channel_at s x y c.
(** [r] covers both windows and shows the numbers of [s] in the channels it has. *)
Definition shows_picture (r a b s : image) : Prop :=
  least_window (im_data a) (im_data b) (im_data r) /\
  forall x y c, 0 <= c < bs_nc (pb_size (im_block r)) -> same_number (channel_at r x y c) (channel_at s x y c).
Definition transparent (im : image) : Prop := forall x y c, 0 <= c -> exists s, channel_at im x y c = S754_zero s.

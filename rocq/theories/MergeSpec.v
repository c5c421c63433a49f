(** Independent specification of image merging: images are functions from
    coordinates to RGBA values. *)
From Coq Require Import Floats.SpecFloat.
From Verif Require Import Machine Loops FloatModel BBoxModel BBoxSpec PixelModel PixelSpec MergeModel.

(** Value of channel [c] (0 red, 1 green, 2 blue, 3 alpha) of an image at an
    image coordinate: black and transparent outside the data window; an image
    without alpha channel counts as transparent. *)
Definition channel_at (im : image) (x y c : Z) : f32 :=
  if in_boxb (im_data im) x y && (c <? bs_nc (pb_size (im_block im))) then
    match pixel_val (im_block im) (im_data im) x y c with
    | Some (EF f) => f
    | _ => S754_zero false
    end
  else S754_zero false.

(** The documented formulas, for one channel; [aa] is the alpha of A. *)
Definition formula (mode : merge_mode) (mix aa va vb : f32) : f32 :=
  match mode with
  | MAdd => f32_add va (f32_mul vb mix)
  | MOver => f32_add va (f32_mul vb (f32_mul (f32_sub (f32_of_Z 1) aa) mix))
  | MMultiply => f32_mul va (f32_mul vb mix)
  | _ => S754_nan
  end.

Definition known_mode (m : merge_mode) : Prop := m = MAdd \/ m = MOver \/ m = MMultiply.

(** A float RGB or RGBA image lying on its data window. *)
Definition float_image (im : image) : Prop :=
  wf_block (im_block im) /\ placed (im_block im) (im_data im) /\
  db_type (pb_data (im_block im)) = Float32 /\
  (bs_nc (pb_size (im_block im)) = 3 \/ bs_nc (pb_size (im_block im)) = 4).

(** Machine limits of a merge. *)
Definition merge_fits (a b : bbox) : Prop :=
  let W := Z.max (max_x a) (max_x b) - Z.min (min_x a) (min_x b) in
  let H := Z.max (max_y a) (max_y b) - Z.min (min_y a) (min_y b) in
  W < two31 /\ H < two31 /\ W * (H + 1) * 4 < two31.

(** Window inclusion and "smallest". *)
Definition window_in (a b : bbox) : Prop :=
  min_x b <= min_x a /\ max_x a <= max_x b /\ min_y b <= min_y a /\ max_y a <= max_y b.

(** A finite number representable in binary32 in canonical form. *)
Definition f32_ok (x : f32) : Prop := valid_binary prec32 emax32 x = true.
Definition f32_finite (x : f32) : Prop :=
  match x with S754_zero _ | S754_finite _ _ _ => True | _ => False end.
(** Same number: equal, or both zeros of some sign. *)
Definition same_number (x y : f32) : Prop :=
  x = y \/ (exists s t, x = S754_zero s /\ y = S754_zero t).

(** [u] is the smallest window containing [a] and [b]. *)
Definition least_window (a b u : bbox) : Prop :=
  window_in a u /\ window_in b u /\
  forall w, window_in a w -> window_in b w -> window_in u w.

(** [r] is the merge of A and B. *)
Definition merged (mode : merge_mode) (mix : f32) (ima imb : image) (r : image) : Prop :=
  least_window (im_data ima) (im_data imb) (im_data r) /\
  im_display r = im_display imb /\
  float_image r /\
  bs_nc (pb_size (im_block r)) = bs_nc (pb_size (im_block imb)) /\
  forall x y c, in_box (im_data r) x y -> 0 <= c < bs_nc (pb_size (im_block r)) ->
    pixel_val (im_block r) (im_data r) x y c =
    Some (EF (formula mode mix (channel_at ima x y 3) (channel_at ima x y c) (channel_at imb x y c))).


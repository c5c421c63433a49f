(** C11-C20: pixel addressing, cropping, resizing, conversion, sampling. *)
From Coq Require Import Floats.SpecFloat.
From Verif Require Import Machine Loops FloatModel BBoxModel BBoxSpec PixelModel PixelSpec
  PixelProofs PixelProofs2 PixelConvProofs.

(* ------------------------------ C11 ------------------------------ *)

(** In-block coordinates have their row-major index, in both profiles. *)
Theorem C11_index_of_pixel : forall p b x y,
  block_ok b -> 0 <= x < bs_w b -> 0 <= y < bs_h b ->
  bs_get_index p b x y = Ok ((y * bs_w b + x) * bs_nc b).
Proof. exact get_index_in. Qed.
Print Assumptions C11_index_of_pixel.

(** For any coordinates whose products do not overflow i32, the index is
    non-negative exactly for coordinates in the block. *)
Theorem C11_index_sign : forall p b x y,
  block_ok b ->
  in_i32 (x * bs_nc b) = true -> in_i32 (y * (bs_w b * bs_nc b)) = true ->
  in_i32 (x * bs_nc b + y * (bs_w b * bs_nc b)) = true ->
  bs_get_index p b x y =
    Ok (if (0 <=? x) && (x <? bs_w b) && (0 <=? y) && (y <? bs_h b)
        then (y * bs_w b + x) * bs_nc b else -1).
Proof. exact get_index_spec. Qed.
Print Assumptions C11_index_sign.

Theorem C11_pixels_inside_buffer : forall b x y,
  block_ok b -> 0 <= x < bs_w b -> 0 <= y < bs_h b ->
  0 <= (y * bs_w b + x) * bs_nc b /\
  (y * bs_w b + x) * bs_nc b + bs_nc b <= bs_w b * bs_h b * bs_nc b.
Proof. exact index_range. Qed.
Print Assumptions C11_pixels_inside_buffer.

Theorem C11_pixels_disjoint : forall b x y x' y',
  block_ok b -> 0 <= x < bs_w b -> 0 <= x' < bs_w b ->
  (x, y) <> (x', y') ->
  disjoint_ranges ((y * bs_w b + x) * bs_nc b) ((y' * bs_w b + x') * bs_nc b) (bs_nc b).
Proof. exact index_disjoint. Qed.
Print Assumptions C11_pixels_disjoint.

Theorem C11_get_xy_owner : forall p b ix,
  block_ok b -> 0 <= ix < bs_w b * bs_h b * bs_nc b ->
  exists x y, bs_get_xy p b ix = Ok (x, y) /\ 0 <= x < bs_w b /\ 0 <= y < bs_h b /\
    (y * bs_w b + x) * bs_nc b <= ix < (y * bs_w b + x) * bs_nc b + bs_nc b.
Proof. exact get_xy_owner. Qed.
Print Assumptions C11_get_xy_owner.

Example C11_hypotheses_met :
  block_ok (BS 5 3 4) /\ bs_get_index Debug (BS 5 3 4) 2 1 = Ok 28 /\
  bs_get_index Release (BS 5 3 4) 5 1 = Ok (-1) /\ bs_get_xy Debug (BS 5 3 4) 31 = Ok (2, 1).
Proof. cbv; repeat split; intros; try discriminate; reflexivity. Qed.

(** Finding: in release builds the products wrap, and a far-out coordinate gets
    a non-negative index. *)
Theorem C11_overflow_refuted :
  exists b x y, block_ok b /\ in_i32 x = true /\ in_i32 y = true /\ bs_w b <= x /\
    bs_get_index Release b x y = Ok 0 /\ bs_get_index Debug b x y = Panic.
Proof.
  exists (BS 1 1 4), (2 ^ 30), 0.
  cbv; repeat split; intros; try discriminate; reflexivity.
Qed.
Print Assumptions C11_overflow_refuted.

(* ------------------------------ C12 ------------------------------ *)

(** Cropping is total (no panic, no out-of-bounds access, in debug and release)
    and pixel-exact, for every pixel type. *)
Theorem C12_crop_exact : forall p pb dw cw,
  wf_block pb -> placed pb dw -> well_formed dw -> well_formed cw ->
  coords_small dw -> coords_small cw ->
  count_fits (width dw) (height dw) (bs_nc (pb_size pb)) ->
  count_fits (width cw) (height cw) (bs_nc (pb_size pb)) ->
  exists r,
    from_pixel_block p pb dw cw = Ok r /\
    wf_block r /\ placed r cw /\
    bs_nc (pb_size r) = bs_nc (pb_size pb) /\
    db_type (pb_data r) = db_type (pb_data pb) /\
    forall x y c, in_box cw x y -> 0 <= c < bs_nc (pb_size pb) ->
      pixel_val r cw x y c =
      if in_boxb dw x y then pixel_val pb dw x y c else Some (zero_elem (db_type (pb_data pb))).
Proof. exact crop_exact. Qed.
Print Assumptions C12_crop_exact.

(** [pixel_val] really distinguishes pixels: distinct pixel channels of a window
    are distinct buffer positions, and every buffer position is one of them. *)
Theorem C12_pixel_val_injective : forall w nc x y c x' y' c',
  in_box w x y -> in_box w x' y' -> 0 <= c < nc -> 0 <= c' < nc ->
  offset w nc x y c = offset w nc x' y' c' -> x = x' /\ y = y' /\ c = c'.
Proof. exact offset_inj. Qed.
Print Assumptions C12_pixel_val_injective.

Definition ex_block : pixelblock :=
  PB (BS 3 2 2) (DU8 [11;12; 21;22; 31;32; 41;42; 51;52; 61;62]).

Example C12_hypotheses_met :
  let dw := BBox (-1) 0 2 2 in let cw := BBox 0 (-1) 3 1 in
  wf_block ex_block /\ placed ex_block dw /\ well_formed dw /\ well_formed cw /\
  coords_small dw /\ coords_small cw /\ count_fits (width dw) (height dw) 2 /\
  from_pixel_block Debug ex_block dw cw =
    Ok (PB (BS 3 2 2) (DU8 [0;0; 0;0; 0;0; 21;22; 31;32; 0;0])).
Proof. cbv; repeat split; intros; try discriminate; reflexivity. Qed.

(* ------------------------------ C13 ------------------------------ *)

Theorem C13_crop_of_crop : forall p pb dw A B,
  wf_block pb -> placed pb dw -> well_formed dw -> well_formed A -> well_formed B ->
  (forall x y, in_box B x y -> in_box A x y) ->
  coords_small dw -> coords_small A -> coords_small B ->
  count_fits (width dw) (height dw) (bs_nc (pb_size pb)) ->
  count_fits (width A) (height A) (bs_nc (pb_size pb)) ->
  count_fits (width B) (height B) (bs_nc (pb_size pb)) ->
  (let* ra := from_pixel_block p pb dw A in from_pixel_block p ra A B) =
  from_pixel_block p pb dw B /\ exists rb, from_pixel_block p pb dw B = Ok rb.
Proof. exact crop_crop. Qed.
Print Assumptions C13_crop_of_crop.

(** Cropping to the image's own window changes nothing. *)
Theorem C13_crop_identity : forall p pb dw,
  wf_block pb -> placed pb dw -> well_formed dw -> coords_small dw ->
  count_fits (width dw) (height dw) (bs_nc (pb_size pb)) ->
  from_pixel_block p pb dw dw = Ok pb.
Proof. exact crop_identity. Qed.
Print Assumptions C13_crop_identity.

(** Without B within A, exactly the pixels outside A are lost. *)
Theorem C13_crop_of_crop_general : forall p pb dw A B ra rb,
  wf_block pb -> placed pb dw -> well_formed dw -> well_formed A -> well_formed B ->
  coords_small dw -> coords_small A -> coords_small B ->
  count_fits (width dw) (height dw) (bs_nc (pb_size pb)) ->
  count_fits (width A) (height A) (bs_nc (pb_size pb)) ->
  count_fits (width B) (height B) (bs_nc (pb_size pb)) ->
  from_pixel_block p pb dw A = Ok ra -> from_pixel_block p ra A B = Ok rb ->
  forall x y c, in_box B x y -> 0 <= c < bs_nc (pb_size pb) ->
    pixel_val rb B x y c =
    if in_boxb A x y && in_boxb dw x y then pixel_val pb dw x y c
    else Some (zero_elem (db_type (pb_data pb))).
Proof. exact crop_crop_general. Qed.
Print Assumptions C13_crop_of_crop_general.

Example C13_hypotheses_met :
  let dw := BBox (-1) 0 2 2 in let A := BBox 0 (-1) 3 2 in let B := BBox 0 0 2 1 in
  (forall x y, in_box B x y -> in_box A x y) /\
  (let* ra := from_pixel_block Release ex_block dw A in from_pixel_block Release ra A B) =
  Ok (PB (BS 2 1 2) (DU8 [21;22; 31;32])).
Proof. split; [intros x y; unfold in_box; cbn; lia|reflexivity]. Qed.

(* ------------------------------ C14 ------------------------------ *)

(** Without black_outside every option combination succeeds and the result's
    block dimensions equal its data window. *)
Theorem C14_crop_options_partial : forall p im cw reformat intersect,
  image_ok im -> well_formed cw -> coords_small cw ->
  count_fits (width cw) (height cw) (bs_nc (pb_size (im_block im))) ->
  exists im', crop_image_in_place p im cw reformat false intersect = Ok im' /\
    image_ok im' /\ im_data im' = cw /\
    im_display im' = (if reformat then cw else im_display im) /\
    from_pixel_block p (im_block im) (im_data im) cw = Ok (im_block im').
Proof. exact crop_image_plain. Qed.
Print Assumptions C14_crop_options_partial.

(** With black_outside the call panics for every image and every window. *)
Theorem C14_black_outside_always_panics : forall p im cw reformat intersect,
  image_ok im -> well_formed cw -> coords_small cw ->
  count_fits (width cw) (height cw) (bs_nc (pb_size (im_block im))) ->
  crop_image_in_place p im cw reformat true intersect = Panic.
Proof. exact crop_image_black_outside. Qed.
Print Assumptions C14_black_outside_always_panics.

Definition ex_image : image := Image ex_block (BBox 0 0 2 2) (BBox (-1) 0 2 2).

Example C14_hypotheses_met :
  image_ok ex_image /\ well_formed (BBox 0 0 2 1) /\ coords_small (BBox 0 0 2 1) /\
  count_fits 2 1 2 /\
  crop_image_in_place Debug ex_image (BBox 0 0 2 1) true false false =
    Ok (Image (PB (BS 2 1 2) (DU8 [21;22; 31;32])) (BBox 0 0 2 1) (BBox 0 0 2 1)).
Proof. cbv; repeat split; intros; try discriminate; reflexivity. Qed.

Theorem C14_crop_options_refuted :
  exists im cw reformat intersect, image_ok im /\ well_formed cw /\
    crop_image_in_place Release im cw reformat true intersect = Panic.
Proof.
  exists ex_image, (BBox 0 0 2 1), false, false.
  cbv; repeat split; intros; try discriminate; reflexivity.
Qed.
Print Assumptions C14_crop_options_refuted.

(** The intersect option has no effect at all. *)
Theorem C14_intersect_ignored : forall p im cw reformat black,
  crop_image_in_place p im cw reformat black true = crop_image_in_place p im cw reformat black false.
Proof. reflexivity. Qed.
Print Assumptions C14_intersect_ignored.

(* ------------------------------ C15 ------------------------------ *)

Theorem C15_resize : forall p pb b t,
  t <> UnknownType -> 0 <= bs_w b -> 0 <= bs_h b -> 0 <= bs_nc b ->
  count_fits (bs_w b) (bs_h b) (bs_nc b) ->
  exists pb', pb_resize p pb b t = Ok pb' /\ pb_size pb' = b /\ wf_block pb' /\
    db_type (pb_data pb') = t /\
    forall i, 0 <= i < bs_w b * bs_h b * bs_nc b ->
      at_z (elems (pb_data pb')) i =
      if datatype_eqb (db_type (pb_data pb)) t && (i <? db_len (pb_data pb))
      then at_z (elems (pb_data pb)) i else Some (full_elem t).
Proof. exact pb_resize_spec. Qed.
Print Assumptions C15_resize.

Example C15_hypotheses_met :
  pb_resize Debug ex_block (BS 7 1 2) UInt8 =
    Ok (PB (BS 7 1 2) (DU8 [11;12; 21;22; 31;32; 41;42; 51;52; 61;62; 255;255])) /\
  pb_resize Debug ex_block (BS 1 1 2) UInt16 = Ok (PB (BS 1 1 2) (DU16 [65535; 65535])) /\
  count_fits 7 1 2.
Proof. cbv; repeat split; intros; try discriminate; reflexivity. Qed.

(* ------------------------------ C16 ------------------------------ *)

Theorem C16_u8_via_f32 : forall l, Forall is_u8 l -> round_trips (DU8 l) Float32.
Proof. exact u8_via_f32. Qed.
Print Assumptions C16_u8_via_f32.

Theorem C16_u8_via_u16 : forall l, Forall is_u8 l -> round_trips (DU8 l) UInt16.
Proof. exact u8_via_u16. Qed.
Print Assumptions C16_u8_via_u16.

Theorem C16_u16_via_f32 : forall l, Forall is_u16 l -> round_trips (DU16 l) Float32.
Proof. exact u16_via_f32. Qed.
Print Assumptions C16_u16_via_f32.

Theorem C16_half_via_f32 : forall l, Forall is_f16 l -> round_trips (DF16 l) Float32.
Proof. exact f16_via_f32. Qed.
Print Assumptions C16_half_via_f32.

(** Number and order of elements never change: conversion acts element by
    element with a function that depends on the two types only. *)
Theorem C16_pointwise : forall s t, s <> UnknownType -> t <> UnknownType ->
  exists f : elem -> elem, forall d, db_type d = s ->
    exists d', db_convert d t = Ok d' /\ db_type d' = t /\ elems d' = map f (elems d).
Proof. exact convert_pointwise. Qed.
Print Assumptions C16_pointwise.

Theorem C16_results_in_range : forall d t d',
  db_convert d t = Ok d' -> db_type d <> t ->
  match d' with DU8 l => Forall is_u8 l | DU16 l => Forall is_u16 l | _ => True end.
Proof. exact convert_in_range. Qed.
Print Assumptions C16_results_in_range.

(** 8 to 16 bits is the exact widening x * 257. *)
Theorem C16_u8_to_u16_exact : forall x, 0 <= x < 256 -> f32_to_u16 (u8_to_f32 x) = 257 * x.
Proof. exact u8_u16_exact. Qed.
Print Assumptions C16_u8_to_u16_exact.

Example C16_hypotheses_met :
  Forall is_u8 [0; 1; 127; 255] /\
  db_convert (DU8 [0; 1; 127; 255]) UInt16 = Ok (DU16 [0; 257; 32639; 65535]).
Proof. split; [repeat constructor; unfold is_u8; lia|vm_compute; reflexivity]. Qed.

(** Finding: through half floats 8-bit values are lost (truncating cast);
    131 of the 256 values change. *)
Theorem C16_half_refuted :
  exists l, Forall is_u8 l /\ ~ round_trips (DU8 l) Half16.
Proof.
  exists [1]. split; [repeat constructor; unfold is_u8; lia|].
  intros (d' & E1 & _ & E2). vm_compute in E1. injection E1 as <-. vm_compute in E2. discriminate.
Qed.
Print Assumptions C16_half_refuted.

(* ------------------------------ C17 ------------------------------ *)

(** The buffer is complete for 8-bit images. *)
Theorem C17_pixel_buffer_u8_partial : forall p l,
  zlen l < two31 -> db_size_bytes p (DU8 l) = Ok (pixel_buffer_len (DU8 l)).
Proof. exact pixel_buffer_u8. Qed.
Print Assumptions C17_pixel_buffer_u8_partial.

(** For every other type it is short by the element size. *)
Theorem C17_pixel_buffer_truncated : forall p pb s,
  wf_block pb -> bs_w (pb_size pb) * bs_h (pb_size pb) * bs_nc (pb_size pb) < two31 ->
  type_size_bytes (db_type (pb_data pb)) = Ok s ->
  db_size_bytes p (pb_data pb) = Ok (pixel_buffer_len (pb_data pb) * s).
Proof. exact pixel_buffer_scaled. Qed.
Print Assumptions C17_pixel_buffer_truncated.

Theorem C17_pixel_buffer_refuted :
  exists pb, wf_block pb /\ db_size_bytes Debug (pb_data pb) = Ok 16 /\
    pixel_buffer_len (pb_data pb) = 4.
Proof.
  exists (PB (BS 1 1 4) (DF32 [f32_one; f32_one; f32_one; f32_one])).
  cbv; repeat split; intros; try discriminate; reflexivity.
Qed.
Print Assumptions C17_pixel_buffer_refuted.

(* ------------------------------ C18 ------------------------------ *)

Theorem C18_size_bytes : forall p pb,
  wf_block pb -> bs_w (pb_size pb) * bs_h (pb_size pb) * bs_nc (pb_size pb) < two31 ->
  exists s, type_size_bytes (db_type (pb_data pb)) = Ok s /\
    db_size_bytes p (pb_data pb) =
    Ok (bs_w (pb_size pb) * bs_h (pb_size pb) * bs_nc (pb_size pb) * s).
Proof. exact size_bytes_exact. Qed.
Print Assumptions C18_size_bytes.

Theorem C18_channel_sizes :
  type_size_bytes UInt8 = Ok 1 /\ type_size_bytes Half16 = Ok 2 /\
  type_size_bytes UInt16 = Ok 2 /\ type_size_bytes Float32 = Ok 4.
Proof. exact (conj eq_refl (conj eq_refl (conj eq_refl eq_refl))). Qed.
Print Assumptions C18_channel_sizes.

Example C18_hypotheses_met : wf_block ex_block /\ db_size_bytes Debug (pb_data ex_block) = Ok 12.
Proof. cbv; repeat split; intros; try discriminate; reflexivity. Qed.

(* ------------------------------ C19 ------------------------------ *)

(** What the two accessors really return: the column is in elements, and the row
    is right exactly when dividing by the height instead of the width agrees. *)
Theorem C19_row_column_partial : forall b x y,
  index_block_ok b -> 0 <= x < bs_w b -> 0 <= y < bs_h b ->
  exists i, bi_from_xy b x y = Ok i /\
    bi_column i = Ok (x * bs_nc b) /\
    bi_row i = Ok ((y * bs_w b + x) / bs_h b).
Proof. exact block_index_xy. Qed.
Print Assumptions C19_row_column_partial.

(** The same index is made from the position of the pixel's first element. *)
Theorem C19_from_position : forall b x y,
  index_block_ok b -> 0 <= x < bs_w b -> 0 <= y < bs_h b ->
  bi_from_xy b x y = Ok (bi_from_index b ((y * bs_w b + x) * bs_nc b)).
Proof. exact block_index_flat. Qed.
Print Assumptions C19_from_position.

Theorem C19_row_square_partial : forall b x y,
  index_block_ok b -> 0 <= x < bs_w b -> 0 <= y < bs_h b -> bs_w b = bs_h b ->
  (y * bs_w b + x) / bs_h b = y.
Proof. exact block_row_square. Qed.
Print Assumptions C19_row_square_partial.

Theorem C19_row_refuted :
  exists b x y i, index_block_ok b /\ 0 <= x < bs_w b /\ 0 <= y < bs_h b /\
    bi_from_xy b x y = Ok i /\ bi_row i = Ok 2 /\ y = 1.
Proof.
  exists (BS 4 2 3), 0, 1, (BI 12 4 2 3).
  cbv; repeat split; intros; try discriminate; reflexivity.
Qed.
Print Assumptions C19_row_refuted.

(** Row slices, by contrast, are exact ... *)
Theorem C19_row_slice_exact : forall w h nc data y,
  0 <= w -> 0 <= nc -> zlen data = w * h * nc -> 0 <= y < h ->
  exists r, row_as_slice w nc data y = Ok r /\ zlen r = w * nc /\
    forall x c, 0 <= x < w -> 0 <= c < nc ->
      at_z r (x * nc + c) = at_z data ((y * w + x) * nc + c).
Proof. exact row_slice_exact. Qed.
Print Assumptions C19_row_slice_exact.

(** ... but indexing the same row object disagrees with its slice. *)
Theorem C19_row_operator_refuted :
  exists w h nc data y ix r a b, zlen data = w * h * nc /\ 0 <= y < h /\
    row_as_slice w nc data y = Ok r /\ idx r ix = Ok a /\ row_index w data y ix = Ok b /\ a <> b.
Proof.
  exists 1, 2, 2, [f32_of_Z 1; f32_of_Z 2; f32_of_Z 3; f32_of_Z 4], 1, 0,
    [f32_of_Z 3; f32_of_Z 4], (f32_of_Z 3), (f32_of_Z 2).
  repeat split; try lia; try reflexivity. vm_compute. discriminate.
Qed.
Print Assumptions C19_row_operator_refuted.

(** They agree in images of one channel. *)
Theorem C19_row_operator_partial : forall w h data y r ix,
  0 <= w -> zlen data = w * h -> 0 <= y < h -> 0 <= ix < w -> row_as_slice w 1 data y = Ok r ->
  exists v, idx r ix = Ok v /\ row_index w data y ix = Ok v.
Proof. exact row_operator. Qed.
Print Assumptions C19_row_operator_partial.

Example C19_row_operator_example : exists r,
  row_as_slice 2 1 [f32_of_Z 1; f32_of_Z 2; f32_of_Z 3; f32_of_Z 4] 1 = Ok r
  /\ idx r 1 = Ok (f32_of_Z 4) /\ row_index 2 [f32_of_Z 1; f32_of_Z 2; f32_of_Z 3; f32_of_Z 4] 1 1 = Ok (f32_of_Z 4).
Proof. eexists. split; [reflexivity|]. split; reflexivity. Qed.

(* ------------------------------ C20 ------------------------------ *)

Theorem C20_sample_rgba : forall p pixels w h nc x y,
  block4_ok w h nc -> 4 <= nc -> zlen pixels = w * h * nc ->
  exists sx sy r g b a,
    sample_rgba p pixels w h nc (w * nc) x y = Ok (r, g, b, a) /\
    nearest_coord x w sx /\ nearest_coord y h sy /\
    at_z pixels ((sy * w + sx) * nc) = Some r /\
    at_z pixels ((sy * w + sx) * nc + 1) = Some g /\
    at_z pixels ((sy * w + sx) * nc + 2) = Some b /\
    at_z pixels ((sy * w + sx) * nc + 3) = Some a.
Proof. exact sample_rgba_ok. Qed.
Print Assumptions C20_sample_rgba.

Theorem C20_sample_rgb : forall p pixels w h nc x y,
  block4_ok w h nc -> 3 <= nc -> zlen pixels = w * h * nc ->
  exists sx sy r g b,
    sample_rgb p pixels w h nc (w * nc) x y = Ok (r, g, b) /\
    nearest_coord x w sx /\ nearest_coord y h sy /\
    at_z pixels ((sy * w + sx) * nc) = Some r /\
    at_z pixels ((sy * w + sx) * nc + 1) = Some g /\
    at_z pixels ((sy * w + sx) * nc + 2) = Some b.
Proof. exact sample_rgb_ok. Qed.
Print Assumptions C20_sample_rgb.

(** An image without rows or columns is black and transparent everywhere. *)
Theorem C20_empty : forall p pixels w h nc x y,
  0 <= w < two31 -> 0 <= h < two31 -> 1 <= nc < two31 -> w * nc < two31 -> w = 0 \/ h = 0 ->
  sample_rgba p pixels w h nc (w * nc) x y = Ok (f32_zero, f32_zero, f32_zero, f32_zero) /\
  sample_rgb p pixels w h nc (w * nc) x y = Ok (f32_zero, f32_zero, f32_zero).
Proof. exact sample_empty. Qed.
Print Assumptions C20_empty.

Example C20_hypotheses_met :
  let px := map f32_of_Z [1;2;3;4;5;6] in
  block4_ok 2 1 3 /\ zlen px = 2 * 1 * 3 /\
  sample_rgb Debug px 2 1 3 6 (S754_infinity false) S754_nan =
    Ok (f32_of_Z 4, f32_of_Z 5, f32_of_Z 6) /\
  sample_rgb Debug px 2 1 3 6 (S754_finite false 12582912 (-25)) (S754_infinity true) =
    Ok (f32_of_Z 1, f32_of_Z 2, f32_of_Z 3). (* x = 0.375 *)
Proof. cbv; repeat split; intros; try discriminate; reflexivity. Qed.

(** Finding: an RGB(A) sampler on an image with fewer channels, or an empty
    image, is not protected: the last pixel of a 2-channel image is out of
    bounds. *)
Theorem C20_two_channels_refuted :
  exists px, zlen px = 1 * 1 * 2 /\ sample_rgb Debug px 1 1 2 2 f32_zero f32_zero = Panic.
Proof. exists [f32_one; f32_one]. split; reflexivity. Qed.
Print Assumptions C20_two_channels_refuted.

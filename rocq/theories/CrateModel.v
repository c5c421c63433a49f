(** The ways of reading and writing pictures with the Rust "image" crate:
    colorutils.rs, pixelblock/dynimage.rs, imagebuffer.rs and the branches of
    imageio.rs behind [use_oiio = false].  The functions are public, but no node
    reaches them.  Statistics for the log are left out. *)
From Coq Require Import Floats.SpecFloat.
From Verif Require Import Machine Loops FloatModel BBoxModel PixelModel MergeModel StreamModel GradeModel DeformModel AttrModel NodeModel.

(** The literals of colorutils.rs as f32. *)
Definition lit_055 : f32 := f32_of_bits 1029785518.
Definition lit_04045 : f32 := f32_of_bits 1025879782.
Definition lit_1292 : f32 := f32_of_bits 1095678034.
Definition lit_24 : f32 := f32_of_bits 1075419546.
Definition lit_0031308 : f32 := f32_of_bits 994913820.

Section Crate.
Variable p : profile.
(** [fastapprox::faster::pow] *)
Variable pow : f32 -> f32 -> f32.

(** colorutils.rs 26-33 *)
Definition srgb_to_linear (x : f32) : f32 :=
  if f32_le x lit_04045 then f32_mul x (f32_div f32_one lit_1292)
  else pow (f32_mul (f32_add x lit_055) (f32_div f32_one (f32_add f32_one lit_055))) lit_24.
(** colorutils.rs 37-44 *)
Definition linear_to_srgb (x : f32) : f32 :=
  if f32_le x lit_0031308 then f32_mul x lit_1292
  else f32_sub (f32_mul (f32_add f32_one lit_055) (pow x (f32_div f32_one lit_24))) lit_055.

(** [image::DynamicImage] as far as it is looked at: the size, the kind of its
    colours and, for the two kinds that are taken, its samples. *)
Inductive kind := Rgb8 | Rgba8 | OtherKind.
Record dynimage := DynImage { di_w : Z; di_h : Z; di_kind : kind; di_samples : list Z }.

(** dynimage.rs 35-83; [u32 as i32] wraps. *)
Definition from_dynamic_image (img : dynimage) : Res pixelblock :=
  let w := wrap_i32 (di_w img) in
  let h := wrap_i32 (di_h img) in
  let nc := match di_kind img with Rgb8 => 3 | Rgba8 => 4 | OtherKind => 0 end in
  let* samples := match di_kind img with OtherKind => Panic | _ => Ok (di_samples img) end in
  let pixels := map (fun x => srgb_to_linear (f32_div (f32_of_Z x) (f32_of_Z 255))) samples in
  pb_from_datablock p (BS w h nc) (DF32 pixels).

(** [image::ImageBuffer] of [n] 8-bit channels; [from_raw] takes any buffer
    that is large enough. *)
Record imagebuffer := ImageBuffer { ib_w : Z; ib_h : Z; ib_n : Z; ib_samples : list Z }.
Definition from_raw (w h n : Z) (samples : list Z) : option imagebuffer :=
  if w * h * n <=? zlen samples then Some (ImageBuffer w h n samples) else None.

(** imagebuffer.rs 28-56 ([n] = 3) and 58-93 ([n] = 4); [i32 as u32] wraps. *)
Definition image_buffer_u8 (n : Z) (img : shared) : Res imagebuffer :=
  let b := pb_size (sh_block img) in
  let* pixels := slice_f32 (pb_data (sh_block img)) in
  let samples := map (fun x => f32_as_u8 (f32_mul (linear_to_srgb x) (f32_of_Z 255))) pixels in
  match from_raw (bs_w b mod two32) (bs_h b mod two32) n samples with Some d => Ok d | None => Panic end.

(** imageio.rs 70-84: [opened] is what [image::open] makes of the path. *)
Definition read_with_crate (opened : option dynimage) : Res shared :=
  match opened with
  | None => Panic
  | Some img =>
      let* pb := from_dynamic_image img in
      let win := BBox 0 0 (bs_w (pb_size pb)) (bs_h (pb_size pb)) in
      Ok (Shared pb win win spec_new)
  end.
(** imageio.rs 142-163: [save] tells whether the file was written. *)
Definition write_with_crate (save : imagebuffer -> bool) (img : shared) : Res bool :=
  let nc := bs_nc (pb_size (sh_block img)) in
  if nc =? 3 then let* b := image_buffer_u8 3 img in Ok (save b)
  else if nc =? 4 then let* b := image_buffer_u8 4 img in Ok (save b)
  else Ok false.
End Crate.

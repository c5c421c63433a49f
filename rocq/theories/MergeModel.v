(** Model of src/ops/imagemerge.rs. *)
From Coq Require Import Floats.SpecFloat.
From Verif Require Import Machine Loops FloatModel BBoxModel PixelModel.

(** src/cxxbridge.rs: enum MergeImageMode; CXX shared enums admit other codes. *)
Inductive merge_mode : Type := MAdd | MOver | MMultiply | MUninitialized | MOtherCode.

(** datablock.rs 80-86 (as_slice_f32 panics on another element type) *)
Definition slice_f32 (d : datablock) : Res (list f32) :=
  match d with DF32 l => Ok l | _ => Panic end.

(** imagemerge.rs 32-57.  [pixels[i + 0]] reads are bounds-checked. *)
Definition get_pixel_rgba (p : profile) (im : image) (x y : Z) : Res (f32 * f32 * f32 * f32) :=
  let* pixels := slice_f32 (pb_data (im_block im)) in
  let nc := bs_nc (pb_size (im_block im)) in
  let* image_x := i32_of p (x - min_x (im_data im)) in
  let* image_y := i32_of p (y - min_y (im_data im)) in
  let* i := bs_get_index p (pb_size (im_block im)) image_x image_y in
  if i >=? 0 then
    let* r := idx pixels (i + 0) in
    let* g := idx pixels (i + 1) in
    let* b := idx pixels (i + 2) in
    let* a := (if nc =? 4 then idx pixels (i + 3) else Ok f32_zero) in
    Ok (r, g, b, a)
  else Ok (f32_zero, f32_zero, f32_zero, f32_zero).

(** imagemerge.rs 129-156 *)
Definition merge_pixel (mode : merge_mode) (mix : f32)
  (pa pb : f32 * f32 * f32 * f32) : Res (f32 * f32 * f32 * f32) :=
  let '(ra, ga, ba, aa) := pa in
  let '(rb, gb, bb, ab) := pb in
  match mode with
  | MAdd =>
      let mask := mix in
      Ok (f32_add ra (f32_mul rb mask), f32_add ga (f32_mul gb mask),
          f32_add ba (f32_mul bb mask), f32_add aa (f32_mul ab mask))
  | MOver =>
      let mask := f32_mul (f32_sub f32_one aa) mix in
      Ok (f32_add ra (f32_mul rb mask), f32_add ga (f32_mul gb mask),
          f32_add ba (f32_mul bb mask), f32_add aa (f32_mul ab mask))
  | MMultiply =>
      let mask := mix in
      Ok (f32_mul ra (f32_mul rb mask), f32_mul ga (f32_mul gb mask),
          f32_mul ba (f32_mul bb mask), f32_mul aa (f32_mul ab mask))
  | _ => Panic
  end.

(** imagemerge.rs 158-165: writes one output pixel at [index]. *)
Definition put_pixel (out : list f32) (index stride : Z) (v : f32 * f32 * f32 * f32)
  : Res (list f32) :=
  let '(r, g, b, a) := v in
  let* out := set_idx out (index + 0) r in
  let* out := set_idx out (index + 1) g in
  let* out := set_idx out (index + 2) b in
  if stride =? 4 then set_idx out (index + 3) a else Ok out.

(** imagemerge.rs 125-166: one pixel of the loop; the state is (pixels, index). *)
Definition merge_step (p : profile) (mode : merge_mode) (ima imb : image) (mix : f32)
  (stride row col : Z) (st : list f32 * Z) : Res (list f32 * Z) :=
  let (out, index) := st in
  let* va := get_pixel_rgba p ima col row in
  let* vb := get_pixel_rgba p imb col row in
  let* v := merge_pixel mode mix va vb in
  let* out := put_pixel out index stride v in
  let* index := add_u64 p index stride in
  Ok (out, index).

(** imagemerge.rs 75-171.  [None] is the early [return false] (84-86), which
    leaves the output image as it was.  [display_window] and [spec] are taken
    from B; the spec is not modelled. *)
Definition merge (p : profile) (mode : merge_mode) (ima imb : image) (mix : f32) (out : image)
  : Res (option image) :=
  match mode with
  | MUninitialized => Ok None
  | _ =>
    if negb (datatype_eqb (db_type (pb_data (im_block ima))) Float32) then Panic else
    if negb (datatype_eqb (db_type (pb_data (im_block imb))) Float32) then Panic else
    let w := combine (im_data ima) (im_data imb) in
    let* ww := width_i32 p w in
    let* wh := height_i32 p w in
    let* blk := pb_resize p (im_block out) (BS ww wh (bs_nc (pb_size (im_block imb)))) Float32 in
    let stride := i32_as_usize (bs_nc (pb_size blk)) in
    let* pixels := slice_f32 (pb_data blk) in
    let* st := for_range (min_y w) (max_y w)
      (fun row => for_range (min_x w) (max_x w)
         (fun col => merge_step p mode ima imb mix stride row col)) (pixels, 0) in
    Ok (Some (Image (PB (pb_size blk) (DF32 (fst st))) (im_display imb) w))
  end.

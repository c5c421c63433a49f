(** Model of src/pixelblock/{blocksize,datablock,datatype,pixelblock,utils}.rs,
    src/pixelblock/pixelblock/{index,row}.rs, src/pixel.rs,
    src/ops/imagecrop.rs and of StreamDataImpl::pixel_buffer (src/stream.rs).

    i32 arithmetic goes through [i32_of p] (debug: overflow panics; release:
    wraps).  Additions of two usize values obtained from i32 casts cannot
    overflow 64 bits in the proved range and are written on Z. *)
From Coq Require Import Floats.SpecFloat.
From Verif Require Import Machine Loops FloatModel BBoxModel.

(** src/cxxbridge.rs 272-283: enum DataType (repr u8; CXX shared enums admit
    other values, collapsed into [Unknown]). *)
Inductive datatype : Type := Float32 | Half16 | UInt8 | UInt16 | UnknownType.

(** src/cxxbridge.rs 120-124: struct BlockSize. *)
Record blocksize : Type := BS { bs_w : Z; bs_h : Z; bs_nc : Z }.

(** blocksize.rs 78-80 *)
Definition bs_size (p : profile) (b : blocksize) : Res Z :=
  let* a := i32_of p (bs_w b * bs_h b) in
  let* n := i32_of p (a * bs_nc b) in
  Ok (i32_as_usize n).

(** blocksize.rs 30-41 and, identically, utils.rs 172-189 *)
Definition get_pixel_index (p : profile) (w h xs ys x y : Z) : Res Z :=
  let* index_x := i32_of p (x * xs) in
  let* index_y := i32_of p (y * ys) in
  let* w1 := i32_of p (w - 1) in
  let* max_x := i32_of p (w1 * xs) in
  let* h1 := i32_of p (h - 1) in
  let* max_y := i32_of p (h1 * ys) in
  let* index := i32_of p (index_x + index_y) in
  if (index_x <? 0) || (index_x >? max_x) || (index_y <? 0) || (index_y >? max_y)
  then Ok (-1) else Ok index.

(** blocksize.rs 82-86 *)
Definition bs_get_index (p : profile) (b : blocksize) (x y : Z) : Res Z :=
  let xs := bs_nc b in
  let* ys := i32_of p (bs_w b * xs) in
  get_pixel_index p (bs_w b) (bs_h b) xs ys x y.

(** blocksize.rs 88-94; [ix] is a usize; division by zero panics; the [as i32]
    casts wrap. *)
Definition bs_get_xy (p : profile) (b : blocksize) (ix : Z) : Res (Z * Z) :=
  let* rs := i32_of p (bs_w b * bs_nc b) in
  let row_stride := i32_as_usize rs in
  if row_stride =? 0 then Panic else
  let row_ix := ix mod row_stride in
  let nc := i32_as_usize (bs_nc b) in
  if nc =? 0 then Panic else
  Ok (wrap_i32 (row_ix / nc), wrap_i32 (ix / row_stride)).

(** datablock.rs 34-41 *)
Inductive datablock : Type :=
| DF32 (l : list f32)
| DU8 (l : list Z)
| DU16 (l : list Z)
| DF16 (l : list f16).

(** pixelblock.rs 47-51 *)
Record pixelblock : Type := PB { pb_size : blocksize; pb_data : datablock }.

(** datablock.rs 198-205, 207-214 *)
Definition db_type (d : datablock) : datatype :=
  match d with DF32 _ => Float32 | DU8 _ => UInt8 | DU16 _ => UInt16 | DF16 _ => Half16 end.
Definition db_len (d : datablock) : Z :=
  match d with DF32 l => zlen l | DU8 l => zlen l | DU16 l => zlen l | DF16 l => zlen l end.

(** datatype.rs 28-39 *)
Definition type_size_bytes (t : datatype) : Res Z :=
  match t with
  | UInt8 => Ok 1 | Half16 => Ok 2 | Float32 => Ok 4 | UInt16 => Ok 2 | UnknownType => Panic
  end.

(** datablock.rs 216-220 *)
Definition db_size_bytes (p : profile) (d : datablock) : Res Z :=
  let* s := type_size_bytes (db_type d) in mul_u64 p (db_len d) s.

(** datablock.rs 49-69 *)
Definition db_new (size : Z) (t : datatype) : Res datablock :=
  match t with
  | Float32 => let* l := alloc size f32_zero in Ok (DF32 l)
  | UInt8 => let* l := alloc size 0 in Ok (DU8 l)
  | Half16 => let* l := alloc size f32_zero in Ok (DF16 l)
  | UInt16 => let* l := alloc size 0 in Ok (DU16 l)
  | UnknownType => Panic
  end.

(** datablock.rs 222-274 *)
Definition db_resize (d : datablock) (n : Z) (t : datatype) : Res datablock :=
  if n >=? 2 ^ 63 then Panic (* capacity overflow *) else
  let k := Z.to_nat n in
  match t with
  | Float32 => match d with
               | DF32 l => Ok (DF32 (vec_resize l k f32_one))
               | _ => Ok (DF32 (repeat f32_one k))
               end
  | UInt8 => match d with
             | DU8 l => Ok (DU8 (vec_resize l k 255))
             | _ => Ok (DU8 (repeat 255 k))
             end
  | UInt16 => match d with
              | DU16 l => Ok (DU16 (vec_resize l k 65535))
              | _ => Ok (DU16 (repeat 65535 k))
              end
  | Half16 => match d with
              | DF16 l => Ok (DF16 (vec_resize l k f16_one))
              | _ => Ok (DF16 (repeat f16_one k))
              end
  | UnknownType => Panic
  end.

(** utils.rs 28-119: element conversions (the closures). *)
Definition u8_to_f32 (x : Z) : f32 := f32_div (f32_of_Z x) (f32_of_Z 255).
Definition u16_to_f32 (x : Z) : f32 := f32_div (f32_of_Z x) (f32_of_Z 65535).
Definition f32_to_u8 (x : f32) : Z := f32_as_u8 (f32_mul x (f32_of_Z 255)).
Definition f32_to_u16 (x : f32) : Z := f32_as_u16 (f32_mul x (f32_of_Z 65535)).

(** utils.rs 28-47 (the [_] arm is unreachable from convert_into_data_type) *)
Definition to_f32 (d : datablock) : Res (list f32) :=
  match d with
  | DF16 l => Ok (map f32_of_f16 l)
  | DU8 l => Ok (map u8_to_f32 l)
  | DU16 l => Ok (map u16_to_f32 l)
  | DF32 _ => Panic
  end.
(** utils.rs 49-68 *)
Definition to_f16 (d : datablock) : Res (list f16) :=
  match d with
  | DF32 l => Ok (map f16_of_f32 l)
  | DU8 l => Ok (map (fun x => f16_of_f32 (u8_to_f32 x)) l)
  | DU16 l => Ok (map (fun x => f16_of_f32 (u16_to_f32 x)) l)
  | DF16 _ => Panic
  end.
(** utils.rs 70-95 *)
Definition to_u16 (d : datablock) : Res (list Z) :=
  match d with
  | DF32 l => Ok (map f32_to_u16 l)
  | DF16 l => Ok (map (fun x => f32_to_u16 (f32_of_f16 x)) l)
  | DU8 l => Ok (map (fun x => f32_to_u16 (u8_to_f32 x)) l)
  | DU16 _ => Panic
  end.
(** utils.rs 97-119 *)
Definition to_u8 (d : datablock) : Res (list Z) :=
  match d with
  | DF32 l => Ok (map f32_to_u8 l)
  | DF16 l => Ok (map (fun x => f32_to_u8 (f32_of_f16 x)) l)
  | DU16 l => Ok (map (fun x => f32_to_u8 (u16_to_f32 x)) l)
  | DU8 _ => Panic
  end.

Definition datatype_eqb (a b : datatype) : bool :=
  match a, b with
  | Float32, Float32 | Half16, Half16 | UInt8, UInt8 | UInt16, UInt16
  | UnknownType, UnknownType => true
  | _, _ => false
  end.

(** datablock.rs 276-305 *)
Definition db_convert (d : datablock) (t : datatype) : Res datablock :=
  if datatype_eqb (db_type d) t then Ok d else
  match t with
  | Float32 => let* l := to_f32 d in Ok (DF32 l)
  | Half16 => let* l := to_f16 d in Ok (DF16 l)
  | UInt8 => let* l := to_u8 d in Ok (DU8 l)
  | UInt16 => let* l := to_u16 d in Ok (DU16 l)
  | UnknownType => Panic
  end.

(** pixelblock.rs 54-61 *)
Definition pb_new (p : profile) (b : blocksize) (t : datatype) : Res pixelblock :=
  let* n := bs_size p b in
  let* d := db_new n t in
  Ok (PB b d).

(** pixelblock.rs 101-109 *)
Definition pb_from_datablock (p : profile) (b : blocksize) (d : datablock) : Res pixelblock :=
  let* n := bs_size p b in
  if n =? db_len d then Ok (PB b d) else Panic.

(** pixelblock.rs 254-258 *)
Definition pb_resize (p : profile) (pb : pixelblock) (b : blocksize) (t : datatype)
  : Res pixelblock :=
  let* n := bs_size p b in
  let* d := db_resize (pb_data pb) n t in
  Ok (PB b d).

(** pixelblock.rs 260-262 *)
Definition pb_convert (pb : pixelblock) (t : datatype) : Res pixelblock :=
  let* d := db_convert (pb_data pb) t in Ok (PB (pb_size pb) d).

(** bbox2di.rs 93-99 and 89-91 with i32 arithmetic. *)
Definition width_i32 (p : profile) (b : bbox) : Res Z := i32_of p (max_x b - min_x b).
Definition height_i32 (p : profile) (b : bbox) : Res Z := i32_of p (max_y b - min_y b).
Definition area_u32 (p : profile) (b : bbox) : Res Z :=
  let* w := width_i32 p b in
  let* h := height_i32 p b in
  let* a := i32_of p (w * h) in
  Ok (a mod two32).

(** One iteration of the copy loop, pixelblock.rs 153-190. *)
Definition crop_row {A : Type} (p : profile) (src : list A) (nc : Z) (dw cw diff : bbox)
  (src_start_x src_end_x dst_off_x : Z) (y : Z) (dst : list A) : Res (list A) :=
  let* dst_row := i32_of p (y - min_y cw) in
  let* cww := width_i32 p cw in
  let* d1 := i32_of p (dst_row * cww) in
  let* d2 := i32_of p (d1 + dst_off_x) in
  let* d3 := i32_of p (d2 * nc) in
  let dst_start := i32_as_usize d3 in
  let* diffw := width_i32 p diff in
  let* rl := i32_of p (diffw * nc) in
  let dst_end := dst_start + i32_as_usize rl in
  let* src_row := i32_of p (y - min_y dw) in
  let* dww := width_i32 p dw in
  let* s1 := i32_of p (src_row * dww) in
  let* s2 := i32_of p (s1 * nc) in
  let src_row_index := i32_as_usize s2 in
  let src_start := src_row_index + i32_as_usize src_start_x in
  let src_end := src_row_index + i32_as_usize src_end_x in
  (* the destination slice is formed first, then the source slice *)
  let* _ := subslice dst dst_start dst_end in
  let* part := subslice src src_start src_end in
  copy_into dst dst_start dst_end part.

(** pixelblock.rs 140-190 for one element type. *)
Definition crop_rows {A : Type} (p : profile) (src : list A) (nc : Z) (dw cw diff : bbox)
  (dst : list A) : Res (list A) :=
  let* dst_off_x := i32_of p (min_x diff - min_x cw) in
  let* dx := i32_of p (min_x diff - min_x dw) in
  let* src_start_x := i32_of p (dx * nc) in
  let* diffw := width_i32 p diff in
  let* rl := i32_of p (diffw * nc) in
  let* src_end_x := i32_of p (src_start_x + rl) in
  for_range (min_y diff) (max_y diff)
    (crop_row p src nc dw cw diff src_start_x src_end_x dst_off_x) dst.

(** pixelblock.rs 115-198 *)
Definition from_pixel_block (p : profile) (pb : pixelblock) (dw cw : bbox) : Res pixelblock :=
  let* dww := width_i32 p dw in
  if negb (bs_w (pb_size pb) =? dww) then Panic else
  let* dwh := height_i32 p dw in
  if negb (bs_h (pb_size pb) =? dwh) then Panic else
  let diff := intersection dw cw in
  let* w := width_i32 p cw in
  let* h := height_i32 p cw in
  let nc := bs_nc (pb_size pb) in
  let b := BS w h nc in
  let* new := pb_new p b (db_type (pb_data pb)) in
  let* a := area_u32 p diff in
  if a =? 0 then Ok new else
  match pb_data new, pb_data pb with
  | DF32 dst, DF32 src => let* r := crop_rows p src nc dw cw diff dst in Ok (PB b (DF32 r))
  | DU8 dst, DU8 src => let* r := crop_rows p src nc dw cw diff dst in Ok (PB b (DU8 r))
  | DF16 dst, DF16 src => let* r := crop_rows p src nc dw cw diff dst in Ok (PB b (DF16 r))
  | DU16 dst, DU16 src => let* r := crop_rows p src nc dw cw diff dst in Ok (PB b (DU16 r))
  | _, _ => Panic (* as_slice_* of another type; unreachable *)
  end.

(** src/cxxbridge.rs 175-180: struct ImageShared, without the spec. *)
Record image : Type := Image { im_block : pixelblock; im_display : bbox; im_data : bbox }.

(** src/ops/imagecrop.rs 62-130.  On success the function returns [true], so
    the result is only the new image. *)
Definition crop_image_in_place (p : profile) (im : image) (cw : bbox)
  (reformat black_outside intersect : bool) : Res image :=
  let* nd :=
    if black_outside then
      let* a := i32_of p (min_x cw - 1) in
      let* b := i32_of p (min_y cw - 1) in
      let* c := i32_of p (max_x cw + 1) in
      let* d := i32_of p (max_y cw + 1) in
      Ok (BBox a b c d)
    else Ok cw in
  let new_display := if reformat then cw else im_display im in
  let* blk := from_pixel_block p (im_block im) (im_data im) cw in
  let* w := width_i32 p nd in
  if negb (w =? bs_w (pb_size blk)) then Panic else
  let* h := height_i32 p nd in
  if negb (h =? bs_h (pb_size blk)) then Panic else
  Ok (Image blk new_display nd).

(** src/pixelblock/pixelblock/index.rs 33-53 and 55-61 (usize arithmetic). *)
Record blockindex : Type := BI { bi_index : Z; bi_w : Z; bi_h : Z; bi_nc : Z }.
Definition bi_from_index (b : blocksize) (ix : Z) : blockindex :=
  BI ix (i32_as_usize (bs_w b)) (i32_as_usize (bs_h b)) (i32_as_usize (bs_nc b)).
Definition bi_from_xy (b : blocksize) (x y : Z) : Res blockindex :=
  let w := i32_as_usize (bs_w b) in
  let h := i32_as_usize (bs_h b) in
  if x >=? w then Panic else
  if y >=? h then Panic else
  let nc := i32_as_usize (bs_nc b) in
  Ok (BI (y * (w * nc) + x * nc) w h nc).
Definition bi_column (i : blockindex) : Res Z :=
  if bi_w i * bi_nc i =? 0 then Panic else Ok (bi_index i mod (bi_w i * bi_nc i)).
Definition bi_row (i : blockindex) : Res Z :=
  if bi_h i * bi_nc i =? 0 then Panic else Ok (bi_index i / (bi_h i * bi_nc i)).

(** src/pixelblock/pixelblock/row.rs 42-49 and 57-63, on a float block. *)
Definition row_as_slice (w nc : Z) (data : list f32) (row : Z) : Res (list f32) :=
  let stride := w * nc in
  subslice data (row * stride) ((row + 1) * stride).
Definition row_index (w : Z) (data : list f32) (row ix : Z) : Res f32 :=
  idx data (row * w + ix).

(** src/pixel.rs 26-56.  [(x.round() as i32).max(0).min(width - 1)] *)
Definition clamp_coord (p : profile) (x : f32) (n : Z) : Res Z :=
  let* n1 := i32_of p (n - 1) in
  Ok (Z.min (Z.max (f32_round_as_i32 x) 0) n1).

Definition sample_rgba (p : profile) (pixels : list f32) (w h xs ys : Z) (x y : f32)
  : Res (f32 * f32 * f32 * f32) :=
  let* sx := clamp_coord p x w in
  let* sy := clamp_coord p y h in
  let* i := get_pixel_index p w h xs ys sx sy in
  if i >=? 0 then
    let* r := idx pixels (i + 0) in
    let* g := idx pixels (i + 1) in
    let* b := idx pixels (i + 2) in
    let* a := idx pixels (i + 3) in
    Ok (r, g, b, a)
  else Ok (f32_zero, f32_zero, f32_zero, f32_zero).

(** src/pixel.rs 60-86 *)
Definition sample_rgb (p : profile) (pixels : list f32) (w h xs ys : Z) (x y : f32)
  : Res (f32 * f32 * f32) :=
  let* sx := clamp_coord p x w in
  let* sy := clamp_coord p y h in
  let* i := get_pixel_index p w h xs ys sx sy in
  if i >=? 0 then
    let* r := idx pixels (i + 0) in
    let* g := idx pixels (i + 1) in
    let* b := idx pixels (i + 2) in
    Ok (r, g, b)
  else Ok (f32_zero, f32_zero, f32_zero).

(** stream.rs 216-224 with utils.rs 195-225: [transmute::<&[T], &[u8]>] keeps
    the slice's length field, so the byte view has as many *bytes* as the
    original had *elements*. *)
Definition pixel_buffer_len (d : datablock) : Z :=
  match d with DF32 l => zlen l | DU8 l => zlen l | DF16 l => zlen l | DU16 l => zlen l end.

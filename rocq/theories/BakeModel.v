(** Model of src/ops/bake.rs. *)
From Coq Require String.
Import String.StringSyntax.
From Coq Require Import Floats.SpecFloat.
From Verif Require Import Machine Loops FloatModel BBoxModel PixelModel MergeModel EnumModel AttrModel
  StreamModel GradeModel DeformModel.

(** Byte-string equality. *)
Fixpoint bytes_eqb (a b : list Z) : bool :=
  match a, b with
  | [], [] => true
  | x :: a, y :: b => (x =? y) && bytes_eqb a b
  | _, _ => false
  end.

Definition datatype_of (e : e_data_type) : datatype :=
  match e with
  | DtFloat32 => Float32 | DtHalf16 => Half16 | DtUInt8 => UInt8 | DtUInt16 => UInt16
  | DtUnknown => UnknownType
  end.

Section Bake.
Variable p : profile.
Variable nx : numerics.
(** oiio_color_convert_inplace (OpenColorIO): pixels, width, height, channels,
    alpha channel, unassociated alpha, source and destination colour space;
    [None] is failure, which is taken to leave the pixels alone. *)
Variable convert : list f32 -> Z -> Z -> Z -> Z -> bool -> list Z -> list Z -> option (list f32).

(** bake.rs 38-94 *)
Definition bake_colorspace (blk : pixelblock) (sp : image_spec) (from to : list Z)
  : Res (pixelblock * image_spec) :=
  let* blk := pb_convert blk Float32 in
  if bytes_eqb from to then Ok (blk, sp) else
  let b := pb_size blk in
  let alpha := if bs_nc b >? 3 then 3 else -1 in
  let* pixels := slice_f32 (pb_data blk) in
  match convert pixels (bs_w b) (bs_h b) (bs_nc b) alpha (sp_unassociated_alpha sp) from to with
  | Some px => Ok (PB b (DF32 px), set_color_space sp to)
  | None => Ok (blk, sp)
  end.

(** bake.rs 97-115 *)
Definition bake_colorgrade (blk : pixelblock) (m : mat4) (ops : list vals) : Res pixelblock :=
  let nc := bs_nc (pb_size blk) in
  let* pixels := slice_f32 (pb_data blk) in
  let* pixels := apply_color_matrix m nc pixels in
  let* pixels := apply_color_ops (nx_powf nx) ops nc pixels in
  Ok (PB (pb_size blk) (DF32 pixels)).

(** bake.rs 117-134 *)
Definition bake_stream_colorgrade (blk : pixelblock) (s : stream) : Res (pixelblock * stream) :=
  let* blk := bake_colorgrade blk (st_matrix s) (st_ops s) in
  Ok (blk, clear_color_ops (set_color_matrix s identity4)).

(** What do_process changes. *)
Record baked := Baked { bk_block : pixelblock; bk_data : bbox; bk_spec : image_spec; bk_stream : stream }.

(** bake.rs 138-239 *)
Definition do_process (opt : e_bake) (blk : pixelblock) (display data : bbox) (sp : image_spec)
    (s : stream) (from to : list Z) (ty : datatype) : Res baked :=
  let ty := match ty with UnknownType => db_type (pb_data blk) | _ => ty end in
  match opt with
  | BakeNothing => Ok (Baked blk data sp s)
  | BakeColorSpace =>
      let* (blk, sp) := bake_colorspace blk sp from to in
      let* blk := pb_convert blk ty in
      Ok (Baked blk data sp s)
  | BakeColorSpaceAndGrade =>
      let* (blk, sp) := bake_colorspace blk sp from linear_name in
      let* (blk, s) := bake_stream_colorgrade blk s in
      let* (blk, sp) := bake_colorspace blk sp linear_name to in
      let sp := set_color_space sp to in
      let* blk := pb_convert blk ty in
      Ok (Baked blk data sp s)
  | BakeAll =>
      let* (blk, sp) := bake_colorspace blk sp from linear_name in
      let* (blk, s) := bake_stream_colorgrade blk s in
      let* (blk, data) := deform_pixels nx p (st_deformers s) display blk data in
      let s := clear_deformers s in
      let* (blk, sp) := bake_colorspace blk sp linear_name to in
      let sp := set_color_space sp to in
      let* blk := pb_convert blk ty in
      Ok (Baked blk data sp s)
  | BakeUninitialized => Panic
  end.
End Bake.

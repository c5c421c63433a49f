(** Model of the data that nodes pass along: src/stream.rs, src/imagespec.rs,
    src/data/matrix.rs, and the operations pending on a stream
    (src/colorop/colorgrade.rs, src/deformer/*.rs as attribute values).

    Left out: reference counting ([Rc] sharing is value equality because shared
    pixel blocks are never mutated in place). *)
From Coq Require String.
Import String.StringSyntax.
From Coq Require Import Floats.SpecFloat.
From Verif Require Import Machine FloatModel BBoxModel PixelModel AttrModel.

(** An f32 from its bit pattern. *)
Definition f32_of_bits (b : Z) : f32 :=
  let s := negb (Z.shiftr b 31 =? 0) in
  let e := Z.land (Z.shiftr b 23) 255 in
  let f := Z.land b 8388607 in
  if e =? 255 then (if f =? 0 then S754_infinity s else S754_nan)
  else if e =? 0 then match f with Zpos m => S754_finite s m (-149) | _ => S754_zero s end
  else match f + 8388608 with Zpos m => S754_finite s m (e - 150) | _ => S754_nan end.

(** cxxbridge.rs 164-173 [ImageSpec]; floats as bit patterns. *)
Record image_spec := Spec {
  sp_color_space : list Z;
  sp_gamma : Z;
  sp_pixel_aspect : Z;
  sp_orientation : Z;
  sp_unassociated_alpha : bool;
  sp_dither : Z
}.
(** imagespec.rs 29-38 *)
Definition spec_new : image_spec := Spec linear_name f1 f1 0 false 0.
(** imagespec.rs 44-46 *)
Definition set_color_space (s : image_spec) (c : list Z) : image_spec :=
  Spec c (sp_gamma s) (sp_pixel_aspect s) (sp_orientation s) (sp_unassociated_alpha s) (sp_dither s).

(** cxxbridge.rs 175-180 [ImageShared]. *)
Record shared := Shared { sh_block : pixelblock; sh_display : bbox; sh_data : bbox; sh_spec : image_spec }.
(** The image functions of PixelModel and MergeModel do not look at the spec. *)
Definition plain (s : shared) : image := Image (sh_block s) (sh_display s) (sh_data s).
Definition with_plain (i : image) (sp : image_spec) : shared :=
  Shared (im_block i) (im_display i) (im_data i) sp.

(** The attribute values of a colour operation or deformer, by field name. *)
Record vals := Vals { v_i32 : list (string * Z); v_f32 : list (string * Z) }.
Definition vi (v : vals) (n : string) : Z := table 0 (v_i32 v) n.
Definition vf (v : vals) (n : string) : Z := table 0 (v_f32 v) n.

Inductive deformer := DTransform (v : vals) | DTde4 (v : vals) | DBrownian (v : vals).
Definition def_vals (d : deformer) : vals :=
  match d with DTransform v => v | DTde4 v => v | DBrownian v => v end.

(** cxxbridge.rs 126-146 [Matrix4], row by row. *)
Definition mat4 := list f32.
Definition mat (m : mat4) (i j : nat) : f32 := nth (4 * i + j) m f32_zero.
(** matrix.rs 55-77 *)
Definition identity4 : mat4 :=
  let o := f32_one in let z := f32_zero in
  [o; z; z; z;  z; o; z; z;  z; z; o; z;  z; z; z; o].

(** cxxbridge.rs 314-319 [StreamDataState]. *)
Inductive data_state := SdInvalid | SdValid.
(** stream.rs 43-54 [StreamDataImpl]. *)
Record stream := Stream {
  st_state : data_state;
  st_hash : Z;
  st_display : bbox;
  st_data : bbox;
  st_matrix : mat4;
  st_spec : image_spec;
  st_block : pixelblock;
  st_deformers : list deformer;
  st_ops : list vals
}.

(** data.rs 71-95: 0.9215 and 0.0627 as f32. *)
Definition bar_hi : f32 := S754_finite false 15460205 (-24).
Definition bar_lo : f32 := S754_finite false 8415452 (-27).
Definition color_bars : pixelblock :=
  let top := [bar_hi; bar_hi; bar_hi; bar_hi; bar_hi; bar_lo;
              bar_lo; bar_hi; bar_hi; bar_lo; bar_hi; bar_lo] in
  let bottom := [bar_hi; bar_lo; bar_hi; bar_hi; bar_lo; bar_lo;
                 bar_lo; bar_lo; bar_hi; bar_lo; bar_lo; bar_lo] in
  PB (BS 4 4 3) (DF32 (top ++ top ++ bottom ++ bottom)).

(** stream.rs 57-82 *)
Definition stream_new : stream :=
  Stream SdInvalid 0 (BBox 0 0 4 4) (BBox 0 0 4 4) identity4 spec_new color_bars [] [].

(** stream.rs 88-94, cxxbridge.rs 314-319: the state as a number, and its
    setter, which no code calls. *)
Definition state_id (s : stream) : Z := match st_state s with SdInvalid => 0 | SdValid => 1 end.
Definition set_state (s : stream) (v : data_state) : stream :=
  Stream v (st_hash s) (st_display s) (st_data s) (st_matrix s) (st_spec s) (st_block s) (st_deformers s) (st_ops s).

(** stream.rs 104-199: the other setters. *)
Definition set_hash (s : stream) (h : Z) : stream :=
  Stream (st_state s) h (st_display s) (st_data s) (st_matrix s) (st_spec s) (st_block s) (st_deformers s) (st_ops s).
Definition set_display_window (s : stream) (b : bbox) : stream :=
  Stream (st_state s) (st_hash s) b (st_data s) (st_matrix s) (st_spec s) (st_block s) (st_deformers s) (st_ops s).
Definition set_data_window (s : stream) (b : bbox) : stream :=
  Stream (st_state s) (st_hash s) (st_display s) b (st_matrix s) (st_spec s) (st_block s) (st_deformers s) (st_ops s).
Definition set_color_matrix (s : stream) (m : mat4) : stream :=
  Stream (st_state s) (st_hash s) (st_display s) (st_data s) m (st_spec s) (st_block s) (st_deformers s) (st_ops s).
Definition set_image_spec (s : stream) (sp : image_spec) : stream :=
  Stream (st_state s) (st_hash s) (st_display s) (st_data s) (st_matrix s) sp (st_block s) (st_deformers s) (st_ops s).
Definition set_pixel_block (s : stream) (b : pixelblock) : stream :=
  Stream (st_state s) (st_hash s) (st_display s) (st_data s) (st_matrix s) (st_spec s) b (st_deformers s) (st_ops s).
Definition push_deformer (s : stream) (d : deformer) : stream :=
  Stream (st_state s) (st_hash s) (st_display s) (st_data s) (st_matrix s) (st_spec s) (st_block s)
    (st_deformers s ++ [d]) (st_ops s).
Definition clear_deformers (s : stream) : stream :=
  Stream (st_state s) (st_hash s) (st_display s) (st_data s) (st_matrix s) (st_spec s) (st_block s) [] (st_ops s).
Definition push_color_op (s : stream) (o : vals) : stream :=
  Stream (st_state s) (st_hash s) (st_display s) (st_data s) (st_matrix s) (st_spec s) (st_block s)
    (st_deformers s) (st_ops s ++ [o]).
Definition clear_color_ops (s : stream) : stream :=
  Stream (st_state s) (st_hash s) (st_display s) (st_data s) (st_matrix s) (st_spec s) (st_block s)
    (st_deformers s) [].

(** Model of the bytes that nodes feed to their hasher (src/hashutils.rs,
    src/node/<type>.rs [attr_hash] / [Hash], src/node/traits.rs 63-77).

    Reading of the standard library: hashing an integer feeds its
    little-endian bytes (x86-64), hashing a string feeds its UTF-8 bytes
    followed by 0xff, hashing a tuple or newtype feeds its parts in order. *)
From Coq Require String.
Import String.StringSyntax.
From Coq Require Import Floats.SpecFloat.
From Verif Require Import Machine FloatModel PathModel EnumModel AttrModel.

Fixpoint le_bytes (n : nat) (v : Z) : list Z :=
  match n with
  | O => []
  | S n' => v mod 256 :: le_bytes n' (v / 256)
  end.
Definition hash_u8 (v : Z) : list Z := le_bytes 1 (v mod 2 ^ 8).
Definition hash_i8 (v : Z) : list Z := le_bytes 1 (v mod 2 ^ 8).
Definition hash_i16 (v : Z) : list Z := le_bytes 2 (v mod 2 ^ 16).
Definition hash_i32 (v : Z) : list Z := le_bytes 4 (v mod 2 ^ 32).
Definition hash_u64 (v : Z) : list Z := le_bytes 8 (v mod 2 ^ 64).
Definition hash_str (s : list Z) : list Z := s ++ [255].

(** hashutils.rs 62-75 [integer_decode_f32] on a bit pattern; the i16
    subtraction goes through [i16_of]. *)
Definition in_i16 (z : Z) : bool := (- 2 ^ 15 <=? z) && (z <? 2 ^ 15).
Definition wrap_i16 (z : Z) : Z := (z + 2 ^ 15) mod 2 ^ 16 - 2 ^ 15.
Definition i16_of (p : profile) (z : Z) : Res Z :=
  if in_i16 z then Ok z else match p with Debug => Panic | Release => Ok (wrap_i16 z) end.

Definition integer_decode_f32 (p : profile) (bits : Z) : Res (Z * Z * Z) :=
  let sign := if Z.shiftr bits 31 =? 0 then 1 else -1 in
  let exponent := Z.land (Z.shiftr bits 23) 255 in
  let mantissa :=
    if exponent =? 0
    then Z.shiftl (Z.land bits 8388607) 1 mod two32   (* u32 shift drops high bits *)
    else Z.lor (Z.land bits 8388607) 8388608 in
  let* exponent := i16_of p (exponent - (127 + 23)) in
  Ok (mantissa, exponent, sign).

(** hashutils.rs 86-93 [HashableF32]: derived Hash of a tuple struct. *)
Definition hash_f32 (p : profile) (bits : Z) : Res (list Z) :=
  let* (m, e, s) := integer_decode_f32 p bits in
  Ok (hash_u64 m ++ hash_i16 e ++ hash_i8 s).

Fixpoint hash_f32s (p : profile) (bs : list Z) : Res (list Z) :=
  match bs with
  | [] => Ok []
  | b :: t => let* h := hash_f32 p b in let* r := hash_f32s p t in Ok (h ++ r)
  end.

(** [frame.round().trunc() as i32] on an f64 (read_image.rs 132, 240,
    write_image.rs 137, 301): nearest, ties away from zero, saturating. *)
Definition frame_number (frame : spec_float) : Z := f32_round_as_i32 frame.

Section Hash.
Variable p : profile.
(** shellexpand::full, see PathModel. *)
Variable expand_file_path : list Z -> list Z.

Local Open Scope string_scope.

(** node/grade.rs 109-170 and, identically, colorop/colorgrade.rs 88-149. *)
Definition grade_channel (b : block) (black white lift gain mult off gam : string) : list Z :=
  map (b_f32 b) [black; white; lift; gain; mult; off; gam].
Definition grade_hash (b : block) : Res (list Z) :=
  let i := b_i32 b in
  if i "enable" =? 0 then Ok (hash_i32 (i "enable")) else
  let pr := i "process_r" in let pg := i "process_g" in
  let pb := i "process_b" in let pa := i "process_a" in
  let* hr := if negb (pr =? 0) then hash_f32s p (grade_channel b "black_point_r" "white_point_r"
               "lift_r" "gain_r" "multiply_r" "offset_r" "gamma_r") else Ok [] in
  let* hg := if negb (pg =? 0) then hash_f32s p (grade_channel b "black_point_g" "white_point_g"
               "lift_g" "gain_g" "multiply_g" "offset_g" "gamma_g") else Ok [] in
  let* hb := if negb (pb =? 0) then hash_f32s p (grade_channel b "black_point_b" "white_point_b"
               "lift_b" "gain_b" "multiply_b" "offset_b" "gamma_b") else Ok [] in
  let* ha := if negb (pa =? 0) then hash_f32s p (grade_channel b "black_point_a" "white_point_a"
               "lift_a" "gain_a" "multiply_a" "offset_a" "gamma_a") else Ok [] in
  let* hl := if negb (pr =? 0) || negb (pg =? 0) || negb (pb =? 0) || negb (pa =? 0)
             then let* hm := hash_f32s p [b_f32 b "mix"] in
                  Ok (hash_i32 (i "reverse") ++ hash_i32 (i "clamp_black")
                      ++ hash_i32 (i "clamp_white") ++ hash_i32 (i "premult") ++ hm)
             else Ok [] in
  Ok (hash_i32 (i "enable") ++ hash_i32 pr ++ hash_i32 pg ++ hash_i32 pb ++ hash_i32 pa
      ++ hr ++ hg ++ hb ++ ha ++ hl).

(** node/transform.rs 74-92 and, identically, deformer/transform.rs 54-72. *)
Definition transform_hash (b : block) : Res (list Z) :=
  let i := b_i32 b in
  if i "enable" =? 0 then Ok (hash_i32 (i "enable")) else
  let* h := hash_f32s p (map (b_f32 b) ["translate_x"; "translate_y"; "rotate"; "rotate_center_x";
              "rotate_center_y"; "scale_x"; "scale_y"; "pivot_x"; "pivot_y"]) in
  Ok (hash_i32 (i "enable") ++ hash_i32 (i "invert") ++ h).

(** node/lens_distort.rs 72-86 *)
Definition lens_hash (b : block) : Res (list Z) :=
  let i := b_i32 b in
  if i "enable" =? 0 then Ok (hash_i32 (i "enable")) else
  let* h := hash_f32s p (map (b_f32 b) ["lens_center_offset_x"; "lens_center_offset_y"; "distortion";
              "anamorphic_squeeze"; "curvature_x"; "curvature_y"; "quartic_distortion"]) in
  Ok (hash_i32 (i "enable") ++ h).

(** node/merge_image.rs 311-317 *)
Definition merge_hash (b : block) : Res (list Z) :=
  let i := b_i32 b in
  if i "enable" =? 1 then
    let* h := hash_f32s p [b_f32 b "mix"] in
    Ok (hash_i32 (i "enable") ++ hash_i32 (i "mode") ++ h)
  else Ok (hash_i32 (i "enable")).

(** node/crop_image.rs 261-273 *)
Definition crop_hash (b : block) : Res (list Z) :=
  let i := b_i32 b in
  if i "enable" =? 0 then Ok (hash_i32 (i "enable")) else
  Ok (hash_i32 (i "enable") ++ hash_i32 (i "window_min_x") ++ hash_i32 (i "window_min_y")
      ++ hash_i32 (i "window_max_x") ++ hash_i32 (i "window_max_y") ++ hash_i32 (i "reformat")
      ++ hash_i32 (i "black_outside") ++ hash_i32 (i "intersect")).

(** node/viewer.rs 284-297 *)
Definition viewer_hash (b : block) : Res (list Z) :=
  let i := b_i32 b in
  if i "enable" =? 0 then Ok (hash_i32 (i "enable")) else
  match bake_from (i "bake_option") with
  | BakeNothing => Ok (hash_i32 (i "enable"))
  | _ => Ok (hash_i32 (i "enable") ++ hash_i32 (i "bake_option") ++ hash_i32 (i "crop_to_format")
             ++ hash_i32 (i "bake_pixel_data_type") ++ hash_str (b_str b "bake_color_space"))
  end.

(** node/resample_image.rs 218-226 *)
Definition resample_hash (b : block) : Res (list Z) :=
  let i := b_i32 b in
  if i "enable" =? 1 then
    if negb (i "factor" =? 0)
    then Ok (hash_i32 (i "enable") ++ hash_i32 (i "factor") ++ hash_i32 (i "interpolate"))
    else Ok (hash_i32 (i "enable"))
  else Ok (hash_i32 (i "enable")).

(** node/read_image.rs 237-244 and node/write_image.rs 298-305. *)
Definition path_hash (b : block) (frame : spec_float) : Res (list Z) :=
  let i := b_i32 b in
  if i "enable" =? 1 then
    let* path := expand_string expand_file_path (b_str b "file_path") (frame_number frame) in
    Ok (hash_i32 (i "enable") ++ hash_str path)
  else Ok (hash_i32 (i "enable")).

Local Close Scope string_scope.

(** [attr_hash] of each node type; node/null.rs 103-105 feeds nothing. *)
Definition attr_hash (t : node_type) (b : block) (frame : spec_float) : Res (list Z) :=
  match t with
  | TNull => Ok []
  | TRead | TWrite => path_hash b frame
  | TGrade => grade_hash b
  | TLens => lens_hash b
  | TTransform => transform_hash b
  | TMerge => merge_hash b
  | TCrop => crop_hash b
  | TViewer => viewer_hash b
  | TResample => resample_hash b
  end.

(** node/traits.rs 63-77: the bytes fed by [cache_hash]. *)
Definition cache_hash_bytes (t : node_type) (b : block) (frame : spec_float) (inputs : list Z)
  : Res (list Z) :=
  let* h := attr_hash t b frame in
  Ok (hash_u8 (type_id t) ++ h ++ concat (map hash_u64 inputs)).

(** std DefaultHasher's digest of the bytes: an uninterpreted function. *)
Variable digest : list Z -> Z.
Definition cache_hash (t : node_type) (b : block) (frame : spec_float) (inputs : list Z) : Res Z :=
  let* bytes := cache_hash_bytes t b frame inputs in Ok (digest bytes).
End Hash.

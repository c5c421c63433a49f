(** Model of the attribute blocks of the nodes (src/attrblock.rs and
    src/node/<type>.rs), of the colour operation and of the deformers
    (src/colorop, src/deformer), and of attribute access through a node
    (src/node.rs 136-199).

    A Rust attribute struct is a map from its field names to values; a [match]
    on the attribute name is a table of (attribute name, struct field) pairs,
    in source order.  Every arm of every match in the source names the field
    of the same name, hence [same].  An i32 is an integer, an f32 its 32-bit
    pattern, a string its list of UTF-8 bytes. *)
From Coq Require String.
Import String.StringSyntax.
From Verif Require Import Machine.

Notation string := String.string.
Delimit Scope string_scope with string.
Definition seqb (a b : string) : bool := String.eqb a b.

Record block := Block {
  b_i32 : string -> Z;
  b_f32 : string -> Z;
  b_str : string -> list Z
}.

Definition upd {A} (f : string -> A) (k : string) (v : A) : string -> A :=
  fun k' => if seqb k' k then v else f k'.
Definition put_i32 (b : block) (k : string) (v : Z) : block :=
  Block (upd (b_i32 b) k v) (b_f32 b) (b_str b).
Definition put_f32 (b : block) (k : string) (v : Z) : block :=
  Block (b_i32 b) (upd (b_f32 b) k v) (b_str b).
Definition put_str (b : block) (k : string) (v : list Z) : block :=
  Block (b_i32 b) (b_f32 b) (upd (b_str b) k v).

(** A struct literal; the value outside the listed fields is irrelevant. *)
Fixpoint table {A} (d : A) (l : list (string * A)) (k : string) : A :=
  match l with
  | [] => d
  | (k', v) :: t => if seqb k k' then v else table d t k
  end.
Definition struct (i : list (string * Z)) (f : list (string * Z)) (s : list (string * list Z)) : block :=
  Block (table 0 i) (table 0 f) (table [] s).

(** The bodies of attr_exists and of the six accessors. *)
Record arms := Arms {
  a_exists : list string;
  a_get_i32 : list (string * string); a_set_i32 : list (string * string);
  a_get_f32 : list (string * string); a_set_f32 : list (string * string);
  a_get_str : list (string * string); a_set_str : list (string * string)
}.
Definition same (l : list string) : list (string * string) := map (fun n => (n, n)) l.

(** [match name { "a" => field, ..., _ => default }] *)
Fixpoint arm (l : list (string * string)) (name : string) : option string :=
  match l with
  | [] => None
  | (a, field) :: t => if seqb name a then Some field else arm t name
  end.

(** AttrBlock methods, attrblock.rs 27-40. *)
Definition attr_exists (a : arms) (name : string) : bool := existsb (seqb name) (a_exists a).
Definition blk_get_i32 (a : arms) (b : block) (name : string) : Z :=
  match arm (a_get_i32 a) name with Some f => b_i32 b f | None => 0 end.
Definition blk_get_f32 (a : arms) (b : block) (name : string) : Z :=
  match arm (a_get_f32 a) name with Some f => b_f32 b f | None => 0 end.
Definition blk_get_str (a : arms) (b : block) (name : string) : list Z :=
  match arm (a_get_str a) name with Some f => b_str b f | None => [] end.
Definition blk_set_i32 (a : arms) (b : block) (name : string) (v : Z) : block :=
  match arm (a_set_i32 a) name with Some f => put_i32 b f v | None => b end.
Definition blk_set_f32 (a : arms) (b : block) (name : string) (v : Z) : block :=
  match arm (a_set_f32 a) name with Some f => put_f32 b f v | None => b end.
Definition blk_set_str (a : arms) (b : block) (name : string) (v : list Z) : block :=
  match arm (a_set_str a) name with Some f => put_str b f v | None => b end.

(** Bit patterns of the default values and "Linear", "sRGB" (data.rs 45-46). *)
Definition f0 : Z := 0.
Definition f1 : Z := 1065353216.
Definition fhalf : Z := 1056964608.
Definition linear_name : list Z := [76; 105; 110; 101; 97; 114].
Definition srgb_name : list Z := [115; 82; 71; 66].

Local Open Scope string_scope.

(** node/null.rs 107-134 : attr_exists and the six accessors. *)
Definition null_arms : arms := Arms
  []
  (same []) (same [])
  (same []) (same [])
  (same []) (same []).
(** node/null.rs: the block has no fields. *)
Definition null_new : block := struct [] [] [].

(** node/read_image.rs 246-292 : attr_exists and the six accessors. *)
Definition read_arms : arms := Arms
  ["enable"; "use_cache"; "file_path"]
  (same ["enable"; "use_cache"])
  (same ["enable"; "use_cache"])
  (same []) (same [])
  (same ["file_path"])
  (same ["file_path"]).
(** node/read_image.rs 84-90 *)
Definition read_new : block := struct
  [("enable", 1); ("use_cache", 1)]
  []
  [("file_path", [])].

(** node/write_image.rs 307-377 : attr_exists and the six accessors. *)
Definition write_arms : arms := Arms
  ["enable"; "execute"; "file_path"; "crop_on_write"; "pixel_data_type"; "exr_compression";
     "exr_dwa_compression_level"; "png_compression_level"; "jpeg_compression_level";
     "jpeg_subsampling"; "jpeg_progressive"]
  (same ["enable"; "execute"; "crop_on_write"; "pixel_data_type"; "exr_compression";
     "exr_dwa_compression_level"; "png_compression_level"; "jpeg_compression_level";
     "jpeg_subsampling"; "jpeg_progressive"])
  (same ["enable"; "execute"; "crop_on_write"; "pixel_data_type"; "exr_compression";
     "exr_dwa_compression_level"; "png_compression_level"; "jpeg_compression_level";
     "jpeg_subsampling"; "jpeg_progressive"])
  (same []) (same [])
  (same ["file_path"])
  (same ["file_path"]).
(** node/write_image.rs 112-126 *)
Definition write_new : block := struct
  [("enable", 1); ("execute", 1); ("crop_on_write", 2); ("pixel_data_type", 255);
   ("exr_compression", 0); ("exr_dwa_compression_level", 45); ("png_compression_level", 6);
   ("jpeg_compression_level", 90); ("jpeg_subsampling", 0); ("jpeg_progressive", 0)]
  []
  [("file_path", [])].

(** node/grade.rs 377-551 : attr_exists and the six accessors. *)
Definition grade_arms : arms := Arms
  ["enable"; "process_r"; "process_g"; "process_b"; "process_a"; "black_point_r";
     "black_point_g"; "black_point_b"; "black_point_a"; "white_point_r"; "white_point_g";
     "white_point_b"; "white_point_a"; "lift_r"; "lift_g"; "lift_b"; "lift_a"; "gain_r";
     "gain_g"; "gain_b"; "gain_a"; "multiply_r"; "multiply_g"; "multiply_b"; "multiply_a";
     "offset_r"; "offset_g"; "offset_b"; "offset_a"; "gamma_r"; "gamma_g"; "gamma_b";
     "gamma_a"; "reverse"; "clamp_black"; "clamp_white"; "premult"; "mix"]
  (same ["enable"; "process_r"; "process_g"; "process_b"; "process_a"; "reverse"; "clamp_black";
     "clamp_white"; "premult"])
  (same ["enable"; "process_r"; "process_g"; "process_b"; "process_a"; "reverse"; "clamp_black";
     "clamp_white"; "premult"])
  (same ["black_point_r"; "black_point_g"; "black_point_b"; "black_point_a"; "white_point_r";
     "white_point_g"; "white_point_b"; "white_point_a"; "lift_r"; "lift_g"; "lift_b"; "lift_a";
     "gain_r"; "gain_g"; "gain_b"; "gain_a"; "multiply_r"; "multiply_g"; "multiply_b";
     "multiply_a"; "offset_r"; "offset_g"; "offset_b"; "offset_a"; "gamma_r"; "gamma_g";
     "gamma_b"; "gamma_a"; "mix"])
  (same ["black_point_r"; "black_point_g"; "black_point_b"; "black_point_a"; "white_point_r";
     "white_point_g"; "white_point_b"; "white_point_a"; "lift_r"; "lift_g"; "lift_b"; "lift_a";
     "gain_r"; "gain_g"; "gain_b"; "gain_a"; "multiply_r"; "multiply_g"; "multiply_b";
     "multiply_a"; "offset_r"; "offset_g"; "offset_b"; "offset_a"; "gamma_r"; "gamma_g";
     "gamma_b"; "gamma_a"; "mix"])
  (same []) (same []).
(** node/grade.rs 179-231 *)
Definition grade_new : block := struct
  [("enable", 1); ("process_r", 1); ("process_g", 1); ("process_b", 1); ("process_a", 0);
   ("reverse", 0); ("clamp_black", 1); ("clamp_white", 0); ("premult", 0)]
  [("black_point_r", f0); ("black_point_g", f0); ("black_point_b", f0); ("black_point_a", f0);
   ("white_point_r", f1); ("white_point_g", f1); ("white_point_b", f1); ("white_point_a", f1);
   ("lift_r", f0); ("lift_g", f0); ("lift_b", f0); ("lift_a", f0); ("gain_r", f1);
   ("gain_g", f1); ("gain_b", f1); ("gain_a", f1); ("multiply_r", f1); ("multiply_g", f1);
   ("multiply_b", f1); ("multiply_a", f1); ("offset_r", f0); ("offset_g", f0);
   ("offset_b", f0); ("offset_a", f0); ("gamma_r", f1); ("gamma_g", f1); ("gamma_b", f1);
   ("gamma_a", f1); ("mix", f1)]
  [].

(** node/lens_distort.rs 180-243 : attr_exists and the six accessors. *)
Definition lens_arms : arms := Arms
  ["enable"; "direction"; "lens_center_offset_x"; "lens_center_offset_y"; "distortion";
     "anamorphic_squeeze"; "curvature_x"; "curvature_y"; "quartic_distortion"]
  (same ["enable"; "direction"])
  (same ["enable"; "direction"])
  (same ["lens_center_offset_x"; "lens_center_offset_y"; "distortion"; "anamorphic_squeeze";
     "curvature_x"; "curvature_y"; "quartic_distortion"])
  (same ["lens_center_offset_x"; "lens_center_offset_y"; "distortion"; "anamorphic_squeeze";
     "curvature_x"; "curvature_y"; "quartic_distortion"])
  (same []) (same []).
(** node/lens_distort.rs 95-107 *)
Definition lens_new : block := struct
  [("enable", 1); ("direction", 0)]
  [("lens_center_offset_x", f0); ("lens_center_offset_y", f0); ("distortion", f0);
   ("anamorphic_squeeze", f1); ("curvature_x", f0); ("curvature_y", f0);
   ("quartic_distortion", f0)]
  [].

(** node/transform.rs 189-258 : attr_exists and the six accessors. *)
Definition transform_arms : arms := Arms
  ["enable"; "invert"; "translate_x"; "translate_y"; "rotate"; "rotate_center_x";
     "rotate_center_y"; "scale_x"; "scale_y"; "pivot_x"; "pivot_y"]
  (same ["enable"; "invert"])
  (same ["enable"; "invert"])
  (same ["translate_x"; "translate_y"; "rotate"; "rotate_center_x"; "rotate_center_y"; "scale_x";
     "scale_y"; "pivot_x"; "pivot_y"])
  (same ["translate_x"; "translate_y"; "rotate"; "rotate_center_x"; "rotate_center_y"; "scale_x";
     "scale_y"; "pivot_x"; "pivot_y"])
  (same []) (same []).
(** node/transform.rs 101-115 *)
Definition transform_new : block := struct
  [("enable", 1); ("invert", 0)]
  [("translate_x", f0); ("translate_y", f0); ("rotate", f0); ("rotate_center_x", f0);
   ("rotate_center_y", f0); ("scale_x", f1); ("scale_y", f1); ("pivot_x", fhalf);
   ("pivot_y", fhalf)]
  [].

(** node/merge_image.rs 319-367 : attr_exists and the six accessors. *)
Definition merge_arms : arms := Arms
  ["enable"; "use_cache"; "mode"; "mix"]
  (same ["enable"; "use_cache"; "mode"])
  (same ["enable"; "use_cache"; "mode"])
  (same ["mix"])
  (same ["mix"])
  (same []) (same []).
(** node/merge_image.rs 82-89 *)
Definition merge_new : block := struct
  [("enable", 1); ("use_cache", 1); ("mode", 1)]
  [("mix", f1)]
  [].

(** node/crop_image.rs 275-337 : attr_exists and the six accessors. *)
Definition crop_arms : arms := Arms
  ["enable"; "use_cache"; "window_min_x"; "window_min_y"; "window_max_x"; "window_max_y";
     "reformat"; "black_outside"; "intersect"]
  (same ["enable"; "use_cache"; "window_min_x"; "window_min_y"; "window_max_x"; "window_max_y";
     "reformat"; "intersect"; "black_outside"])
  (same ["enable"; "use_cache"; "window_min_x"; "window_min_y"; "window_max_x"; "window_max_y";
     "reformat"; "black_outside"; "intersect"])
  (same []) (same [])
  (same []) (same []).
(** node/crop_image.rs 83-95 *)
Definition crop_new : block := struct
  [("enable", 1); ("use_cache", 1); ("window_min_x", 0); ("window_min_y", 0);
   ("window_max_x", 0); ("window_max_y", 0); ("reformat", 0); ("black_outside", 0);
   ("intersect", 0)]
  []
  [].

(** node/viewer.rs 299-357 : attr_exists and the six accessors. *)
Definition viewer_arms : arms := Arms
  ["enable"; "use_cache"; "crop_to_format"; "bake_option"; "bake_pixel_data_type";
     "bake_color_space"]
  (same ["enable"; "use_cache"; "crop_to_format"; "bake_option"; "bake_pixel_data_type"])
  (same ["enable"; "use_cache"; "crop_to_format"; "bake_option"; "bake_pixel_data_type"])
  (same []) (same [])
  (same ["bake_color_space"])
  (same ["bake_color_space"]).
(** node/viewer.rs 84-93 *)
Definition viewer_new : block := struct
  [("enable", 1); ("use_cache", 1); ("bake_option", 0); ("bake_pixel_data_type", 1);
   ("crop_to_format", 0)]
  []
  [("bake_color_space", linear_name)].

(** node/resample_image.rs 228-275 : attr_exists and the six accessors. *)
Definition resample_arms : arms := Arms
  ["enable"; "use_cache"; "factor"; "interpolate"]
  (same ["enable"; "use_cache"; "factor"; "interpolate"])
  (same ["enable"; "use_cache"; "factor"; "interpolate"])
  (same []) (same [])
  (same []) (same []).
(** node/resample_image.rs 77-84 *)
Definition resample_new : block := struct
  [("enable", 1); ("use_cache", 1); ("factor", 0); ("interpolate", 0)]
  []
  [].

(** colorop/colorgrade.rs 285-459 : attr_exists and the six accessors. *)
Definition gradeop_arms : arms := Arms
  ["enable"; "process_r"; "process_g"; "process_b"; "process_a"; "black_point_r";
     "black_point_g"; "black_point_b"; "black_point_a"; "white_point_r"; "white_point_g";
     "white_point_b"; "white_point_a"; "lift_r"; "lift_g"; "lift_b"; "lift_a"; "gain_r";
     "gain_g"; "gain_b"; "gain_a"; "multiply_r"; "multiply_g"; "multiply_b"; "multiply_a";
     "offset_r"; "offset_g"; "offset_b"; "offset_a"; "gamma_r"; "gamma_g"; "gamma_b";
     "gamma_a"; "reverse"; "clamp_black"; "clamp_white"; "premult"; "mix"]
  (same ["enable"; "process_r"; "process_g"; "process_b"; "process_a"; "reverse"; "clamp_black";
     "clamp_white"; "premult"])
  (same ["enable"; "process_r"; "process_g"; "process_b"; "process_a"; "reverse"; "clamp_black";
     "clamp_white"; "premult"])
  (same ["black_point_r"; "black_point_g"; "black_point_b"; "black_point_a"; "white_point_r";
     "white_point_g"; "white_point_b"; "white_point_a"; "lift_r"; "lift_g"; "lift_b"; "lift_a";
     "gain_r"; "gain_g"; "gain_b"; "gain_a"; "multiply_r"; "multiply_g"; "multiply_b";
     "multiply_a"; "offset_r"; "offset_g"; "offset_b"; "offset_a"; "gamma_r"; "gamma_g";
     "gamma_b"; "gamma_a"; "mix"])
  (same ["black_point_r"; "black_point_g"; "black_point_b"; "black_point_a"; "white_point_r";
     "white_point_g"; "white_point_b"; "white_point_a"; "lift_r"; "lift_g"; "lift_b"; "lift_a";
     "gain_r"; "gain_g"; "gain_b"; "gain_a"; "multiply_r"; "multiply_g"; "multiply_b";
     "multiply_a"; "offset_r"; "offset_g"; "offset_b"; "offset_a"; "gamma_r"; "gamma_g";
     "gamma_b"; "gamma_a"; "mix"])
  (same []) (same []).
(** colorop/colorgrade.rs 152-203 *)
Definition gradeop_new : block := struct
  [("enable", 1); ("process_r", 1); ("process_g", 1); ("process_b", 1); ("process_a", 0);
   ("reverse", 0); ("clamp_black", 1); ("clamp_white", 0); ("premult", 0)]
  [("black_point_r", f0); ("black_point_g", f0); ("black_point_b", f0); ("black_point_a", f0);
   ("white_point_r", f1); ("white_point_g", f1); ("white_point_b", f1); ("white_point_a", f1);
   ("lift_r", f0); ("lift_g", f0); ("lift_b", f0); ("lift_a", f0); ("gain_r", f1);
   ("gain_g", f1); ("gain_b", f1); ("gain_a", f1); ("multiply_r", f1); ("multiply_g", f1);
   ("multiply_b", f1); ("multiply_a", f1); ("offset_r", f0); ("offset_g", f0);
   ("offset_b", f0); ("offset_a", f0); ("gamma_r", f1); ("gamma_g", f1); ("gamma_b", f1);
   ("gamma_a", f1); ("mix", f1)]
  [].

(** deformer/transform.rs 180-249 : attr_exists and the six accessors. *)
Definition xformdef_arms : arms := Arms
  ["enable"; "invert"; "translate_x"; "translate_y"; "rotate"; "rotate_center_x";
     "rotate_center_y"; "scale_x"; "scale_y"; "pivot_x"; "pivot_y"]
  (same ["enable"; "invert"])
  (same ["enable"; "invert"])
  (same ["translate_x"; "translate_y"; "rotate"; "rotate_center_x"; "rotate_center_y"; "scale_x";
     "scale_y"; "pivot_x"; "pivot_y"])
  (same ["translate_x"; "translate_y"; "rotate"; "rotate_center_x"; "rotate_center_y"; "scale_x";
     "scale_y"; "pivot_x"; "pivot_y"])
  (same []) (same []).
(** deformer/transform.rs 75-89 *)
Definition xformdef_new : block := struct
  [("enable", 1); ("invert", 0)]
  [("translate_x", f0); ("translate_y", f0); ("rotate", f0); ("rotate_center_x", f0);
   ("rotate_center_y", f0); ("scale_x", f1); ("scale_y", f1); ("pivot_x", fhalf);
   ("pivot_y", fhalf)]
  [].

(** deformer/brownian.rs 171-222 : attr_exists and the six accessors. *)
Definition brownian_arms : arms := Arms
  ["enable"; "k1"; "k2"; "xc"; "yc"]
  (same ["enable"])
  (same ["enable"])
  (same ["k1"; "k2"; "xc"; "yc"])
  (same ["k1"; "k2"; "xc"; "yc"])
  (same []) (same []).
(** deformer/brownian.rs 68-76 *)
Definition brownian_new : block := struct
  [("enable", 1)]
  [("xc", f0); ("yc", f0); ("k1", f0); ("k2", f0)]
  [].

(** deformer/tde4_classic.rs 337-417 : attr_exists and the six accessors. *)
Definition tde4_arms : arms := Arms
  ["enable"; "direction"; "focal_length"; "film_back_width"; "film_back_height";
     "pixel_aspect"; "lens_center_offset_x"; "lens_center_offset_y"; "distortion";
     "anamorphic_squeeze"; "curvature_x"; "curvature_y"; "quartic_distortion"]
  (same ["enable"; "direction"])
  (same ["enable"; "direction"])
  (same ["focal_length"; "film_back_width"; "film_back_height"; "pixel_aspect";
     "lens_center_offset_x"; "lens_center_offset_y"; "distortion"; "anamorphic_squeeze";
     "curvature_x"; "curvature_y"; "quartic_distortion"])
  (same ["focal_length"; "film_back_width"; "film_back_height"; "pixel_aspect";
     "lens_center_offset_x"; "lens_center_offset_y"; "distortion"; "anamorphic_squeeze";
     "curvature_x"; "curvature_y"; "quartic_distortion"])
  (same []) (same []).
(** deformer/tde4_classic.rs 101-136; focal length 3.0, film back 3.6 x 2.4. *)
Definition tde4_new : block := struct
  [("enable", 1); ("direction", 0)]
  [("focal_length", 1077936128); ("film_back_width", 1080452710);
   ("film_back_height", 1075419546); ("pixel_aspect", f1);
   ("lens_center_offset_x", f0); ("lens_center_offset_y", f0); ("distortion", f0);
   ("anamorphic_squeeze", f1); ("curvature_x", f0); ("curvature_y", f0);
   ("quartic_distortion", f0)]
  [].

Local Close Scope string_scope.

(** cxxbridge.rs: enum NodeType (named values only); [type_id] is its repr. *)
Inductive node_type :=
| TNull | TRead | TWrite | TGrade | TLens | TTransform | TMerge | TCrop | TViewer | TResample.
Definition type_id (t : node_type) : Z :=
  match t with
  | TNull => 0 | TRead => 1 | TWrite => 2 | TGrade => 3 | TLens => 4 | TTransform => 5
  | TMerge => 6 | TCrop => 7 | TViewer => 8 | TResample => 9
  end.

(** The attribute block type each [new] function installs (node.rs 202-217). *)
Definition arms_of (t : node_type) : arms :=
  match t with
  | TNull => null_arms | TRead => read_arms | TWrite => write_arms | TGrade => grade_arms
  | TLens => lens_arms | TTransform => transform_arms | TMerge => merge_arms
  | TCrop => crop_arms | TViewer => viewer_arms | TResample => resample_arms
  end.
Definition default_attrs (t : node_type) : block :=
  match t with
  | TNull => null_new | TRead => read_new | TWrite => write_new | TGrade => grade_new
  | TLens => lens_new | TTransform => transform_new | TMerge => merge_new
  | TCrop => crop_new | TViewer => viewer_new | TResample => resample_new
  end.

(** node.rs 49-57 [NodeImpl]; the operation and validator objects carry no state. *)
Record node := Node {
  nd_type : node_type;
  nd_id : Z;
  nd_status : Z;   (* NodeStatus repr *)
  nd_attrs : block
}.

(** node.rs 202-217 [create_node]: status Uninitialized (255). *)
Definition create_node (t : node_type) (id : Z) : node := Node t id 255 (default_attrs t).

Definition with_attrs (n : node) (b : block) : node := Node (nd_type n) (nd_id n) (nd_status n) b.

(** node.rs 136-199: access is gated by attr_exists. *)
Definition node_attr_exists (n : node) (name : string) : bool :=
  attr_exists (arms_of (nd_type n)) name.
Definition node_get_i32 (n : node) (name : string) : Z :=
  let a := arms_of (nd_type n) in
  if attr_exists a name then blk_get_i32 a (nd_attrs n) name else 0.
Definition node_get_f32 (n : node) (name : string) : Z :=
  let a := arms_of (nd_type n) in
  if attr_exists a name then blk_get_f32 a (nd_attrs n) name else 0.
Definition node_get_str (n : node) (name : string) : list Z :=
  let a := arms_of (nd_type n) in
  if attr_exists a name then blk_get_str a (nd_attrs n) name else [].
Definition node_set_i32 (n : node) (name : string) (v : Z) : node :=
  let a := arms_of (nd_type n) in
  if attr_exists a name then with_attrs n (blk_set_i32 a (nd_attrs n) name v) else n.
Definition node_set_f32 (n : node) (name : string) (v : Z) : node :=
  let a := arms_of (nd_type n) in
  if attr_exists a name then with_attrs n (blk_set_f32 a (nd_attrs n) name v) else n.
Definition node_set_str (n : node) (name : string) (v : list Z) : node :=
  let a := arms_of (nd_type n) in
  if attr_exists a name then with_attrs n (blk_set_str a (nd_attrs n) name v) else n.

(** The three set_attr calls as data. *)
Inductive awrite :=
| WI32 (name : string) (v : Z)
| WF32 (name : string) (bits : Z)
| WStr (name : string) (v : list Z).
Definition node_write (n : node) (w : awrite) : node :=
  match w with
  | WI32 k v => node_set_i32 n k v
  | WF32 k v => node_set_f32 n k v
  | WStr k v => node_set_str n k v
  end.

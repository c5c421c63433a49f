(** The attributes of the node types as a user sees them, and the value an
    attribute has after a history of graph calls. *)
From Coq Require String.
Import String.StringSyntax.
From Coq Require Import Floats.SpecFloat.
From Verif Require Import Machine AttrModel GraphModel GraphSpec.
Local Open Scope string_scope.

Inductive kind := KI32 | KF32 | KStr.
Inductive value := VI (z : Z) | VF (bits : Z) | VS (bytes : list Z).

Definition zero_value (k : kind) : value :=
  match k with KI32 => VI 0 | KF32 => VF 0 | KStr => VS [] end.

Definition ints : list string -> list (kind * string) := map (fun n => (KI32, n)).
Definition floats : list string -> list (kind * string) := map (fun n => (KF32, n)).
Definition strs : list string -> list (kind * string) := map (fun n => (KStr, n)).

Definition rgba_names (stem : string) : list string :=
  map (fun c => String.append stem c) ["_r"; "_g"; "_b"; "_a"].

(** The attribute table. *)
Definition attributes (t : node_type) : list (kind * string) :=
  match t with
  | TNull => []
  | TRead => ints ["enable"; "use_cache"] ++ strs ["file_path"]
  | TWrite =>
      ints ["enable"; "execute"; "crop_on_write"; "pixel_data_type"; "exr_compression";
            "exr_dwa_compression_level"; "png_compression_level"; "jpeg_compression_level";
            "jpeg_subsampling"; "jpeg_progressive"] ++ strs ["file_path"]
  | TGrade =>
      ints (["enable"; "reverse"; "clamp_black"; "clamp_white"; "premult"] ++ rgba_names "process")
      ++ floats ("mix" :: flat_map rgba_names
           ["black_point"; "white_point"; "lift"; "gain"; "multiply"; "offset"; "gamma"])
  | TLens =>
      ints ["enable"; "direction"]
      ++ floats ["lens_center_offset_x"; "lens_center_offset_y"; "distortion"; "anamorphic_squeeze";
                 "curvature_x"; "curvature_y"; "quartic_distortion"]
  | TTransform =>
      ints ["enable"; "invert"]
      ++ floats ["translate_x"; "translate_y"; "rotate"; "rotate_center_x"; "rotate_center_y";
                 "scale_x"; "scale_y"; "pivot_x"; "pivot_y"]
  | TMerge => ints ["enable"; "use_cache"; "mode"] ++ floats ["mix"]
  | TCrop =>
      ints ["enable"; "use_cache"; "window_min_x"; "window_min_y"; "window_max_x"; "window_max_y";
            "reformat"; "black_outside"; "intersect"]
  | TViewer =>
      ints ["enable"; "use_cache"; "bake_option"; "bake_pixel_data_type"; "crop_to_format"]
      ++ strs ["bake_color_space"]
  | TResample => ints ["enable"; "use_cache"; "factor"; "interpolate"]
  end.

Definition has_attr (t : node_type) (k : kind) (name : string) : Prop := In (k, name) (attributes t).

(** get_attr_i32 / get_attr_f32 / get_attr_str *)
Definition get_value (k : kind) (name : string) (n : node) : value :=
  match k with
  | KI32 => VI (node_get_i32 n name)
  | KF32 => VF (node_get_f32 n name)
  | KStr => VS (node_get_str n name)
  end.

Definition w_kind (w : awrite) : kind := match w with WI32 _ _ => KI32 | WF32 _ _ => KF32 | WStr _ _ => KStr end.
Definition w_name (w : awrite) : string := match w with WI32 n _ | WF32 n _ | WStr n _ => n end.
Definition w_value (w : awrite) : value := match w with WI32 _ v => VI v | WF32 _ v => VF v | WStr _ v => VS v end.

Definition kind_eqb (a b : kind) : bool :=
  match a, b with KI32, KI32 | KF32, KF32 | KStr, KStr => true | _, _ => false end.
Definition is_attr (t : node_type) (k : kind) (name : string) : bool :=
  existsb (fun a => kind_eqb (fst a) k && seqb (snd a) name) (attributes t).

(** The type of the node called [id] and the value of its attribute after one
    more call: the first node added with that id counts, writes to that
    attribute replace the value if the node has the attribute, nothing else
    changes it. *)
Definition attr_step {F} (id : Z) (k : kind) (name : string) (st : option (node_type * value))
    (call : gcall node F awrite) : option (node_type * value) :=
  match st, call with
  | None, GAdd n => if nd_id n =? id then Some (nd_type n, get_value k name n) else None
  | Some (t, v), GWrite id' w =>
      if (id' =? id) && kind_eqb (w_kind w) k && seqb (w_name w) name && is_attr t k name
      then Some (t, w_value w) else st
  | _, _ => st
  end.
Definition attr_after {F} (h : list (gcall node F awrite)) (id : Z) (k : kind) (name : string)
  : option (node_type * value) :=
  fold_left (attr_step id k name) h None.

(** The attributes of a new node that are not zero or empty. *)
Definition one_bits : Z := 1065353216.
Definition half_bits : Z := 1056964608.
Definition on (names : list string) : list (string * value) := map (fun n => (n, VI 1)) names.
Definition unit_floats (names : list string) : list (string * value) := map (fun n => (n, VF one_bits)) names.
Definition presets (t : node_type) : list (string * value) :=
  match t with
  | TNull => []
  | TRead | TCrop | TResample => on ["enable"; "use_cache"]
  | TWrite => on ["enable"; "execute"] ++
      [("crop_on_write", VI 2); ("pixel_data_type", VI 255); ("exr_dwa_compression_level", VI 45);
       ("png_compression_level", VI 6); ("jpeg_compression_level", VI 90)]
  | TGrade => on ["enable"; "process_r"; "process_g"; "process_b"; "clamp_black"] ++
      unit_floats ("mix" :: flat_map rgba_names ["white_point"; "gain"; "multiply"; "gamma"])
  | TLens => on ["enable"] ++ unit_floats ["anamorphic_squeeze"]
  | TTransform => on ["enable"] ++ unit_floats ["scale_x"; "scale_y"] ++
      [("pivot_x", VF half_bits); ("pivot_y", VF half_bits)]
  | TMerge => on ["enable"; "use_cache"; "mode"] ++ unit_floats ["mix"]
  | TViewer => on ["enable"; "use_cache"; "bake_pixel_data_type"] ++
      [("bake_color_space", VS [76; 105; 110; 101; 97; 114])] (* Linear *)
  end.
Definition preset (t : node_type) (k : kind) (name : string) : value :=
  match find (fun a => kind_eqb (match snd a with VI _ => KI32 | VF _ => KF32 | VS _ => KStr end) k && seqb (fst a) name) (presets t) with
  | Some (_, v) => v
  | None => zero_value k
  end.

(** How a node builds the colour operation or the deformer it adds to its
    stream: the default one, with attributes written one by one through its
    accessors.  [NodeModel] records the outcome as a table of values; here are
    the calls themselves. *)
From Coq Require String.
Import String.StringSyntax.
From Verif Require Import Machine AttrModel StreamModel NodeModel.

Local Open Scope string_scope.

(** A call of set_attr_i32 or set_attr_f32. *)
Inductive setting := SetI (name : string) (v : Z) | SetF (name : string) (v : Z).
Definition apply_setting (a : arms) (b : block) (s : setting) : block :=
  match s with SetI n v => blk_set_i32 a b n v | SetF n v => blk_set_f32 a b n v end.
Definition set_all (a : arms) (l : list setting) (b : block) : block := fold_left (apply_setting a) l b.

(** The source repeats the name: [op.set_attr_f32("x", attr_block.get_attr_f32("x"))]. *)
Definition copy_i32 (t : node_type) (b : block) (l : list string) : list setting := map (fun n => SetI n (gi t b n)) l.
Definition copy_f32 (t : node_type) (b : block) (l : list string) : list setting := map (fun n => SetF n (gf t b n)) l.

(** grade.rs 279-360, in source order. *)
Definition grade_settings (b : block) : list setting :=
  copy_i32 TGrade b ["process_r"; "process_g"; "process_b"; "process_a"] ++
  copy_f32 TGrade b ["gamma_r"; "gamma_g"; "gamma_b"; "gamma_a"] ++
  copy_i32 TGrade b ["reverse"; "clamp_black"; "clamp_white"; "premult"] ++
  copy_f32 TGrade b ["mix"; "black_point_r"; "black_point_g"; "black_point_b"; "black_point_a";
    "white_point_r"; "white_point_g"; "white_point_b"; "white_point_a"; "lift_r"; "lift_g"; "lift_b"; "lift_a";
    "gain_r"; "gain_g"; "gain_b"; "gain_a"; "multiply_r"; "multiply_g"; "multiply_b"; "multiply_a";
    "offset_r"; "offset_g"; "offset_b"; "offset_a"].
Definition grade_built (b : block) : block := set_all gradeop_arms (grade_settings b) gradeop_new.

(** transform.rs 154-170 *)
Definition transform_settings (b : block) : list setting :=
  copy_i32 TTransform b ["invert"] ++
  copy_f32 TTransform b ["translate_x"; "translate_y"; "rotate"; "rotate_center_x"; "rotate_center_y"; "scale_x"; "scale_y";
    "pivot_x"; "pivot_y"].
Definition transform_built (b : block) : block := set_all xformdef_arms (transform_settings b) xformdef_new.

(** lens_distort.rs 146-163 *)
Definition lens_settings (b : block) : list setting :=
  copy_i32 TLens b ["direction"] ++
  copy_f32 TLens b ["lens_center_offset_x"; "lens_center_offset_y"; "distortion"; "anamorphic_squeeze"; "curvature_x";
    "curvature_y"; "quartic_distortion"].
Definition lens_built (b : block) : block := set_all tde4_arms (lens_settings b) tde4_new.

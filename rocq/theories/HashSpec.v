(** What a cache key has to identify: which attributes can influence the image
    a node computes, stated per node type without reference to the hashing
    code. *)
From Coq Require String.
Import String.StringSyntax.
From Coq Require Import Floats.SpecFloat.
From Verif Require Import Machine PathModel AttrModel HashModel.
Local Open Scope string_scope.

Inductive attr := AI32 (name : string) | AF32 (name : string) | AStr (name : string).

(** [b] and [b'] have the same value for every attribute of [l]. *)
Definition agree_on (l : list attr) (b b' : block) : Prop :=
  forall a, In a l ->
    match a with
    | AI32 n => b_i32 b n = b_i32 b' n
    | AF32 n => b_f32 b n = b_f32 b' n
    | AStr n => b_str b n = b_str b' n
    end.

(** Values a Rust struct can hold: i32 range, 32-bit patterns, UTF-8 bytes
    (the byte 255 never occurs in UTF-8). *)
Definition wf_block (b : block) : Prop :=
  (forall n, - 2 ^ 31 <= b_i32 b n < 2 ^ 31) /\
  (forall n, 0 <= b_f32 b n < 2 ^ 32) /\
  (forall n c, In c (b_str b n) -> 0 <= c < 255).

Definition f32_pattern (z : Z) : Prop := 0 <= z < 2 ^ 32.
Definition u64_value (z : Z) : Prop := 0 <= z < 2 ^ 64.

(** The node is enabled and does more than pass its input on. *)
Definition active (t : node_type) (b : block) : Prop :=
  match t with
  | TNull => True
  | TViewer => b_i32 b "enable" = 1 /\ b_i32 b "bake_option" <> 0
  | TResample => b_i32 b "enable" = 1 /\ b_i32 b "factor" <> 0
  | _ => b_i32 b "enable" = 1
  end.

Definition channel_attrs (suffix : string) : list attr :=
  map (fun n => AF32 (String.append n suffix))
    ["black_point_"; "white_point_"; "lift_"; "gain_"; "multiply_"; "offset_"; "gamma_"].

Definition processed (b : block) (flag suffix : string) : list attr :=
  if b_i32 b flag =? 0 then [] else channel_attrs suffix.

(** Attributes that can influence the image of an active node. *)
Definition influences (t : node_type) (b : block) : list attr :=
  match t with
  | TNull | TRead | TWrite => []
  | TGrade =>
      [AI32 "process_r"; AI32 "process_g"; AI32 "process_b"; AI32 "process_a"]
      ++ processed b "process_r" "r" ++ processed b "process_g" "g"
      ++ processed b "process_b" "b" ++ processed b "process_a" "a"
      ++ (if (b_i32 b "process_r" =? 0) && (b_i32 b "process_g" =? 0)
             && (b_i32 b "process_b" =? 0) && (b_i32 b "process_a" =? 0)
          then [] else [AI32 "reverse"; AF32 "mix"])
  | TLens =>
      [AI32 "direction"; AF32 "lens_center_offset_x"; AF32 "lens_center_offset_y"; AF32 "distortion";
       AF32 "anamorphic_squeeze"; AF32 "curvature_x"; AF32 "curvature_y"; AF32 "quartic_distortion"]
  | TTransform =>
      [AI32 "invert"; AF32 "translate_x"; AF32 "translate_y"; AF32 "rotate"; AF32 "rotate_center_x";
       AF32 "rotate_center_y"; AF32 "scale_x"; AF32 "scale_y"; AF32 "pivot_x"; AF32 "pivot_y"]
  | TMerge => [AI32 "mode"; AF32 "mix"]
  | TCrop =>
      [AI32 "window_min_x"; AI32 "window_min_y"; AI32 "window_max_x"; AI32 "window_max_y";
       AI32 "reformat"; AI32 "black_outside"; AI32 "intersect"]
  | TViewer =>
      [AI32 "bake_option"; AI32 "crop_to_format"; AI32 "bake_pixel_data_type"; AStr "bake_color_space"]
  | TResample => [AI32 "factor"; AI32 "interpolate"]
  end.

(** Shell expansion maps UTF-8 to UTF-8. *)
Definition clean_paths (expand : list Z -> list Z) : Prop :=
  forall v, (forall c, In c v -> 0 <= c < 255) -> ~ In 255 (expand v).

(** Read and write nodes: both settings name the same file. *)
Definition same_path (expand : list Z -> list Z) (t : node_type) (b b' : block) (fr fr' : spec_float) : Prop :=
  match t with
  | TRead | TWrite =>
      expand_string expand (b_str b "file_path") (frame_number fr)
      = expand_string expand (b_str b' "file_path") (frame_number fr')
  | _ => True
  end.

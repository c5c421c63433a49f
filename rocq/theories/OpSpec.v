(** The attributes of the colour operation and of the deformers, and what it
    means that one of them carries a node's values. *)
From Coq Require String.
Import String.StringSyntax.
From Verif Require Import Machine AttrModel AttrSpec StreamModel.

Local Open Scope string_scope.

Inductive operator := OpGrade | OpTransform | OpBrownian | OpLens.

Definition four (n : string) : list string :=
  [String.append n "_r"; String.append n "_g"; String.append n "_b"; String.append n "_a"].

(** Whole numbers and 32 bit floats; no operator has text attributes. *)
Definition op_ints (o : operator) : list string :=
  match o with
  | OpGrade => "enable" :: four "process" ++ ["reverse"; "clamp_black"; "clamp_white"; "premult"]
  | OpTransform => ["enable"; "invert"]
  | OpBrownian => ["enable"]
  | OpLens => ["enable"; "direction"]
  end.
Definition op_floats (o : operator) : list string :=
  match o with
  | OpGrade => four "black_point" ++ four "white_point" ++ four "lift" ++ four "gain" ++ four "multiply" ++ four "offset"
               ++ four "gamma" ++ ["mix"]
  | OpTransform => ["translate_x"; "translate_y"; "rotate"; "rotate_center_x"; "rotate_center_y"; "scale_x"; "scale_y";
                    "pivot_x"; "pivot_y"]
  | OpBrownian => ["k1"; "k2"; "xc"; "yc"]
  | OpLens => ["focal_length"; "film_back_width"; "film_back_height"; "pixel_aspect"; "lens_center_offset_x";
               "lens_center_offset_y"; "distortion"; "anamorphic_squeeze"; "curvature_x"; "curvature_y"; "quartic_distortion"]
  end.

(** Accessors of an operator: what is written is read, nothing else changes,
    and other names read as zero and write nothing. *)
Definition keeps_attributes (a : arms) (ints floats : list string) : Prop :=
  (forall n, attr_exists a n = true <-> In n ints \/ In n floats) /\
  (forall b n v, In n ints -> blk_get_i32 a (blk_set_i32 a b n v) n = v) /\
  (forall b n v, In n floats -> blk_get_f32 a (blk_set_f32 a b n v) n = v) /\
  (forall b n m v, m <> n -> blk_get_i32 a (blk_set_i32 a b n v) m = blk_get_i32 a b m) /\
  (forall b n m v, m <> n -> blk_get_f32 a (blk_set_f32 a b n v) m = blk_get_f32 a b m) /\
  (forall b n m v, blk_get_f32 a (blk_set_i32 a b n v) m = blk_get_f32 a b m /\
                   blk_get_i32 a (blk_set_f32 a b n v) m = blk_get_i32 a b m) /\
  (forall b n v, ~ In n ints -> blk_get_i32 a b n = 0 /\ blk_set_i32 a b n v = b) /\
  (forall b n v, ~ In n floats -> blk_get_f32 a b n = 0 /\ blk_set_f32 a b n v = b) /\
  (forall b n v, blk_get_str a b n = [] /\ blk_set_str a b n v = b).

(** The operator built from the attributes [b] of a node of type [t] carries
    the node's value of every attribute they share, except whether it is
    enabled: the node only builds enabled ones. *)
Definition carries (t : node_type) (a : arms) (b built fresh : block) (ints floats : list string) : Prop :=
  (forall n, In n ints -> blk_get_i32 a built n =
     if String.eqb n "enable" then 1 else if is_attr t KI32 n then blk_get_i32 (arms_of t) b n else blk_get_i32 a fresh n) /\
  (forall n, In n floats -> blk_get_f32 a built n =
     if is_attr t KF32 n then blk_get_f32 (arms_of t) b n else blk_get_f32 a fresh n).

(** The table kept in the stream says the same as the operator. *)
Definition tells (v : vals) (a : arms) (built : block) (ints floats : list string) : Prop :=
  (forall n, In n ints -> vi v n = blk_get_i32 a built n) /\ (forall n, In n floats -> vf v n = blk_get_f32 a built n).

(** Two operators with the same attribute values. *)
Definition alike (a : arms) (b c : block) (ints floats : list string) : Prop :=
  (forall n, In n ints -> blk_get_i32 a b n = blk_get_i32 a c n) /\ (forall n, In n floats -> blk_get_f32 a b n = blk_get_f32 a c n).

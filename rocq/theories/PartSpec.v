(** What a bake takes over from a stream and what it leaves, by option. *)
From Coq Require String.
Import String.StringSyntax.
From Coq Require Import Floats.SpecFloat.
From Verif Require Import Machine FloatModel BBoxModel PixelModel MergeSpec EnumModel AttrModel StreamModel
  GradeModel BakeModel BakeSpec NodeModel.
Local Open Scope string_scope.

(** The colours of whole float pictures of four, three or one channels after a
    colour matrix and colour operations. *)
Definition coloured (powf : f32 -> f32 -> f32) (m : mat4) (ops : list vals) (nc : Z) (px px' : list f32) : Prop :=
  (nc = 4 /\ exists ps, px = flat4 ps /\ px' = flat4 (map (pixel_meaning powf m ops) ps)) \/
  (nc = 3 /\ exists ps, px = flat3 ps /\ px' = flat3 (map (rgb_meaning powf m ops) ps)) \/
  (nc = 1 /\ px' = map (alpha_meaning powf m ops) px).

(** The type of number asked for; "unknown" asks for the picture's own. *)
Definition asked_type (ty : datatype) (b : pixelblock) : datatype :=
  match ty with UnknownType => db_type (pb_data b) | _ => ty end.

(** The type a viewer asks for, by the code of its attribute. *)
Definition viewer_type (b : block) (ty : datatype) : Prop :=
  let code := node_get_i32 (Node TViewer 0 0 b) "bake_pixel_data_type" in
  match ty with
  | Float32 => code = 0 | Half16 => code = 1 | UInt8 => code = 2 | UInt16 => code = 3
  | UnknownType => code < 0 \/ 3 < code
  end.

(** The stream without its pending colours, or without anything pending. *)
Definition colours_done (s : stream) : stream :=
  Stream (st_state s) (st_hash s) (st_display s) (st_data s) identity4 (st_spec s) (st_block s) (st_deformers s) [].
Definition all_done (s : stream) : stream :=
  Stream (st_state s) (st_hash s) (st_display s) (st_data s) identity4 (st_spec s) (st_block s) [] [].

(** The stream a viewer passes on after a bake: under its own key [h], with the
    baked picture, window and description, and with what the bake left pending. *)
Definition viewed (s : stream) (h : Z) (r : baked) : stream :=
  Stream (st_state s) h (st_display s) (bk_data r) (st_matrix (bk_stream r)) (bk_spec r) (bk_block r)
         (st_deformers (bk_stream r)) (st_ops (bk_stream r)).

(** Float pictures of the same size with the same numbers (zeros of any sign). *)
Definition same_picture (a b : pixelblock) : Prop :=
  pb_size a = pb_size b /\ exists l l', pb_data a = DF32 l /\ pb_data b = DF32 l' /\ Forall2 same_number l l'.

(** Both abort, or both give the same picture, at the same window, described
    alike, with the same left to do. *)
Definition same_bake (a b : Res baked) : Prop :=
  match a, b with
  | Ok r, Ok r' => same_picture (bk_block r) (bk_block r') /\ bk_data r = bk_data r' /\ bk_spec r = bk_spec r'
                   /\ bk_stream r = bk_stream r'
  | Panic, Panic => True
  | _, _ => False
  end.

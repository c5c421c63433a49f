(** What a Viewer node is told to bake, by the codes of its attributes. *)
From Coq Require String.
Import String.StringSyntax.
From Verif Require Import Machine EnumModel AttrModel NodeModel.
Local Open Scope string_scope.

(** Options 1 and 2 mean less than everything only if the picture is not also
    to be cropped to its format. *)
Definition told_to_bake (b : block) (o : e_bake) : Prop :=
  let code := node_get_i32 (Node TViewer 0 0 b) "bake_option" in
  let crop := node_get_i32 (Node TViewer 0 0 b) "crop_to_format" in
  match o with
  | BakeNothing => code = 0
  | BakeColorSpace => code = 1 /\ crop = 0
  | BakeColorSpaceAndGrade => code = 2 /\ crop = 0
  | BakeAll => code = 3 \/ (code <> 0 /\ crop <> 0)
  | BakeUninitialized => (code < 0 \/ 3 < code) /\ crop = 0
  end.

(** The parts of a picture that then are no longer left to others. *)
Definition baked_parts (o : e_bake) : Z :=
  match o with
  | BakeColorSpace => m_color_space
  | BakeColorSpaceAndGrade => m_color_space + m_color
  | BakeAll => m_color_space + m_color + m_deformer + m_pixel
  | _ => 0
  end.

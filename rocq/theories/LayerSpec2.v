(** What a program that reads two files, grades them, merges them, grades
    the result and writes it leaves in the file, pixel by pixel. *)
From Coq Require String.
Import String.StringSyntax.
From Coq Require Import Floats.SpecFloat.
From Verif Require Import Machine Loops FloatModel BBoxModel BBoxSpec PixelModel PixelSpec PathModel MergeModel MergeSpec EnumModel AttrModel AttrSpec HashModel StreamModel GradeModel BakeSpec
  GraphModel NodeModel ChainSpec SceneSpec EachSpec FinishSpec ClientModel ClientSpec2 ProgramSpec DevelopSpec LayerSpec.
Local Open Scope string_scope.

(** [img] is [srca] with its grades merged with [srcb] with its, and graded
    again. *)
Definition developed_comp (powf : f32 -> f32 -> f32) (m : merge_mode) (mix : f32) (la lb l : list node) (ty : datatype) (cropped : bool) (srca srcb img : shared) : Prop :=
  sh_display img = sh_display srcb /\ bs_nc (pb_size (sh_block img)) = 4 /\ db_type (pb_data (sh_block img)) = ty /\
  exists win, least_window (sh_data srca) (sh_data srcb) win /\ sh_data img = (if cropped then sh_display srcb else win) /\
  forall X Y, in_box (sh_data img) X Y ->
    (in_box win X Y -> exists a b, layer powf la srca X Y a /\ layer powf lb srcb X Y b /\
       given_colour ty (sh_block img) (sh_data img) X Y (fold_left (graded powf) l (through identity4 (laid_over m mix a b)))) /\
    (~ in_box win X Y -> forall c, 0 <= c < 4 -> pixel_val (sh_block img) (sh_data img) X Y c = Some (zero_elem ty)).

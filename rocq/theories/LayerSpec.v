(** What a program that reads two files, grades them, merges them and writes the
    result leaves in the file, pixel by pixel. *)
From Coq Require String.
Import String.StringSyntax.
From Coq Require Import Floats.SpecFloat.
From Verif Require Import Machine Loops FloatModel BBoxModel BBoxSpec PixelModel PixelSpec PathModel MergeModel MergeSpec EnumModel AttrModel AttrSpec HashModel StreamModel GradeModel BakeSpec
  GraphModel NodeModel ChainSpec SceneSpec EachSpec FinishSpec ClientModel ClientSpec2 ProgramSpec DevelopSpec.
Local Open Scope string_scope.

(** The colour of a graded file at a place: nothing outside its data window. *)
Definition layer (powf : f32 -> f32 -> f32) (grades : list node) (src : shared) (X Y : Z) (u : rgba) : Prop :=
  (in_box (sh_data src) X Y /\ exists v, holds_colour (sh_block src) (sh_data src) X Y v /\ u = fold_left (graded powf) grades (through identity4 v)) \/
  (~ in_box (sh_data src) X Y /\ u = (S754_zero false, S754_zero false, S754_zero false, S754_zero false)).

(** Two colours merged. *)
Definition laid_over (m : merge_mode) (mix : f32) (a b : rgba) : rgba :=
  let '(ar, ag, ab, aa) := a in let '(br, bg, bb, ba) := b in
  (formula m mix aa ar br, formula m mix aa ag bg, formula m mix aa ab bb, formula m mix aa aa ba).

(** The type of numbers a writer is told to write; merged pictures are floats. *)
Definition merged_type (attr : Z) (ty : datatype) : Prop :=
  match data_type_from attr with
  | DtFloat32 => ty = Float32 | DtHalf16 => ty = Half16 | DtUInt8 => ty = UInt8 | DtUInt16 => ty = UInt16
  | DtUnknown => ty = Float32
  end.

(** [img] is [srca] with its grades merged with [srcb] with its. *)
Definition developed_merge (powf : f32 -> f32 -> f32) (m : merge_mode) (mix : f32) (la lb : list node) (ty : datatype) (cropped : bool) (srca srcb img : shared) : Prop :=
  sh_display img = sh_display srcb /\ bs_nc (pb_size (sh_block img)) = 4 /\ db_type (pb_data (sh_block img)) = ty /\
  exists win, least_window (sh_data srca) (sh_data srcb) win /\ sh_data img = (if cropped then sh_display srcb else win) /\
  forall X Y, in_box (sh_data img) X Y ->
    (in_box win X Y -> exists a b, layer powf la srca X Y a /\ layer powf lb srcb X Y b /\
       given_colour ty (sh_block img) (sh_data img) X Y (through identity4 (laid_over m mix a b))) /\
    (~ in_box win X Y -> forall c, 0 <= c < 4 -> pixel_val (sh_block img) (sh_data img) X Y c = Some (zero_elem ty)).

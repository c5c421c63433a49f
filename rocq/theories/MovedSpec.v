(** What a program that reads a file, grades and transforms it and writes it
    leaves in the file, pixel by pixel. *)
From Coq Require String.
Import String.StringSyntax.
From Coq Require Import Floats.SpecFloat.
From Verif Require Import Machine Loops FloatModel BBoxModel BBoxSpec PixelModel PixelSpec PathModel MergeModel MergeSpec EnumModel AttrModel AttrSpec HashModel StreamModel GradeModel DeformModel BakeSpec RemapSpec EdgeSpec
  GraphModel NodeModel ChainSpec SceneSpec EachSpec FinishSpec ClientModel ClientSpec2 ProgramSpec DevelopSpec.
Local Open Scope string_scope.

(** Grade, transform and null nodes in any order, each connected to the next, the
    first to [id0] and the last being [id]. *)
Inductive changes_after (i : nat) (h : list (ccall * reply)) (id0 : Z) : Z -> list node -> Prop :=
| no_changes : changes_after i h id0 id0 []
| more_changes a b n l : changes_after i h id0 a l -> described i h b = Some n -> In (nd_type n) [TGrade; TTransform; TNull] -> fed_by i h b [a] ->
    changes_after i h id0 b (l ++ [n]).

Definition is_grade (n : node) : bool := match nd_type n with TGrade => true | _ => false end.
Definition is_move (n : node) : bool := match nd_type n with TTransform => node_get_i32 n "enable" =? 1 | _ => false end.

(** The transforms that are on, by their attributes. *)
Definition moves (l : list node) : list deformer :=
  map (fun n => DTransform (settings n ["enable"; "invert"]
    ["translate_x"; "translate_y"; "rotate"; "rotate_center_x"; "rotate_center_y"; "scale_x"; "scale_y"; "pivot_x"; "pivot_y"])) (filter is_move l).

(** The window of the moved picture: transforms leave it where it was, but it is
    rounded. *)
Definition moved_window (ds : list deformer) (win win' : bbox) : Prop :=
  (ds = [] /\ win' = win) \/ (ds <> [] /\ encloses (bboxf_of win) win').

(** [img] is [src] with all grades applied, then all transforms; cut to the
    display window or not. *)
Definition developed_moved (nx : numerics) (l : list node) (ty : datatype) (cropped : bool) (src img : shared) : Prop :=
  let s := pb_size (sh_block src) in
  sh_display img = sh_display src /\ bs_nc (pb_size (sh_block img)) = 4 /\ db_type (pb_data (sh_block img)) = ty /\
  exists win, moved_window (moves l) (sh_data src) win /\ sh_data img = (if cropped then sh_display src else win) /\
  forall X Y, in_box (sh_data img) X Y ->
    (in_box win X Y -> exists sx sy v, comes_from nx (sh_display src) (moves l) (bs_w s) (bs_h s) (sh_data src) X Y sx sy /\
       holds_colour (sh_block src) (sh_data src) (min_x (sh_data src) + sx) (min_y (sh_data src) + sy) v /\
       given_colour ty (sh_block img) (sh_data img) X Y (fold_left (graded (nx_powf nx)) (filter is_grade l) (through identity4 v))) /\
    (~ in_box win X Y -> forall c, 0 <= c < 4 -> pixel_val (sh_block img) (sh_data img) X Y c = Some (zero_elem ty)).

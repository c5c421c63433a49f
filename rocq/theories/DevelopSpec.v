(** What a program that reads a file, grades it and writes it leaves in the file,
    pixel by pixel. *)
From Coq Require String.
Import String.StringSyntax.
From Coq Require Import Floats.SpecFloat.
From Verif Require Import Machine Loops FloatModel BBoxModel BBoxSpec PixelModel PixelSpec PathModel MergeModel MergeSpec EnumModel AttrModel AttrSpec HashModel StreamModel GradeModel BakeSpec
  GraphModel NodeModel ChainSpec SceneSpec EachSpec FinishSpec ClientModel ClientSpec2 ProgramSpec.
Local Open Scope string_scope.

(** Grade nodes, each connected to the next, the first to [id0] and the last
    being [id]. *)
Inductive grades_after (i : nat) (h : list (ccall * reply)) (id0 : Z) : Z -> list node -> Prop :=
| no_grades : grades_after i h id0 id0 []
| more_grades a b n l : grades_after i h id0 a l -> described i h b = Some n -> nd_type n = TGrade -> fed_by i h b [a] ->
    grades_after i h id0 b (l ++ [n]).

(** What a grade node does to a pixel, by its attributes. *)
Definition graded (powf : f32 -> f32 -> f32) (v : rgba) (n : node) : rgba :=
  if node_get_i32 n "enable" =? 1 then
    op_pixel powf (settings n (["enable"] ++ rgba_names "process" ++ ["reverse"; "clamp_black"; "clamp_white"; "premult"])
      (flat_map rgba_names ["black_point"; "white_point"; "lift"; "gain"; "multiply"; "offset"; "gamma"] ++ ["mix"])) v
  else v.

(** Reader [n] is on and names a file that holds [img]. *)
Definition reads {D} (x : externals D) (d : D) (fr : spec_float) (n : node) (img : shared) : Prop :=
  nd_type n = TRead /\ node_get_i32 n "enable" <> 0 /\
  exists path, expand_string (x_expand x) (node_get_str n "file_path") (frame_number fr) = Ok path /\ x_kind x d path = RegularFile /\ x_read x d path empty_image = img.

(** A linear picture with four channels. *)
Definition linear_rgba (img : shared) : Prop :=
  wf_block (sh_block img) /\ bs_nc (pb_size (sh_block img)) = 4 /\ placed (sh_block img) (sh_data img) /\ sp_color_space (sh_spec img) = linear_name.

(** The type of numbers a writer is told to write; "unknown" is that of the
    picture. *)
Definition number_type (attr : Z) (b : pixelblock) (ty : datatype) : Prop :=
  match data_type_from attr with
  | DtFloat32 => ty = Float32 | DtHalf16 => ty = Half16 | DtUInt8 => ty = UInt8 | DtUInt16 => ty = UInt16
  | DtUnknown => ty = db_type (pb_data b)
  end.

(** Pixel (X, Y) holds the colour [v]; or [v] in numbers of the type [ty]. *)
Definition holds_colour (b : pixelblock) (win : bbox) (X Y : Z) (v : rgba) : Prop :=
  forall c, 0 <= c < 4 -> exists e, pixel_val b win X Y c = Some e /\ taken_as (db_type (pb_data b)) e (channel c v).
Definition given_colour (ty : datatype) (b : pixelblock) (win : bbox) (X Y : Z) (v : rgba) : Prop :=
  forall c, 0 <= c < 4 -> exists e, pixel_val b win X Y c = Some e /\ put_as ty (channel c v) e.

(** [img] is [src] with these grades on [frame], black where [src] has no
    pixels. *)
Definition developed (powf : f32 -> f32 -> f32) (grades : list node) (ty : datatype) (frame : bbox) (src img : shared) : Prop :=
  sh_display img = sh_display src /\ sh_data img = frame /\ bs_nc (pb_size (sh_block img)) = 4 /\ db_type (pb_data (sh_block img)) = ty /\
  forall X Y, in_box frame X Y ->
    (in_box (sh_data src) X Y -> exists v, holds_colour (sh_block src) (sh_data src) X Y v /\
       given_colour ty (sh_block img) frame X Y (fold_left (graded powf) grades (through identity4 v))) /\
    (~ in_box (sh_data src) X Y -> forall c, 0 <= c < 4 -> pixel_val (sh_block img) frame X Y c = Some (zero_elem ty)).

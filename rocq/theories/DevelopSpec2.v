(** The same as [DevelopSpec] for pictures of red, green and blue. *)
From Coq Require Import Floats.SpecFloat.
From Verif Require Import Machine FloatModel BBoxModel BBoxSpec PixelModel PixelSpec PathModel MergeModel MergeSpec EnumModel AttrModel AttrSpec HashModel StreamModel GradeModel BakeSpec GraphModel NodeModel ChainSpec SceneSpec FinishSpec FinishSpec2 DevelopSpec.

(** A linear picture with [nc] channels. *)
Definition linear_picture (nc : Z) (img : shared) : Prop :=
  wf_block (sh_block img) /\ bs_nc (pb_size (sh_block img)) = nc /\ placed (sh_block img) (sh_data img) /\ sp_color_space (sh_spec img) = linear_name.

(** [img] is [src] with these grades on [frame], black where [src] has no pixels.
    [step] is how a change of a colour with alpha changes a pixel. *)
Definition developed_by {V} (nc : Z) (chan : Z -> V -> f32) (step : (rgba -> rgba) -> V -> V)
    (powf : f32 -> f32 -> f32) (grades : list node) (ty : datatype) (frame : bbox) (src img : shared) : Prop :=
  sh_display img = sh_display src /\ sh_data img = frame /\ bs_nc (pb_size (sh_block img)) = nc /\ db_type (pb_data (sh_block img)) = ty /\
  forall X Y, in_box frame X Y ->
    (in_box (sh_data src) X Y -> exists v,
       (forall c, 0 <= c < nc -> exists e, pixel_val (sh_block src) (sh_data src) X Y c = Some e /\ taken_as (db_type (pb_data (sh_block src))) e (chan c v)) /\
       (forall c, 0 <= c < nc -> exists e, pixel_val (sh_block img) frame X Y c = Some e /\
          put_as ty (chan c (fold_left (fun v n => step (fun u => graded powf u n) v) grades (step (through identity4) v))) e)) /\
    (~ in_box (sh_data src) X Y -> forall c, 0 <= c < nc -> pixel_val (sh_block img) frame X Y c = Some (zero_elem ty)).

(** Red, green and blue: alpha counts as one. *)
Definition developed_rgb := developed_by 3 channel3 opaque_step.

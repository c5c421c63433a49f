(** What merge and crop nodes show, in terms of the pictures of their inputs. *)
From Coq Require String.
Import String.StringSyntax.
From Coq Require Import Floats.SpecFloat.
From Verif Require Import Machine FloatModel BBoxModel BBoxSpec PixelModel PixelSpec MergeModel MergeSpec EnumModel AttrModel
  StreamModel BakeModel NodeModel.
Local Open Scope string_scope.

(** The picture of a stream as it is, and with everything applied that is
    pending on it: linear floats. *)
Definition picture (s : stream) : image := Image (st_block s) (st_display s) (st_data s).
Definition flattened {D} p (x : externals D) (s : stream) (im : image) : Prop :=
  exists r, do_process p (x_numerics x) (x_convert x) BakeAll (st_block s) (st_display s) (st_data s) (st_spec s) s
              (sp_color_space (st_spec s)) linear_name Float32 = Ok r /\
    im = Image (bk_block r) (st_display s) (bk_data r).

Definition nothing_pending (s : stream) : Prop := st_matrix s = identity4 /\ st_ops s = [] /\ st_deformers s = [].

(** The mode an attribute value selects. *)
Definition selects (v : Z) (m : merge_mode) : Prop :=
  v = 0 /\ m = MAdd \/ v = 1 /\ m = MOver \/ v = 2 /\ m = MMultiply.

(** [r] shows what [im] shows within the window, black and transparent where
    [im] has no pixels. *)
Definition cut (im : image) (win : bbox) (r : image) : Prop :=
  im_data r = win /\ float_image r /\ bs_nc (pb_size (im_block r)) = bs_nc (pb_size (im_block im)) /\
  forall x y c, in_box win x y -> 0 <= c < bs_nc (pb_size (im_block im)) ->
    pixel_val (im_block r) win x y c = Some (EF (channel_at im x y c)).

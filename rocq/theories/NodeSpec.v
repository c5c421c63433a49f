(** Vocabulary for what nodes ask of and give to each other. *)
From Coq Require String.
Import String.StringSyntax.
From Verif Require Import Machine CacheModel FloatModel BBoxModel PixelModel MergeModel EnumModel AttrModel StreamModel
  DeformModel BakeModel GraphModel NodeModel.
Local Open Scope string_scope.

(** How many leading inputs a node type uses. *)
Definition reads (t : node_type) : nat :=
  match t with TRead => 0 | TMerge => 2 | _ => 1 end.

(** Every mode bit of [m] is in [mode]. *)
Definition within (mode m : Z) : Prop := forall i, Z.testbit m i = true -> Z.testbit mode i = true.

(** The image an image node finds under its key. *)
Definition holds {D} (w : world D) (h : Z) (img : shared) : Prop := snd (get (w_cache w) h) = Some img.
Definition misses {D} (w : world D) (h : Z) : Prop := snd (get (w_cache w) h) = None.

(** No colour operation, colour matrix or deformation waits to be applied. *)
Definition no_colour_pending (s : stream) : Prop := st_matrix s = identity4 /\ st_ops s = [].
Definition nothing_pending (s : stream) : Prop := no_colour_pending s /\ st_deformers s = [].

(** The node's first input (a new stream if there is none) can be computed from
    the cache: crop needs a stream without pending operations, a baking viewer
    one without pending colour operations, resample a working resampler. *)
Definition settled {D} (x : externals D) (t : node_type) (b : block) (ins : list stream) : Prop :=
  let s := fst (first_input ins) in
  match t with
  | TCrop => nothing_pending s
  | TViewer => match viewer_bake b with
               | BakeColorSpaceAndGrade | BakeAll => no_colour_pending s
               | _ => True
               end
  | TResample =>
      fst (x_resample x (Shared (st_block s) (st_display s) (st_data s) (st_spec s)) empty_image
             (b_i32 b "factor") (negb (b_i32 b "interpolate" =? 0))) = true
  | _ => True
  end.

(** The same outside world with another image file writer. *)
Definition with_writer {D} (x : externals D) (f : D -> list Z -> shared -> compression -> D * bool) : externals D :=
  Externals (x_expand x) (x_digest x) (x_numerics x) (x_convert x) (x_resample x) (x_lens_ok x)
            (x_kind x) (x_read x) f.

(** No lens distortion is waiting to be applied. *)
Definition no_lens_pending (s : stream) : Prop :=
  forall v, In (DTde4 v) (st_deformers s) -> vi v "enable" <> 1.

(** Window coordinates that f32 represents exactly. *)
Definition exact_window (b : bbox) : Prop :=
  - 2 ^ 24 < min_x b < 2 ^ 24 /\ - 2 ^ 24 < min_y b < 2 ^ 24 /\
  - 2 ^ 24 < max_x b < 2 ^ 24 /\ - 2 ^ 24 < max_y b < 2 ^ 24.

(** A stream with everything applied, in linear colour, at the window the bake
    reports. *)
Definition baked_image {D} (p : profile) (x : externals D) (s : stream) : Res (image * image_spec) :=
  let* r := do_process p (x_numerics x) (x_convert x) BakeAll (st_block s) (st_display s) (st_data s)
              (st_spec s) s (sp_color_space (st_spec s)) linear_name Float32 in
  Ok (Image (bk_block r) (st_display s) (bk_data r), bk_spec r).

(** The merge of two streams: both baked, each at its baked window. *)
Definition merged_streams {D} (p : profile) (x : externals D) (a b : stream) (mode : merge_mode) (mix : Z)
  : Res (option shared) :=
  let* (ia, _) := baked_image p x a in
  let* (ib, sp) := baked_image p x b in
  let* r := merge p mode ia ib (f32_of_bits mix) merge_start in
  Ok (match r with Some im => Some (with_plain im sp) | None => None end).

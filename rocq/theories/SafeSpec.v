(** Vocabulary for "executing does not abort the process". *)
From Coq Require String.
Import String.StringSyntax.
From Verif Require Import Machine CacheModel CacheSpec FloatModel BBoxModel BBoxSpec PixelModel PixelSpec MergeSpec EnumModel
  AttrModel HashModel HashSpec StreamModel DeformModel BakeModel GraphModel GraphSpec NodeModel.
Local Open Scope string_scope.

(** An area everything happens in: its coordinates are within 2^24, it contains
    the 4x4 default picture, and a picture of its size has fewer than 2^31
    values. *)
Definition roomy (B : bbox) : Prop :=
  - 2 ^ 24 < min_x B <= 0 /\ - 2 ^ 24 < min_y B <= 0 /\ 4 <= max_x B < 2 ^ 24 /\ 4 <= max_y B < 2 ^ 24 /\
  (max_x B - min_x B) * (max_y B - min_y B + 1) * 4 < two31.

(** A window with at least one pixel, within the area. *)
Definition within (w B : bbox) : Prop := min_x w < max_x w /\ min_y w < max_y w /\ window_in w B.

(** A picture with three or four channels on a window within the area. *)
Definition fine_block (B : bbox) (pb : pixelblock) (w : bbox) : Prop :=
  PixelSpec.wf_block pb /\ placed pb w /\ (bs_nc (pb_size pb) = 3 \/ bs_nc (pb_size pb) = 4) /\ within w B.
Definition fine_image (B : bbox) (i : shared) : Prop :=
  fine_block B (sh_block i) (sh_data i) /\ within (sh_display i) B.
Definition fine_stream (B : bbox) (s : stream) : Prop :=
  fine_block B (st_block s) (st_data s) /\ within (st_display s) B /\
  forall d, In d (st_deformers s) -> exists v, d = DTransform v.

(** Bytes of the largest picture in the area. *)
Definition largest (B : bbox) : Z := (max_x B - min_x B) * (max_y B - min_y B) * 16.

Section World.
Context {D : Type}.
Variable p : profile.
Variable x : externals D.
Variable B : bbox.
Variable ok_disk : D -> Prop.

(** The outside world: regular files are fine pictures and stay so when fine
    pictures are written; resampling gives fine pictures; colour conversion
    keeps the number of values. *)
Record sane : Prop := {
  sane_read : forall d path, ok_disk d -> x_kind x d path = RegularFile -> fine_image B (x_read x d path empty_image);
  sane_write : forall d path img co, ok_disk d -> fine_image B img -> ok_disk (fst (x_write x d path img co));
  sane_resample : forall src f i, fine_image B src -> fine_image B (snd (x_resample x src empty_image f i));
  sane_convert : forall px w h nc a u from to px',
    x_convert x px w h nc a u from to = Some px' -> length px' = length px
}.

(** The shared cache: fine pictures; in a debug build also: what is counted is
    what is held, and the largest picture fits. *)
Definition fine_cache (c : cache shared) : Prop :=
  (forall k i, In (k, i) (lru c) -> fine_image B i) /\
  (p = Debug -> NoDup (map fst (lru c)) /\ CacheModel.used c = total_bytes image_bytes (lru c) /\
     CacheModel.used c <= capacity c /\ (capacity c = 0 \/ largest B <= capacity c) /\ capacity c + largest B < two64).
Definition fine_world (w : world D) : Prop := fine_cache (w_cache w) /\ ok_disk (w_disk w).

(** Sensible settings of a node with [k] inputs: values a Rust struct can hold;
    an active crop has a non-empty window within the area and no black border; an
    active viewer has a known bake option, an active writer a known crop
    option; lenses are off; an active resampler has one input in a debug
    build. *)
Definition careful (n : node) (k : nat) : Prop :=
  let t := nd_type n in let b := nd_attrs n in
  HashSpec.wf_block b /\
  match t with
  | TCrop => b_i32 b "enable" = 1 ->
      b_i32 b "black_outside" <> 1 /\
      within (BBox (b_i32 b "window_min_x") (b_i32 b "window_min_y") (b_i32 b "window_max_x") (b_i32 b "window_max_y")) B
  | TViewer => b_i32 b "enable" <> 0 -> bake_from (b_i32 b "bake_option") <> BakeUninitialized
  | TWrite => b_i32 b "enable" <> 0 -> b_i32 b "execute" <> 0 -> crop_from (b_i32 b "crop_on_write") <> CropUninitialized
  | TLens => b_i32 b "enable" <> 1
  | TResample => b_i32 b "enable" = 1 -> p = Debug -> (k <= 1)%nat
  | _ => True
  end.
End World.

(** A whole graph of sensibly set nodes. *)
Definition careful_graph p B (g : graph node stream) : Prop :=
  forall i n ms, nth_error (g_nodes g) i = Some n -> inputs_in_slot_order (g_graph g) i ms -> careful p B n (length ms).

(** The node of this id, if there is one, has not been removed, and the part
    of the graph upstream of it is a tree or has levels. *)
Definition well_shaped (g : graph node stream) (id : Z) : Prop :=
  forall start, find_index g id = Some start ->
    sg_live (g_graph g) start = true /\ (graded (g_graph g) start \/ tree (g_graph g) start).

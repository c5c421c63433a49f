(** What a whole graph shows: the composition its nodes describe, each node
    doing its part to what its inputs show. *)
From Coq Require String.
Import String.StringSyntax.
From Coq Require Import Floats.SpecFloat.
From Verif Require Import Machine FloatModel BBoxModel PixelModel PathModel HashModel AttrSpec MergeModel MergeSpec EnumModel AttrModel StreamModel BakeModel
  GraphModel GraphSpec NodeModel ChainSpec ShowSpec ViewSpec PartSpec.
Local Open Scope string_scope.

(** The same picture with the same left to do; not the key or the state. *)
Definition looks_like (a b : stream) : Prop :=
  ChainSpec.same_picture a b /\ st_ops a = st_ops b /\ st_deformers a = st_deformers b.

(** The first input, or the picture shown when there is none. *)
Definition first (vs : list stream) : stream := match vs with [] => stream_new | v :: _ => v end.
Definition second (vs : list stream) : stream := match vs with _ :: v :: _ => v | _ => stream_new end.

(** The picture of an image in place of that of a stream. *)
Definition repictured (s : stream) (img : shared) : stream :=
  Stream (st_state s) (st_hash s) (sh_display img) (sh_data img) (st_matrix s) (st_spec s) (sh_block img) (st_deformers s) (st_ops s).

(** A merge with no known mode shows one black, opaque pixel. *)
Definition one_pixel : image :=
  Image (PB (BS 1 1 4) (DF32 [S754_zero false; S754_zero false; S754_zero false; f32_one])) (BBox 0 0 1 1) (BBox 0 0 1 1).

(** A pending operation in full: the settings as the node's attributes show
    them, in this order. *)
Definition settings (n : node) (ints floats : list string) : vals :=
  Vals (map (fun a => (a, node_get_i32 n a)) ints) (map (fun a => (a, node_get_f32 n a)) floats).
Definition in_full (n : node) (ops : list vals) (defs : list deformer) : Prop :=
  (nd_type n = TGrade -> forall v, In v ops -> v = settings n
     (["enable"] ++ rgba_names "process" ++ ["reverse"; "clamp_black"; "clamp_white"; "premult"])
     (flat_map rgba_names ["black_point"; "white_point"; "lift"; "gain"; "multiply"; "offset"; "gamma"] ++ ["mix"])) /\
  (nd_type n = TTransform -> forall v, In (DTransform v) defs -> v = settings n
     ["enable"; "invert"]
     ["translate_x"; "translate_y"; "rotate"; "rotate_center_x"; "rotate_center_y"; "scale_x"; "scale_y"; "pivot_x"; "pivot_y"]).

Section Scene.
Context {D : Type}.
Variable p : profile.
Variable x : externals D.
(** The file system. *)
Variable d : D.
Variable fr : spec_float.

(** What node [n] shows when its inputs show [vs]. *)
Inductive does (n : node) (vs : list stream) (v : stream) : Prop :=
| does_read : nd_type n = TRead -> node_get_i32 n "enable" <> 0 -> source x n d fr v -> does n vs v
| does_read_off : nd_type n = TRead -> node_get_i32 n "enable" = 0 -> looks_like v stream_new -> does n vs v
| does_add ops defs : contributes n ops defs -> in_full n ops defs -> ChainSpec.same_picture v (first vs) ->
    st_ops v = (st_ops (first vs) ++ ops)%list -> st_deformers v = (st_deformers (first vs) ++ defs)%list -> does n vs v
| does_write : nd_type n = TWrite -> node_get_i32 n "enable" <> 0 -> looks_like v (first vs) -> does n vs v
| does_write_off : nd_type n = TWrite -> node_get_i32 n "enable" = 0 -> looks_like v stream_new -> does n vs v
| does_merge m A C : nd_type n = TMerge -> node_get_i32 n "enable" = 1 -> vs <> [] -> selects (node_get_i32 n "mode") m ->
    flattened p x (first vs) A -> flattened p x (second vs) C -> ShowSpec.nothing_pending v ->
    merged m (f32_of_bits (node_get_f32 n "mix")) A C (picture v) -> st_spec v = spec_new -> does n vs v
| does_merge_unknown : nd_type n = TMerge -> node_get_i32 n "enable" = 1 -> vs <> [] -> (forall m, ~ selects (node_get_i32 n "mode") m) ->
    ShowSpec.nothing_pending v -> picture v = one_pixel -> st_spec v = spec_new -> does n vs v
| does_merge_off : nd_type n = TMerge -> node_get_i32 n "enable" <> 1 \/ vs = [] -> looks_like v stream_new -> does n vs v
| does_crop A : nd_type n = TCrop -> node_get_i32 n "enable" = 1 -> vs <> [] ->
    flattened p x (first vs) A -> ShowSpec.nothing_pending v ->
    cut A (BBox (node_get_i32 n "window_min_x") (node_get_i32 n "window_min_y")
                (node_get_i32 n "window_max_x") (node_get_i32 n "window_max_y")) (picture v) ->
    st_display v = (if node_get_i32 n "reformat" =? 1 then st_data v else st_display (first vs)) ->
    st_spec v = st_spec (first vs) -> does n vs v
| does_crop_off : nd_type n = TCrop -> node_get_i32 n "enable" <> 1 \/ vs = [] -> looks_like v (first vs) -> does n vs v
| does_resample img : nd_type n = TResample -> node_get_i32 n "enable" = 1 -> vs <> [] -> node_get_i32 n "factor" <> 0 ->
    x_resample x (Shared (st_block (first vs)) (st_display (first vs)) (st_data (first vs)) (st_spec (first vs))) empty_image
      (node_get_i32 n "factor") (negb (node_get_i32 n "interpolate" =? 0)) = (true, img) ->
    looks_like v (repictured (first vs) img) -> does n vs v
| does_resample_off : nd_type n = TResample ->
    node_get_i32 n "enable" <> 1 \/ vs = [] \/ node_get_i32 n "factor" = 0 -> looks_like v (first vs) -> does n vs v
| does_view : nd_type n = TViewer -> node_get_i32 n "enable" = 1 -> told_to_bake (nd_attrs n) BakeNothing ->
    looks_like v (first vs) -> does n vs v
| does_bake o ty r : nd_type n = TViewer -> node_get_i32 n "enable" = 1 -> told_to_bake (nd_attrs n) o -> o <> BakeNothing ->
    node_get_i32 n "crop_to_format" = 0 -> viewer_type (nd_attrs n) ty ->
    do_process p (x_numerics x) (x_convert x) o (st_block (first vs)) (st_display (first vs)) (st_data (first vs))
      (st_spec (first vs)) (first vs) (sp_color_space (st_spec (first vs))) (node_get_str n "bake_color_space") ty = Ok r ->
    looks_like v (viewed (first vs) 0 r) -> does n vs v.

(** What the [i]th node of a graph shows. *)
Variable g : graph node stream.
Inductive scene : nat -> stream -> Prop :=
| scene_node i n l vs v : nth_error (g_nodes g) i = Some n -> inputs_in_slot_order (g_graph g) i l ->
    Forall2 scene l vs -> does n vs v -> scene i v.
End Scene.

(** Every node that contributes is asked for its picture: nodes have no more
    inputs than they use, and viewers among them are on and bake at most the
    colours. *)
Definition uses (t : node_type) : nat := match t with TMerge => 2 | _ => 1 end.
Definition all_asked (g : graph node stream) (start : nat) : Prop :=
  forall i n l, reaches (g_graph g) i start -> nth_error (g_nodes g) i = Some n -> inputs_in_slot_order (g_graph g) i l ->
    (length l <= uses (nd_type n))%nat /\
    (nd_type n = TViewer -> node_get_i32 n "enable" = 1 /\
       exists o, In o [BakeNothing; BakeColorSpace; BakeColorSpaceAndGrade] /\ told_to_bake (nd_attrs n) o).

(** What the composition is: one picture for each slot, no directories read,
    no lenses. *)
Definition determined {D} (x : externals D) (d : D) (fr : spec_float) (g : graph node stream) : Prop :=
  (forall n a b s, feeds (g_graph g) a n s -> feeds (g_graph g) b n s -> a = b) /\
  forall i n, nth_error (g_nodes g) i = Some n ->
    (nd_type n = TLens -> node_get_i32 n "enable" <> 1) /\
    (nd_type n = TRead -> node_get_i32 n "enable" <> 0 -> forall path,
       expand_string (x_expand x) (node_get_str n "file_path") (frame_number fr) = Ok path -> x_kind x d path <> OtherEntry).

(** What chains of nodes leave pending on a stream, and what a write node
    writes. *)
From Coq Require String.
Import String.StringSyntax.
From Coq Require Import Floats.SpecFloat.
From Verif Require Import Machine FloatModel BBoxModel PixelModel PathModel EnumModel AttrModel AttrSpec StreamModel BakeModel
  HashModel GraphModel GraphSpec NodeModel.
Local Open Scope string_scope.

(** The value of a setting of a pending operation. *)
Definition setting_value (k : kind) (name : string) (v : vals) : value :=
  match k with KI32 => VI (vi v name) | KF32 => VF (vf v name) | KStr => VS [] end.

(** A pending operation has the settings that the node's attributes show. *)
Definition same_settings (n : node) (v : vals) : Prop :=
  forall k name, has_attr (nd_type n) k name -> setting_value k name v = get_value k name n.

(** The colour operations and deformations a node adds to its input. *)
Inductive contributes (n : node) : list vals -> list deformer -> Prop :=
| con_null : nd_type n = TNull -> contributes n [] []
| con_grade v : nd_type n = TGrade -> node_get_i32 n "enable" = 1 ->
    (exists f, In f (rgba_names "process") /\ node_get_i32 n f <> 0) -> same_settings n v -> contributes n [v] []
| con_grade_off : nd_type n = TGrade ->
    (node_get_i32 n "enable" <> 1 \/ forall f, In f (rgba_names "process") -> node_get_i32 n f = 0) -> contributes n [] []
| con_transform v : nd_type n = TTransform -> node_get_i32 n "enable" = 1 -> same_settings n v ->
    contributes n [] [DTransform v]
| con_lens v : nd_type n = TLens -> node_get_i32 n "enable" = 1 -> same_settings n v -> contributes n [] [DTde4 v]
| con_off : nd_type n = TTransform \/ nd_type n = TLens -> node_get_i32 n "enable" <> 1 -> contributes n [] [].

(** What a list of nodes adds, first node first. *)
Inductive collects (nodes : list node) : list nat -> list vals -> list deformer -> Prop :=
| col_nil : collects nodes [] [] []
| col_snoc l i n ops defs ops' defs' : collects nodes l ops defs -> nth_error nodes i = Some n ->
    contributes n ops' defs' -> collects nodes (l ++ [i]) (ops ++ ops') (defs ++ defs').

(** [a] is the one input of [b]. *)
Definition only_input (g : stable) (a b : nat) : Prop := a <> b /\ forall m, link g m b <-> m = a.

(** [l] leads from [src] (not included) to the last node, each node having the
    one before as its only input. *)
Inductive leads (g : stable) (src : nat) : list nat -> nat -> Prop :=
| leads_nil : leads g src [] src
| leads_snoc l a b : leads g src l a -> only_input g a b -> leads g src (l ++ [b]) b.

(** The types of nodes that only add something to do. *)
Definition adding (t : node_type) : Prop := t = TNull \/ t = TGrade \/ t = TTransform \/ t = TLens.

(** Same picture, windows, specification and colour matrix. *)
Definition same_picture (a b : stream) : Prop :=
  st_block a = st_block b /\ st_display a = st_display b /\ st_data a = st_data b /\
  st_spec a = st_spec b /\ st_matrix a = st_matrix b.

(** What the status, but not the type or the attributes, of a node is left out. *)
Definition node_key (n : node) : node_type * block := (nd_type n, nd_attrs n).

(* ------------------------------ writing ------------------------------ *)

Definition has_extension (path ext : list Z) : Prop := exists stem, path = stem ++ ext.
Definition srgb_extensions : list (list Z) := [ext_jpg; ext_png; ext_jpeg; ext_jpe; ext_jif; ext_jfif; ext_jfi].

(** The colour space of the file: sRGB for JPEG and PNG names, else Linear. *)
Definition file_color_space (path : list Z) (space : list Z) : Prop :=
  (exists e, In e srgb_extensions /\ has_extension path e) /\ space = srgb_name \/
  (forall e, In e srgb_extensions -> ~ has_extension path e) /\ space = linear_name.

(** The numeric type of the pixels that are written. *)
Definition file_type (attr : Z) (s : stream) (ty : datatype) : Prop :=
  match data_type_from attr with
  | DtFloat32 => ty = Float32 | DtHalf16 => ty = Half16 | DtUInt8 => ty = UInt8 | DtUInt16 => ty = UInt16
  | DtUnknown => ty = db_type (pb_data (st_block s))
  end.

(** Whether the picture is cut to the display window: as asked, or, for
    "auto", for everything but OpenEXR. *)
Definition file_cropped (attr : Z) (path : list Z) (b : bool) : Prop :=
  match crop_from attr with
  | CropDisable => b = false
  | CropEnable => b = true
  | CropAuto => b = true <-> ~ has_extension path ext_exr
  | CropUninitialized => False
  end.

(** What write node [n] hands to the image library at frame [fr] for the stream
    [s]: the path, the picture with everything applied, and the options. *)
Record written {D} (p : profile) (x : externals D) (n : node) (fr : spec_float) (s : stream)
    (path : list Z) (img : shared) (co : compression) : Prop := {
  wr_path : expand_string (x_expand x) (node_get_str n "file_path") (frame_number fr) = Ok path;
  wr_image : exists space ty r,
    file_color_space path space /\ file_type (node_get_i32 n "pixel_data_type") s ty /\
    do_process p (x_numerics x) (x_convert x) BakeAll (st_block s) (st_display s) (st_data s) (st_spec s) s
      (sp_color_space (st_spec s)) space ty = Ok r /\
    ((file_cropped (node_get_i32 n "crop_on_write") path false /\
      img = Shared (bk_block r) (st_display s) (bk_data r) spec_new) \/
     (file_cropped (node_get_i32 n "crop_on_write") path true /\
      exists im, crop_image_in_place p (Image (bk_block r) (st_display s) (bk_data r)) (st_display s) true false false = Ok im
                 /\ img = with_plain im spec_new));
  wr_options : co = Compression (exr_from (node_get_i32 n "exr_compression")) (node_get_i32 n "exr_dwa_compression_level")
    (node_get_i32 n "png_compression_level") (node_get_i32 n "jpeg_compression_level")
    (jpeg_from (node_get_i32 n "jpeg_subsampling")) (negb (node_get_i32 n "jpeg_progressive" =? 0))
}.

(** The stream carries this image with nothing pending. *)
Definition shows (img : shared) (s : stream) : Prop :=
  st_block s = sh_block img /\ st_display s = sh_display img /\ st_data s = sh_data img /\ st_spec s = sh_spec img /\
  st_matrix s = identity4 /\ st_ops s = [] /\ st_deformers s = [].

(** What an enabled, uncached read node shows at frame [fr] when the file system
    is [d]: the file its path names, or an empty picture when there is none. *)
Definition source {D} (x : externals D) (n : node) (d : D) (fr : spec_float) (s : stream) : Prop :=
  exists path, expand_string (x_expand x) (node_get_str n "file_path") (frame_number fr) = Ok path /\
    match x_kind x d path with
    | RegularFile => shows (x_read x d path empty_image) s
    | NoEntry => s = stream_new
    | OtherEntry => node_get_i32 n "enable" <> 1 -> shows (Shared (st_block stream_new) (st_display stream_new)
                                                     (st_data stream_new) (st_spec stream_new)) s
    end.

(** The source's picture with the operations of the nodes [l] pending. *)
Definition processed {D} (x : externals D) (nodes : list node) (n : node) (l : list nat) (d : D) (fr : spec_float)
    (s : stream) : Prop :=
  exists s0 ops defs, source x n d fr s0 /\ collects nodes l ops defs /\ same_picture s s0 /\
    st_ops s = (st_ops s0 ++ ops)%list /\ st_deformers s = (st_deformers s0 ++ defs)%list.

(** The file system after writing one file for each frame in turn; [input] says
    what the node's input shows. *)
Inductive rendered {D} (p : profile) (x : externals D) (n : node) (input : D -> spec_float -> stream -> Prop)
  : list spec_float -> D -> D -> Prop :=
| rn_nil d : rendered p x n input [] d d
| rn_cons fr frs d s path img co d' : input d fr s -> written p x n fr s path img co ->
    rendered p x n input frs (fst (x_write x d path img co)) d' -> rendered p x n input (fr :: frs) d d'.

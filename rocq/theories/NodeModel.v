(** Model of what the nodes do: [validate_inputs] and [compute] of
    src/node/{null,read_image,write_image,grade,lens_distort,transform,
    merge_image,crop_image,viewer,resample_image}.rs, src/imageio.rs, and their
    use by src/node.rs 80-134.

    Everything outside the Rust code is a field of [externals]: the file
    system, OpenImageIO, OpenColorIO, the lens plug-in, trigonometry, the
    hasher's digest and shell expansion.  Logging, timing and thread counts are
    left out. *)
From Coq Require String.
Import String.StringSyntax.
From Coq Require Import Floats.SpecFloat.
From Verif Require Import Machine Loops CacheModel FloatModel BBoxModel PixelModel MergeModel PathModel
  EnumModel AttrModel HashModel StreamModel GradeModel DeformModel BakeModel GraphModel.

(** What std::fs says about a path: [canonicalize] fails, [is_file], or else. *)
Inductive file_kind := NoEntry | RegularFile | OtherEntry.

(** cxxbridge.rs [ImageCompression]. *)
Record compression := Compression {
  co_exr : e_exr; co_dwa : Z; co_png : Z; co_jpeg : Z; co_sampling : e_jpeg; co_progressive : bool
}.

Record externals (D : Type) := Externals {
  (* pathutils.rs 97-109: shellexpand *)
  x_expand : list Z -> list Z;
  (* std DefaultHasher *)
  x_digest : list Z -> Z;
  x_numerics : numerics;
  (* oiio_color_convert_inplace, see BakeModel *)
  x_convert : list f32 -> Z -> Z -> Z -> Z -> bool -> list Z -> list Z -> option (list f32);
  (* oiio_image_resample: success and the destination image afterwards *)
  x_resample : shared -> shared -> Z -> bool -> bool * shared;
  (* the lens plug-in accepts these parameters (commit_data succeeds) *)
  x_lens_ok : vals -> bool;
  (* the file system [D] *)
  x_kind : D -> list Z -> file_kind;
  (* oiio_read_image: the image afterwards; its success flag is only logged *)
  x_read : D -> list Z -> shared -> shared;
  (* oiio_write_image: the file system afterwards and success *)
  x_write : D -> list Z -> shared -> compression -> D * bool
}.
Arguments Externals {D}.
Arguments x_expand {D}.
Arguments x_digest {D}.
Arguments x_numerics {D}.
Arguments x_convert {D}.
Arguments x_resample {D}.
Arguments x_lens_ok {D}.
Arguments x_kind {D}.
Arguments x_read {D}.
Arguments x_write {D}.

(** The image cache and the file system: what executions change besides the
    graph. *)
Record world (D : Type) := World { w_cache : cache shared; w_disk : D }.
Arguments World {D}.
Arguments w_cache {D}.
Arguments w_disk {D}.

(** cache.rs 39-43 [CachedImage::size_bytes]; the product of a length and an
    element size cannot overflow usize. *)
Definition image_bytes (s : shared) : Z :=
  match db_size_bytes Release (pb_data (sh_block s)) with Ok n => n | Panic => 0 end.

(** blocksize.rs [BlockSize::empty], datablock.rs [DataBlock::empty]. *)
Definition empty_block : pixelblock := PB (BS 0 0 0) (DF32 []).
(** imageio.rs 51-56, resample_image.rs 103-108 *)
Definition empty_image : shared := Shared empty_block (BBox 0 0 0 0) (BBox 0 0 0 0) spec_new.

(** data.rs 48-58 [NodeComputeMode]. *)
Definition m_pixel : Z := 1.
Definition m_color : Z := 2.
Definition m_color_space : Z := 4.
Definition m_deformer : Z := 8.

(** Copies of the default operation with attributes overwritten by the node's. *)
Definition copy_attrs (get : string -> Z) (names : list string) : list (string * Z) :=
  map (fun n => (n, get n)) names.

Local Open Scope string_scope.

Definition grade_f32_names : list string :=
  ["black_point_r"; "black_point_g"; "black_point_b"; "black_point_a"; "white_point_r";
   "white_point_g"; "white_point_b"; "white_point_a"; "lift_r"; "lift_g"; "lift_b"; "lift_a";
   "gain_r"; "gain_g"; "gain_b"; "gain_a"; "multiply_r"; "multiply_g"; "multiply_b";
   "multiply_a"; "offset_r"; "offset_g"; "offset_b"; "offset_a"; "gamma_r"; "gamma_g";
   "gamma_b"; "gamma_a"; "mix"].

(** [Operation] code reads attributes through the block's accessors. *)
Definition gi (t : node_type) (b : block) (n : string) : Z := blk_get_i32 (arms_of t) b n.
Definition gf (t : node_type) (b : block) (n : string) : Z := blk_get_f32 (arms_of t) b n.
Definition gs (t : node_type) (b : block) (n : string) : list Z := blk_get_str (arms_of t) b n.

(** grade.rs 277-362: ColorOpGrade::default() (enable = 1) with every other
    field copied. *)
Definition grade_op (b : block) : vals :=
  Vals (("enable", b_i32 gradeop_new "enable")
        :: copy_attrs (gi TGrade b) ["process_r"; "process_g"; "process_b"; "process_a"; "reverse";
                                     "clamp_black"; "clamp_white"; "premult"])
       (copy_attrs (gf TGrade b) grade_f32_names).
(** transform.rs 149-172 *)
Definition transform_op (b : block) : vals :=
  Vals [("enable", b_i32 xformdef_new "enable"); ("invert", gi TTransform b "invert")]
       (copy_attrs (gf TTransform b)
          ["translate_x"; "translate_y"; "rotate"; "rotate_center_x"; "rotate_center_y";
           "scale_x"; "scale_y"; "pivot_x"; "pivot_y"]).
(** lens_distort.rs 143-165: the four built-in parameters keep their defaults. *)
Definition lens_op (b : block) : vals :=
  Vals [("enable", b_i32 tde4_new "enable"); ("direction", gi TLens b "direction")]
       (copy_attrs (b_f32 tde4_new) ["focal_length"; "film_back_width"; "film_back_height"; "pixel_aspect"]
        ++ copy_attrs (gf TLens b)
             ["lens_center_offset_x"; "lens_center_offset_y"; "distortion"; "anamorphic_squeeze";
              "curvature_x"; "curvature_y"; "quartic_distortion"]).

(** MergeImageMode::from as the mode of MergeModel. *)
Definition merge_mode_of (v : Z) : merge_mode :=
  match merge_from v with
  | MergeAdd => MAdd | MergeOver => MOver | MergeMultiply => MMultiply
  | MergeUninitialized => MUninitialized
  end.

(** str::ends_with, for an ASCII suffix given as bytes. *)
Definition ends_with (s suffix : list Z) : bool :=
  bytes_eqb (skipn (length s - length suffix) s) suffix && (Nat.leb (length suffix) (length s)).
Definition ext_jpg : list Z := [46; 106; 112; 103].
Definition ext_png : list Z := [46; 112; 110; 103].
Definition ext_jpeg : list Z := [46; 106; 112; 101; 103].
Definition ext_jpe : list Z := [46; 106; 112; 101].
Definition ext_jif : list Z := [46; 106; 105; 102].
Definition ext_jfif : list Z := [46; 106; 102; 105; 102].
Definition ext_jfi : list Z := [46; 106; 102; 105].
Definition ext_exr : list Z := [46; 101; 120; 114].

(* ------------------------------------------------------------------ *)
(** * Validation *)

(** [for input in skip(k) { push(mode & NONE) }] *)
Definition nones (n : nat) : list Z := repeat 0 n.

(** null.rs 146-167, read_image.rs 304-325, crop_image.rs 351-372, grade.rs
    572-593, resample_image.rs 289-310, transform.rs 271-289, lens_distort.rs
    256-277, write_image.rs 389-410: the first input gets [mode & ALL]. *)
Definition validate_first (mode : Z) (inputs : nat) : list Z :=
  match inputs with
  | O => []
  | S n => Z.land mode mode_all :: nones n
  end.

(** merge_image.rs 379-404 *)
Definition validate_merge (mode : Z) (inputs : nat) : list Z :=
  match inputs with
  | O => []
  | S O => [Z.land mode mode_all]
  | S (S n) => Z.land mode mode_all :: Z.land mode mode_all :: nones n
  end.

(** viewer.rs 368-434 *)
Definition viewer_bake (b : block) : e_bake :=
  match bake_from (gi TViewer b "bake_option") with
  | BakeNothing => BakeNothing
  | o => if negb (gi TViewer b "crop_to_format" =? 0) then BakeAll else o
  end.
Definition validate_viewer (b : block) (mode : Z) (inputs : nat) : Res (list Z) :=
  match inputs with
  | O => Ok []
  | S n =>
      let* m :=
        (if gi TViewer b "enable" =? 0 then Ok mode_all else
         match viewer_bake b with
         | BakeNothing => Ok (Z.land mode mode_all)
         | BakeColorSpace => Ok (Z.land mode (mode_all - m_color_space))
         | BakeColorSpaceAndGrade => Ok (Z.land mode (mode_all - m_color_space - m_color))
         | BakeAll =>
             Ok (Z.land mode (mode_all - m_color_space - m_color - m_deformer - m_pixel))
         | BakeUninitialized => Panic
         end) in
      Ok (m :: nones n)
  end.

Definition validate_op (t : node_type) (b : block) (mode : Z) (inputs : nat) : Res (list Z) :=
  match t with
  | TMerge => Ok (validate_merge mode inputs)
  | TViewer => validate_viewer b mode inputs
  | _ => Ok (validate_first mode inputs)
  end.

(* ------------------------------------------------------------------ *)
(** * Compute *)

Section Compute.
Context {D : Type}.
Variable p : profile.
Variable x : externals D.

Notation bake := (do_process p (x_numerics x) (x_convert x)).

(** The four "use_cache / hit / miss" blocks share this shape: [make] builds the
    image and whatever else it changed; a hit leaves that at [hit]. *)
Definition cached {E} (use_cache : bool) (h : Z) (w : world D) (hit : E) (make : Res (shared * E))
  : Res (shared * E * world D) :=
  if use_cache then
    let (c, r) := get (w_cache w) h in
    match r with
    | Some img => Ok (img, hit, World c (w_disk w))
    | None =>
        let* (img, e) := make in
        let* c := insert image_bytes p c h img in
        Ok (img, e, World c (w_disk w))
    end
  else
    let* (img, e) := make in Ok (img, e, w).

Definition result : Type := (node_status * stream * world D)%type.

(** null.rs 71-99 *)
Definition null_compute (inputs : list stream) (w : world D) : Res result :=
  match inputs with
  | [] => Ok (NsWarning, stream_new, w)
  | s :: _ => Ok (NsValid, s, w)
  end.

(** read_image.rs 94-233 *)
Definition read_compute (b : block) (frame : spec_float) (h mode : Z) (out : stream) (w : world D)
  : Res result :=
  if Z.land mode m_pixel =? 0 then Ok (NsValid, out, w) else
  if gi TRead b "enable" =? 0 then Ok (NsWarning, stream_new, w) else
  let* path := expand_string (x_expand x) (gs TRead b "file_path") (frame_number frame) in
  match x_kind x (w_disk w) path with
  | NoEntry => Ok (NsWarning, stream_new, w)
  | RegularFile =>
      let* (img, _, w) := cached (negb (gi TRead b "use_cache" =? 0)) h w tt
                            (Ok (x_read x (w_disk w) path empty_image, tt)) in
      Ok (NsValid,
          set_image_spec (set_pixel_block (set_hash (set_display_window
            (set_data_window stream_new (sh_data img)) (sh_display img)) h) (sh_block img)) (sh_spec img),
          w)
  | OtherEntry =>
      if gi TRead b "enable" =? 1 then Ok (NsValid, out, w)
      else Ok (NsValid, set_hash stream_new h, w)
  end.

(** crop_image.rs 98-147 [do_image_process] with the result of
    crop_image_in_place, which is [true] unless it panics. *)
Definition crop_process (s : stream) (win : bbox) (reformat black_outside intersect : bool)
  : Res (shared * (stream * node_status)) :=
  let* r := bake BakeAll (st_block s) (st_display s) (st_data s) (st_spec s) s
              (sp_color_space (st_spec s)) linear_name Float32 in
  let* im := crop_image_in_place p (Image (bk_block r) (st_display s) (bk_data r))
               win reformat black_outside intersect in
  Ok (with_plain im (bk_spec r), (bk_stream r, NsValid)).

(** crop_image.rs 149-258 *)
Definition crop_compute (b : block) (h : Z) (inputs : list stream) (w : world D) : Res result :=
  match inputs with
  | [] => Ok (NsWarning, stream_new, w)
  | s :: _ =>
      if negb (gi TCrop b "enable" =? 1) then Ok (NsValid, s, w) else
      let win := BBox (gi TCrop b "window_min_x") (gi TCrop b "window_min_y")
                      (gi TCrop b "window_max_x") (gi TCrop b "window_max_y") in
      let* (img, (s, st), w) :=
        cached (negb (gi TCrop b "use_cache" =? 0)) h w (s, NsValid)
          (crop_process s win (gi TCrop b "reformat" =? 1) (gi TCrop b "black_outside" =? 1)
             (gi TCrop b "intersect" =? 1)) in
      Ok (st, set_pixel_block (set_display_window (set_data_window (set_hash s h) (sh_data img))
                (sh_display img)) (sh_block img), w)
  end.

(** merge_image.rs 92-179 [do_image_process]: A is placed at its baked window,
    B at its original one. *)
Definition merge_start : image :=
  Image (PB (BS 1 1 4) (DF32 [f32_zero; f32_zero; f32_zero; f32_one])) (BBox 0 0 1 1) (BBox 0 0 1 1).
Definition merge_process (a b : stream) (mode : merge_mode) (mix : Z) : Res (shared * unit) :=
  let* ra := bake BakeAll (st_block a) (st_display a) (st_data a) (st_spec a) a
               (sp_color_space (st_spec a)) linear_name Float32 in
  let image_a := Image (bk_block ra) (st_display a) (bk_data ra) in
  let* rb := bake BakeAll (st_block b) (st_display b) (st_data b) (st_spec b) b
               (sp_color_space (st_spec b)) linear_name Float32 in
  let image_b := Image (bk_block rb) (st_display (bk_stream rb)) (st_data (bk_stream rb)) in
  let* r := merge p mode image_a image_b (f32_of_bits mix) merge_start in
  match r with
  | None => Ok (with_plain merge_start spec_new, tt)
  | Some im => Ok (with_plain im (bk_spec rb), tt)
  end.

(** merge_image.rs 181-308 *)
Definition merge_compute (b : block) (h : Z) (inputs : list stream) (w : world D) : Res result :=
  if negb (gi TMerge b "enable" =? 1) then Ok (NsWarning, stream_new, w) else
  match inputs with
  | [] => Ok (NsWarning, stream_new, w)
  | sa :: rest =>
      let (sb, st) := match rest with [] => (stream_new, NsWarning) | sb :: _ => (sb, NsValid) end in
      let* (img, _, w) :=
        cached (negb (gi TMerge b "use_cache" =? 0)) h w tt
          (merge_process sa sb (merge_mode_of (gi TMerge b "mode")) (gf TMerge b "mix")) in
      Ok (st, set_pixel_block (set_hash (set_display_window (set_data_window stream_new (sh_data img))
                (sh_display img)) h) (sh_block img), w)
  end.

(** resample_image.rs 87-214; the source image is a copy. *)
Definition resample_compute (b : block) (h : Z) (inputs : list stream) (w : world D) : Res result :=
  match inputs with
  | [] => Ok (NsWarning, stream_new, w)
  | s :: rest =>
      if negb (gi TResample b "enable" =? 1) then Ok (NsValid, s, w) else
      (* debug_assert!(inputs.len() == 1) *)
      if (match p with Debug => negb (Nat.eqb (length rest) 0) | Release => false end) then Panic else
      if gi TResample b "factor" =? 0 then Ok (NsValid, s, w) else
      let src := Shared (st_block s) (st_display s) (st_data s) (st_spec s) in
      let* (img, st, w) :=
        cached (negb (gi TResample b "use_cache" =? 0)) h w NsValid
          (let (ok, img) := x_resample x src empty_image (gi TResample b "factor")
                              (negb (gi TResample b "interpolate" =? 0)) in
           Ok (img, if ok then NsValid else NsError)) in
      Ok (st, set_hash (set_pixel_block (set_display_window (set_data_window s (sh_data img))
                (sh_display img)) (sh_block img)) h, w)
  end.

(** The input stream or a new one. *)
Definition first_input (inputs : list stream) : stream * node_status :=
  match inputs with [] => (stream_new, NsWarning) | s :: _ => (s, NsValid) end.

(** grade.rs 234-369 *)
Definition grade_compute (b : block) (h : Z) (inputs : list stream) (w : world D) : Res result :=
  let (s, st) := first_input inputs in
  let work := (gi TGrade b "enable" =? 1)
    && (negb (gi TGrade b "process_r" =? 0) || negb (gi TGrade b "process_g" =? 0)
        || negb (gi TGrade b "process_b" =? 0) || negb (gi TGrade b "process_a" =? 0)) in
  if negb work then Ok (st, s, w) else
  Ok (st, set_hash (push_color_op s (grade_op b)) h, w).

(** transform.rs 119-182 *)
Definition transform_compute (b : block) (h : Z) (inputs : list stream) (w : world D) : Res result :=
  let (s, st) := first_input inputs in
  let s := if gi TTransform b "enable" =? 1 then push_deformer s (DTransform (transform_op b)) else s in
  Ok (st, set_hash s h, w).

(** lens_distort.rs 111-173; a refusal by the plug-in panics ([unwrap]). *)
Definition lens_compute (b : block) (h : Z) (inputs : list stream) (w : world D) : Res result :=
  let (s, st) := first_input inputs in
  if gi TLens b "enable" =? 1 then
    if x_lens_ok x (lens_op b) then Ok (st, set_hash (push_deformer s (DTde4 (lens_op b))) h, w)
    else Panic
  else Ok (st, set_hash s h, w).

(** imageio.rs 90-174 [write_image]: the image's spec is replaced. *)
Definition write_image (d : D) (path : list Z) (img : shared) (crop : bool) (co : compression)
  : Res (D * bool) :=
  let* im :=
    (if crop then crop_image_in_place p (plain img) (sh_display img) true false false
     else Ok (plain img)) in
  Ok (x_write x d path (with_plain im spec_new) co).

(** write_image.rs 129-206 [do_image_process] *)
Definition write_process (b : block) (frame : spec_float) (s : stream) (d : D) : Res (D * bool) :=
  let* path := expand_string (x_expand x) (gs TWrite b "file_path") (frame_number frame) in
  let ty := match datatype_of (data_type_from (gi TWrite b "pixel_data_type")) with
            | UnknownType => db_type (pb_data (st_block s))
            | t => t
            end in
  let to := if ends_with path ext_jpg || ends_with path ext_png || ends_with path ext_jpeg
               || ends_with path ext_jpe || ends_with path ext_jif || ends_with path ext_jfif
               || ends_with path ext_jfi
            then srgb_name else linear_name in
  let* r := bake BakeAll (st_block s) (st_display s) (st_data s) (st_spec s) s
              (sp_color_space (st_spec s)) to ty in
  let* crop := match crop_from (gi TWrite b "crop_on_write") with
               | CropDisable => Ok false
               | CropEnable => Ok true
               | CropAuto => Ok (negb (ends_with path ext_exr))
               | CropUninitialized => Panic
               end in
  write_image d path (Shared (bk_block r) (st_display s) (bk_data r) (bk_spec r)) crop
    (Compression (exr_from (gi TWrite b "exr_compression")) (gi TWrite b "exr_dwa_compression_level")
       (gi TWrite b "png_compression_level") (gi TWrite b "jpeg_compression_level")
       (jpeg_from (gi TWrite b "jpeg_subsampling")) (negb (gi TWrite b "jpeg_progressive" =? 0))).

(** write_image.rs 208-295 *)
Definition write_compute (b : block) (frame : spec_float) (inputs : list stream) (w : world D) : Res result :=
  if gi TWrite b "enable" =? 0 then Ok (NsValid, stream_new, w) else
  match inputs with
  | [] => Ok (NsWarning, stream_new, w)
  | s :: _ =>
      if gi TWrite b "execute" =? 0 then Ok (NsValid, s, w) else
      let* (d, ok) := write_process b frame s (w_disk w) in
      Ok (NsValid, s, World (w_cache w) d)
  end.

(** viewer.rs 96-154 [do_viewer_bake] *)
Definition viewer_process (s : stream) (opt : e_bake) (ty : datatype) (crop : bool) (to : list Z)
  : Res (shared * stream) :=
  let* r := bake opt (st_block s) (st_display s) (st_data s) (st_spec s) s
              (sp_color_space (st_spec s)) to ty in
  if crop then
    let* im := crop_image_in_place p (Image (bk_block r) (st_display s) (bk_data r))
                 (st_display s) true false false in
    Ok (with_plain im (bk_spec r), bk_stream r)
  else Ok (Shared (bk_block r) (st_display s) (bk_data r) (bk_spec r), bk_stream r).

(** viewer.rs 156-281 *)
Definition viewer_compute (b : block) (h : Z) (inputs : list stream) (out : stream) (w : world D)
  : Res result :=
  if negb (gi TViewer b "enable" =? 1) then Ok (NsValid, out, w) else
  let (s, _) := first_input inputs in
  match bake_from (gi TViewer b "bake_option") with
  | BakeNothing => Ok (NsValid, s, w)
  | _ =>
      let opt := viewer_bake b in
      let* (img, s, w) :=
        cached (negb (gi TViewer b "use_cache" =? 0)) h w s
          (viewer_process s opt (datatype_of (data_type_from (gi TViewer b "bake_pixel_data_type")))
             (negb (gi TViewer b "crop_to_format" =? 0)) (gs TViewer b "bake_color_space")) in
      let s := match opt with BakeAll => clear_deformers s | _ => s end in
      Ok (NsValid, set_image_spec (set_pixel_block (set_hash (set_display_window
            (set_data_window s (sh_data img)) (sh_display img)) h) (sh_block img)) (sh_spec img), w)
  end.

(** node/traits.rs: [Operation::compute] of the ten node types. *)
Definition compute_op (t : node_type) (b : block) (frame : spec_float) (h mode : Z)
    (inputs : list stream) (out : stream) (w : world D) : Res result :=
  match t with
  | TNull => null_compute inputs w
  | TRead => read_compute b frame h mode out w
  | TWrite => write_compute b frame inputs w
  | TGrade => grade_compute b h inputs w
  | TLens => lens_compute b h inputs w
  | TTransform => transform_compute b h inputs w
  | TMerge => merge_compute b h inputs w
  | TCrop => crop_compute b h inputs w
  | TViewer => viewer_compute b h inputs out w
  | TResample => resample_compute b h inputs w
  end.

(** cxxbridge.rs 288-299 *)
Definition status_code (s : node_status) : Z :=
  match s with
  | NsError => 0 | NsValid => 1 | NsWarning => 2 | NsNonExistent => 3 | NsUninitialized => 255
  end.

(** node.rs 80-88.  (Hashing cannot panic on values a struct can hold, see
    [key_exists]; the graph model wants a total function.) *)
Definition node_hash (n : node) (frame : spec_float) (inputs : list Z) : Z :=
  match cache_hash p (x_expand x) (x_digest x) (nd_type n) (nd_attrs n) frame inputs with
  | Ok h => h
  | Panic => 0
  end.

(** node.rs 90-106 *)
Definition node_validate (n : node) (mode h : Z) (inputs : list node) : Res (list Z) :=
  validate_op (nd_type n) (nd_attrs n) mode (length inputs).

(** node.rs 108-134 *)
Definition node_compute (n : node) (frame : spec_float) (mode : Z) (inputs : list stream)
    (out : stream) (w : world D) : Res (node * node_status * stream * world D) :=
  let* h := cache_hash p (x_expand x) (x_digest x) (nd_type n) (nd_attrs n) frame (map st_hash inputs) in
  let* (st, out, w) := compute_op (nd_type n) (nd_attrs n) frame h mode inputs out w in
  Ok (Node (nd_type n) (nd_id n) (status_code st) (nd_attrs n), st, out, w).

(** The nodes as the graph sees them. *)
Definition node_ops : nodeops node stream (world D) spec_float awrite :=
  NodeOps nd_id node_hash node_validate node_compute node_write.
End Compute.

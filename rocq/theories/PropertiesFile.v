(** C76 to C79: pictures in files, resampling and compression settings. *)
From Coq Require String.
Import String.StringSyntax.
From Coq Require Import Floats.SpecFloat Lia.
From Verif Require Import Machine CacheModel FloatModel BBoxModel BBoxSpec PixelModel PixelSpec PixelProofs2 EnumModel AttrModel HashModel PathModel
  StreamModel DeformModel BakeModel BakeProofs GraphModel GraphSpec NodeModel NodeExamples NodeSpec ChainSpec FileModel FileSpec FileProofs
  PropertiesNode PropertiesRun.
Local Open Scope string_scope.

(** An image library for examples: it stores every file, converts to sRGB by
    halving and back by doubling, and resamples to a constant. *)
Definition files := list (list Z * file).
Fixpoint files_find (d : files) (path : list Z) : option file :=
  match d with [] => None | (q, f) :: t => if bytes_eqb q path then Some f else files_find t path end.
Definition keep (d : files) (path : list Z) (f : file) (_ : list oattr) : files * bool := ((path, f) :: d, true).
Definition plain_values (d : datablock) (n : nat) : datablock :=
  match d with DF32 _ => DF32 (repeat f32_one n) | DU8 _ => DU8 (repeat 7 n) | DU16 _ => DU16 (repeat 7 n) | DF16 _ => DF16 (repeat f32_zero n) end.
Definition constant (d : datablock) (w h n w' h' : Z) (_ : bool) : bool * datablock := (true, plain_values d (Z.to_nat (w' * h' * n))).
Definition glued (p : profile) : externals files :=
  Externals (fun l => l) demo_digest demo_numerics
    (fun px _ _ _ _ _ from to =>
       if bytes_eqb to srgb_name then Some (map (fun v => f32_mul v (f32_of_bits 1056964608)) px)
       else if bytes_eqb from srgb_name then Some (map (fun v => f32_mul v (f32_of_bits 1073741824)) px) else None)
    (fun src dst f i => match oiio_image_resample constant p src dst f i with Done r => r | _ => (false, dst) end)
    (fun _ => true)
    (fun d path => match files_find d path with Some _ => RegularFile | None => NoEntry end)
    (fun d path img => match oiio_read_image p (files_find d path) img with Done (_, r) => r | _ => img end)
    (oiio_write_image (fun _ => true) keep).
Lemma glued_kept p : files_kept p (glued p) files_find (fun _ => true) keep.
Proof.
  split.
  - reflexivity.
  - intros d path ok r E. cbn [glued x_read]. now rewrite E.
  - intros d path f a _. cbn [keep fst files_find]. now rewrite bytes_eqb_refl.
Qed.
Lemma constant_size : makes_size constant.
Proof.
  intros d w h n w' h' i. cbn [constant snd]. split; [now destruct d|]. intros H. rewrite len_elems.
  destruct d; cbn [plain_values elems]; rewrite map_length, repeat_length; lia.
Qed.
Lemma glued_resample p : resample_glue p (glued p) constant.
Proof. intros src f i ok r E. cbn [glued x_resample]. now rewrite E. Qed.

(* ------------------------------ C76 ------------------------------ *)

(** A picture written to a file and read back is the same picture, with the
    same windows and metadata, provided its display window starts at the
    origin and its format can be stored as it is. *)
Theorem C76_written_and_read : forall (D : Type) p (x : externals D) find creates store d path img co,
  files_kept p x find creates store -> storable img -> min_x (sh_display img) = 0 -> min_y (sh_display img) = 0 ->
  creates path = true -> (forall f a, snd (store d path f a) = true) ->
  exists d', x_write x d path img co = (d', true) /\ x_read x d' path empty_image = img.
Proof. intros D p x find creates store d path img co K. exact (kept_exact p x find creates store K d path img co). Qed.
Print Assumptions C76_written_and_read.

(** So what a write node writes ([written], C60), a read node shows. *)
Theorem C76_rendered_and_read_partial : forall (D : Type) p (x : externals D) find creates store n fr s path img co d n' fr' s',
  files_kept p x find creates store -> written p x n fr s path img co ->
  storable img -> min_x (sh_display img) = 0 -> min_y (sh_display img) = 0 ->
  creates path = true -> (forall f a, snd (store d path f a) = true) ->
  let d' := fst (x_write x d path img co) in
  expand_string (x_expand x) (node_get_str n' "file_path") (frame_number fr') = Ok path -> x_kind x d' path = RegularFile ->
  source x n' d' fr' s' -> shows img s'.
Proof. intros D. exact rendered_back. Qed.
Print Assumptions C76_rendered_and_read_partial.

(** When the write is cropped to the display window: the picture inside the
    display window, black where there was none. *)
Theorem C76_cropped : forall (D : Type) p (x : externals D) find creates store d path img co,
  files_kept p x find creates store -> storable img -> min_x (sh_display img) = 0 -> min_y (sh_display img) = 0 ->
  well_formed (sh_display img) -> coords_small (sh_display img) ->
  count_fits (width (sh_display img)) (height (sh_display img)) (bs_nc (pb_size (sh_block img))) ->
  creates path = true -> (forall f a, snd (store d path f a) = true) ->
  exists d' r, write_image p x d path img true co = Ok (d', true) /\ x_read x d' path empty_image = r /\
    sh_display r = sh_display img /\ sh_data r = sh_display img /\ sh_spec r = spec_new /\
    bs_nc (pb_size (sh_block r)) = bs_nc (pb_size (sh_block img)) /\ db_type (pb_data (sh_block r)) = db_type (pb_data (sh_block img)) /\
    forall px py c, in_box (sh_display img) px py -> 0 <= c < bs_nc (pb_size (sh_block img)) ->
      pixel_val (sh_block r) (sh_data r) px py c =
      if in_boxb (sh_data img) px py then pixel_val (sh_block img) (sh_data img) px py c
      else Some (zero_elem (db_type (pb_data (sh_block img)))).
Proof. intros D p x find creates store d path img co K. exact (kept_cropped p x find creates store K d path img co). Qed.
Print Assumptions C76_cropped.

Definition two_dots : shared :=
  Shared (PB (BS 2 1 3) (DF32 [f32_one; f32_zero; f32_one; f32_zero; f32_one; f32_one])) (BBox 0 0 4 3) (BBox (-1) 2 1 3) spec_new.
Example C76_example :
  storable two_dots /\ files_kept Debug (glued Debug) files_find (fun _ => true) keep /\
  x_read (glued Debug) (fst (x_write (glued Debug) [] [97] two_dots (Compression ExrDefault 0 0 0 JpegDefault false))) [97] empty_image = two_dots.
Proof.
  split; [|split; [apply glued_kept|vm_compute; reflexivity]].
  unfold storable, image_ok, wf_block, placed, well_formed, coords_small, count_fits, two31.
  cbn [plain two_dots im_block im_data im_display sh_block sh_data sh_display pb_size pb_data bs_w bs_h bs_nc min_x min_y max_x max_y db_len db_type width height].
  repeat split; try (vm_compute; congruence); try reflexivity. left. reflexivity.
Qed.

(** Whatever the display window, the pixels and the metadata come back; the
    picture moves against the display window by twice the latter's corner. *)
Theorem C76_any_origin : forall p img, storable img ->
  exists r, oiio_read_image p (Some (file_of img)) empty_image = Done (true, r) /\
    sh_block r = sh_block img /\ sh_spec r = sh_spec img /\
    width (sh_display r) = width (sh_display img) /\ height (sh_display r) = height (sh_display img) /\
    place (sh_display r) (sh_data r) =
    (fst (place (sh_display img) (sh_data img)) + 2 * min_x (sh_display img),
     snd (place (sh_display img) (sh_data img)) + 2 * min_y (sh_display img)).
Proof.
  intros p img S. rewrite round_trip by (exact S || reflexivity). cbv zeta. eexists. split; [reflexivity|].
  cbn [sh_block sh_spec sh_display sh_data place fst snd width height min_x min_y max_x max_y].
  split; [reflexivity|]. split; [reflexivity|]. split; [unfold width; cbn; lia|]. split; [unfold height; cbn; lia|].
  unfold place. cbn [min_x min_y fst snd]. f_equal; lia.
Qed.
Print Assumptions C76_any_origin.
Definition off_origin : shared :=
  Shared (PB (BS 1 1 3) (DF32 [f32_one; f32_zero; f32_one])) (BBox 10 10 14 13) (BBox 11 10 12 11) spec_new.
Theorem C76_origin_refuted : exists img r, storable img /\
  oiio_read_image Release (Some (file_of img)) empty_image = Done (true, r) /\
  place (sh_display img) (sh_data img) = (1, 0) /\ place (sh_display r) (sh_data r) = (21, 20).
Proof.
  exists off_origin. eexists. split; [|split; [vm_compute; reflexivity|split; vm_compute; reflexivity]].
  unfold storable, image_ok, wf_block, placed, well_formed, coords_small, count_fits, two31.
  cbn [plain off_origin im_block im_data im_display sh_block sh_data sh_display pb_size pb_data bs_w bs_h bs_nc min_x min_y max_x max_y db_len db_type width height].
  repeat split; try (vm_compute; congruence); try reflexivity. left. reflexivity.
Qed.
Print Assumptions C76_origin_refuted.

(** "A picture rendered to a file and read back looks the same" is false of the
    names written as sRGB: the file is tagged Linear.  Here white becomes half
    white although conversion to sRGB and back changes nothing. *)
Definition white_file : file :=
  file_of (Shared (PB (BS 1 1 3) (DF32 [f32_one; f32_one; f32_one])) (BBox 0 0 1 1) (BBox 0 0 1 1) spec_new).
Definition rendered_white (path : list Z) : option (datablock * list Z * (datablock * list Z)) :=
  let ops := node_ops Release (glued Release) in
  let rd := setup TRead 1 [WStr "file_path" [97]] in
  let wr := setup TWrite 2 [WStr "file_path" path; WI32 "execute" 1; WI32 "enable" 1] in
  let rd' := setup TRead 3 [WStr "file_path" path] in
  match execute ops insertion_sort 9 (NodePair.pair_graph ops rd wr 0 stream_new GsDirty ExUninitialized) 2 [frame0]
          (World (with_capacity 4096) [([97], white_file)]) with
  | Some (Ok (g, w, ExSuccess)) =>
      match compute_op Release (glued Release) TRead (nd_attrs rd') frame0 77 mode_all [] stream_new w with
      | Ok (NsValid, s, _) =>
          Some (pb_data (st_block (g_output g)), sp_color_space (st_spec (g_output g)), (pb_data (st_block s), sp_color_space (st_spec s)))
      | _ => None
      end
  | _ => None
  end.
Theorem C76_srgb_refuted : exists path v,
  has_extension path ext_png /\
  x_convert (glued Release) [f32_one; f32_one; f32_one] 1 1 3 (-1) false linear_name srgb_name = Some [v; v; v] /\
  x_convert (glued Release) [v; v; v] 1 1 3 (-1) false srgb_name linear_name = Some [f32_one; f32_one; f32_one] /\
  rendered_white path = Some (DF32 [f32_one; f32_one; f32_one], linear_name, (DF32 [v; v; v], linear_name)) /\ v = f32_of_bits 1056964608.
Proof.
  exists ([98] ++ ext_png)%list, (f32_of_bits 1056964608). split; [now exists [98]|].
  split; [vm_compute; reflexivity|]. split; [vm_compute; reflexivity|]. split; [vm_compute; reflexivity|reflexivity].
Qed.
Print Assumptions C76_srgb_refuted.
(** The upper-case name is written as Linear. *)
Example C76_upper_case :
  rendered_white [98; 46; 80; 78; 71] = Some (DF32 [f32_one; f32_one; f32_one], linear_name, (DF32 [f32_one; f32_one; f32_one], linear_name)).
Proof. vm_compute. reflexivity. Qed.

(* ------------------------------ C77 ------------------------------ *)

(** A read node shows the pixels of the file, opaque where the file has no
    alpha and one is added, on the file's windows. *)
Theorem C77_file_shown_partial : forall (D : Type) p (x : externals D) find creates store n fr d f s path,
  files_kept p x find creates store -> find d path = Some f ->
  whole_file f -> 3 <= o_channels (fi_spec f) <= stored_channels f -> o_format (fi_spec f) <> OOther ->
  expand_string (x_expand x) (node_get_str n "file_path") (frame_number fr) = Ok path -> x_kind x d path = RegularFile ->
  source x n d fr s ->
  pixels_of (st_block s) f /\
  (o_full_x (fi_spec f) = 0 -> o_full_y (fi_spec f) = 0 ->
   st_display s = BBox 0 0 (o_full_width (fi_spec f)) (o_full_height (fi_spec f)) /\
   st_data s = BBox (o_x (fi_spec f)) (o_y (fi_spec f)) (o_x (fi_spec f) + o_width (fi_spec f)) (o_y (fi_spec f) + o_height (fi_spec f))) /\
  sp_color_space (st_spec s) = match o_color_space (fi_spec f) with Some c => c | None => [] end.
Proof.
  intros D p x find creates store n fr d f s path K F WF C FM E KD SO.
  destruct (file_shown p x find creates store n fr d f s path K F WF C FM E KD SO) as (P & DI & DA & SP).
  split; [exact P|]. split; [|now rewrite SP]. intros X Y. rewrite DI, DA. unfold read_display, read_data. rewrite X, Y, !Z.add_0_r. split; reflexivity.
Qed.
Print Assumptions C77_file_shown_partial.

(** An eight bit RGB file of two pixels. *)
Definition rgb_file : file := File (OSpec 1 0 2 1 0 0 4 3 3 OUInt8 None None None None None None) (DU8 [1; 2; 3; 4; 5; 6]).
Example C77_example :
  whole_file rgb_file /\ stored_channels rgb_file = 4 /\
  x_read (glued Debug) [([97], rgb_file)] [97] empty_image =
  Shared (PB (BS 2 1 4) (DU8 [1; 2; 3; 255; 4; 5; 6; 255])) (BBox 0 0 4 3) (BBox 1 0 3 1) (Spec [] f1 f1 0 false 0).
Proof.
  split; [|split; [reflexivity|vm_compute; reflexivity]].
  unfold whole_file, count_fits, two31. cbn. repeat split; lia.
Qed.

(** A file whose display window does not start at the origin is misplaced. *)
Definition far_file : file := File (OSpec 10 10 1 1 10 10 4 3 3 OFloat None None None None None None) (DF32 [f32_one; f32_one; f32_one]).
Theorem C77_place_refuted : exists f r, whole_file f /\ o_x (fi_spec f) = o_full_x (fi_spec f) /\ o_y (fi_spec f) = o_full_y (fi_spec f) /\
  oiio_read_image Release (Some f) empty_image = Done (true, r) /\ place (sh_display r) (sh_data r) = (20, 20).
Proof.
  exists far_file. eexists. split; [unfold whole_file, count_fits, two31; cbn; repeat split; lia|].
  split; [reflexivity|]. split; [reflexivity|]. split; [vm_compute; reflexivity|reflexivity].
Qed.
Print Assumptions C77_place_refuted.

(** Files of other shapes: every 8 or 16 bit picture of more than four channels
    is written past the end of its buffer, a format outside the four kinds
    aborts the process, and fewer than three channels are refused. *)
Theorem C77_many_channels_overrun : forall p f, whole_file f -> 4 < o_channels (fi_spec f) ->
  o_format (fi_spec f) <> OOther -> o_format (fi_spec f) <> OFloat -> 0 < o_width (fi_spec f) -> 0 < o_height (fi_spec f) ->
  oiio_read_image p (Some f) empty_image = Undefined.
Proof. intros p f WF C F G W H. exact (read_over p f empty_image WF C F G W H eq_refl). Qed.
Print Assumptions C77_many_channels_overrun.
Theorem C77_other_formats_abort : forall p f, 3 <= o_channels (fi_spec f) -> o_format (fi_spec f) = OOther ->
  oiio_read_image p (Some f) empty_image = Aborted.
Proof. intros p f. exact (read_unknown p f empty_image). Qed.
Print Assumptions C77_other_formats_abort.
Theorem C77_few_channels_refused : forall p f, o_channels (fi_spec f) < 3 ->
  oiio_read_image p (Some f) empty_image = Done (false, empty_image).
Proof. intros p f. exact (read_few p f empty_image). Qed.
Print Assumptions C77_few_channels_refused.

(** A half float file with five channels (RGBA and depth). *)
Definition depth_file : file := File (OSpec 0 0 1 1 0 0 1 1 5 OHalf None None None None None None) (DF16 (repeat f32_zero 5)).
(** A grey one. *)
Definition grey_file : file := File (OSpec 0 0 1 1 0 0 1 1 1 OFloat None None None None None None) (DF32 [f32_one]).
(** "A read node whose file exists shows it or says that it cannot" is false:
    the grey file gives an empty picture and the status "valid". *)
Theorem C77_grey_refuted : exists f s w, whole_file f /\ o_width (fi_spec f) = 1 /\ o_height (fi_spec f) = 1 /\
  compute_op Release (glued Release) TRead (nd_attrs (setup TRead 1 [WStr "file_path" [97]])) frame0 77 mode_all [] stream_new
    (World (with_capacity 4096) [([97], f)]) = Ok (NsValid, s, w) /\ pb_data (st_block s) = DF32 [].
Proof.
  exists grey_file. do 2 eexists. split; [unfold whole_file, count_fits, two31; cbn; repeat split; lia|].
  split; [reflexivity|]. split; [reflexivity|]. split; [vm_compute; reflexivity|reflexivity].
Qed.
Print Assumptions C77_grey_refuted.
Theorem C77_channels_refuted : exists f, whole_file f /\ o_format (fi_spec f) = OHalf /\ oiio_read_image Release (Some f) empty_image = Undefined.
Proof.
  exists depth_file. split; [unfold whole_file, count_fits, two31; cbn; repeat split; lia|]. split; [reflexivity|vm_compute; reflexivity].
Qed.
Print Assumptions C77_channels_refuted.

(* ------------------------------ C50 ------------------------------ *)

(** The C++ side also reports success whatever becomes of opening, writing and
    closing the file. *)
Theorem C50_library_failure_hidden : forall (D : Type) creates (store : D -> list Z -> file -> list oattr -> D * bool) d path img co,
  snd (oiio_write_image creates store d path img co) = creates path.
Proof. intros. unfold oiio_write_image. destruct (creates path); reflexivity. Qed.
Print Assumptions C50_library_failure_hidden.

(* ------------------------------ C78 ------------------------------ *)

(** An enabled resample node, its image not in the cache: the picture has the
    input's size times two to the factor (rounded down, from 1 to 16384), lies
    on a display window of that size at the origin, and consists of what the
    image library made of the input's pixels. *)
Theorem C78_resampled_partial : forall (D : Type) p (x : externals D) algorithm b h s rest (w : world D) st s' w',
  makes_size algorithm -> resample_glue p x algorithm ->
  gi TResample b "enable" = 1 -> gi TResample b "factor" <> 0 -> misses w h ->
  resample_compute p x b h (s :: rest) w = Ok (st, s', w') ->
  let sz := pb_size (st_block s) in let f := gi TResample b "factor" in
  0 <= bs_nc sz <= 4 -> (db_type (pb_data (st_block s)) = Float32 \/ bs_nc sz = 4) ->
  resizable (bs_w sz) f -> resizable (bs_h sz) f ->
  exists w1 h1, resized (bs_w sz) f w1 /\ resized (bs_h sz) f h1 /\
  let r := algorithm (pb_data (st_block s)) (bs_w sz) (bs_h sz) (bs_nc sz) w1 h1 (negb (gi TResample b "interpolate" =? 0)) in
  (st = NsValid <-> fst r = true) /\ st_block s' = PB (BS w1 h1 (bs_nc sz)) (snd r) /\
  st_display s' = BBox 0 0 w1 h1 /\ st_data s' = BBox 0 0 w1 h1 /\ st_spec s' = st_spec s.
Proof. intros D. exact resample_node. Qed.
Print Assumptions C78_resampled_partial.

(** Half of a picture of three by one. *)
Definition half_size : block := nd_attrs (setup TResample 2 [WI32 "factor" (-1); WI32 "enable" 1]).
Definition three_by_one : stream := set_pixel_block (set_data_window (set_display_window stream_new (BBox 0 0 3 1)) (BBox 0 0 3 1))
  (PB (BS 3 1 3) (DF32 (repeat f32_zero 9))).
Example C78_example :
  makes_size constant /\ resample_glue Release (glued Release) constant /\
  gi TResample half_size "enable" = 1 /\ gi TResample half_size "factor" = -1 /\ resizable 3 (-1) /\ resizable 1 (-1) /\
  resized 3 (-1) 1 /\ resized 1 (-1) 1 /\
  match resample_compute Release (glued Release) half_size 77 [three_by_one] (World (with_capacity 4096) []) with
  | Ok (NsValid, s, _) => st_data s = BBox 0 0 1 1 /\ pb_data (st_block s) = DF32 (repeat f32_one 3)
  | _ => False
  end.
Proof.
  split; [exact constant_size|]. split; [apply glued_resample|]. split; [reflexivity|]. split; [reflexivity|].
  split; [unfold resizable; lia|]. split; [unfold resizable; lia|].
  split; [exists 1; cbn; lia|]. split; [exists 0; cbn; lia|]. vm_compute. auto.
Qed.

(** "The picture keeps its place in the frame" is false: a picture that covers
    the right half of the display window covers the whole of it afterwards. *)
Definition right_half : stream := set_pixel_block (set_data_window (set_display_window stream_new (BBox 0 0 4 2)) (BBox 2 0 4 2))
  (PB (BS 2 2 3) (DF32 (repeat f32_zero 12))).
Theorem C78_place_refuted : exists b s s' w,
  resample_compute Release (glued Release) b 77 [s] (World (with_capacity 4096) []) = Ok (NsValid, s', w) /\
  st_display s = BBox 0 0 4 2 /\ st_data s = BBox 2 0 4 2 /\ gi TResample b "factor" = -1 /\
  st_display s' = BBox 0 0 1 1 /\ st_data s' = BBox 0 0 1 1.
Proof.
  exists half_size, right_half. do 2 eexists. split; [vm_compute; reflexivity|]. split; [reflexivity|]. split; [reflexivity|].
  split; [reflexivity|]. split; reflexivity.
Qed.
Print Assumptions C78_place_refuted.

(** Three channels of 8 or 16 bits: the destination has four channels and is
    filled as if it had three, so a constant picture is not constant. *)
Definition bytes_rgb : shared := Shared (PB (BS 2 1 3) (DU8 [7; 7; 7; 7; 7; 7])) (BBox 0 0 2 1) (BBox 0 0 2 1) spec_new.
Theorem C78_three_channels_refuted : exists src f r,
  oiio_image_resample constant Release src empty_image f false = Done (true, r) /\
  bs_nc (pb_size (sh_block src)) = 3 /\ bs_nc (pb_size (sh_block r)) = 4 /\
  (forall k c, 0 <= k < 2 -> 0 <= c < 3 -> value (pb_data (sh_block src)) 3 k c = Some (EI 7)) /\
  value (pb_data (sh_block r)) 4 7 0 = Some (EI 255).
Proof.
  exists bytes_rgb, 1. eexists. split; [vm_compute; reflexivity|]. split; [reflexivity|]. split; [reflexivity|]. split; [|reflexivity].
  intros k c K C. assert (A : k = 0 \/ k = 1) by lia. assert (B : c = 0 \/ c = 1 \/ c = 2) by lia.
  destruct A as [-> | ->], B as [-> | [-> | ->]]; reflexivity.
Qed.
Print Assumptions C78_three_channels_refuted.

(** Factors that take the size out of range of an [int] are undefined. *)
Theorem C78_large_factor_refuted : exists src, oiio_image_resample constant Release src empty_image 31 false = Undefined.
Proof. exists bytes_rgb. vm_compute. reflexivity. Qed.
Print Assumptions C78_large_factor_refuted.

(* ------------------------------ C79 ------------------------------ *)

(** A write node's settings reach the file: the OpenEXR method by name, with
    the level for the two that have one; the PNG level; the JPEG quality,
    subsampling and progressive flag.  The ending is read in any case. *)
Theorem C79_exr : forall path co k name, any_case path ext_exr -> In (k, name) exr_names -> co_exr co = exr_from k ->
  compression_attrs path co =
  OStr "Compression" name :: (if (k =? 9) || (k =? 10) then [OFloatAttr "openexr:dwaCompressionLevel" (f32_of_Z (co_dwa co))] else []).
Proof. exact exr_file. Qed.
Print Assumptions C79_exr.
Theorem C79_exr_default : forall path co k, any_case path ext_exr -> (k <= 0 \/ 10 < k) -> co_exr co = exr_from k -> compression_attrs path co = [].
Proof. exact exr_unnamed. Qed.
Print Assumptions C79_exr_default.
Theorem C79_png : forall path co, any_case path ext_png -> compression_attrs path co = [OInt "png:compressionLevel" (co_png co)].
Proof. exact png_file. Qed.
Print Assumptions C79_png.
Theorem C79_jpeg : forall path co ext k name, In ext jpeg_endings -> any_case path ext -> In (k, name) jpeg_names -> co_sampling co = jpeg_from k ->
  compression_attrs path co =
  [OStr "Compression" "jpeg"; OInt "CompressionQuality" (co_jpeg co); OStr "jpeg:subsampling" name;
   OInt "jpeg:progressive" (if co_progressive co then 1 else 0)].
Proof. exact jpeg_file. Qed.
Print Assumptions C79_jpeg.
Theorem C79_jpeg_default : forall path co ext k, In ext jpeg_endings -> any_case path ext -> (k <= 0 \/ 4 < k) -> co_sampling co = jpeg_from k ->
  compression_attrs path co =
  [OStr "Compression" "jpeg"; OInt "CompressionQuality" (co_jpeg co); OInt "jpeg:progressive" (if co_progressive co then 1 else 0)].
Proof. exact jpeg_unnamed. Qed.
Print Assumptions C79_jpeg_default.
(** Nothing is asked for files with other endings. *)
Theorem C79_other : forall path co, ~ any_case path ext_exr -> ~ any_case path ext_png ->
  (forall ext, In ext jpeg_endings -> ~ any_case path ext) -> compression_attrs path co = [].
Proof. exact other_file. Qed.
Print Assumptions C79_other.
(** The settings of the write node itself ([written], C60). *)
Theorem C79_settings : forall (D : Type) p (x : externals D) n fr s path img co, written p x n fr s path img co ->
  (any_case path ext_exr -> forall name, In (node_get_i32 n "exr_compression", name) exr_names ->
   In (OStr "Compression" name) (compression_attrs path co)) /\
  (any_case path ext_exr -> node_get_i32 n "exr_compression" = 9 \/ node_get_i32 n "exr_compression" = 10 ->
   In (OFloatAttr "openexr:dwaCompressionLevel" (f32_of_Z (node_get_i32 n "exr_dwa_compression_level"))) (compression_attrs path co)) /\
  (any_case path ext_png -> In (OInt "png:compressionLevel" (node_get_i32 n "png_compression_level")) (compression_attrs path co)) /\
  (forall ext name, In ext jpeg_endings -> any_case path ext -> In (node_get_i32 n "jpeg_subsampling", name) jpeg_names ->
   In (OInt "CompressionQuality" (node_get_i32 n "jpeg_compression_level")) (compression_attrs path co) /\
   In (OStr "jpeg:subsampling" name) (compression_attrs path co) /\
   In (OInt "jpeg:progressive" (if node_get_i32 n "jpeg_progressive" =? 0 then 0 else 1)) (compression_attrs path co)).
Proof. intros D. exact settings. Qed.
Print Assumptions C79_settings.
Example C79_other_example :
  let path := [98; 46; 116; 105; 102] in
  ~ any_case path ext_exr /\ ~ any_case path ext_png /\ (forall ext, In ext jpeg_endings -> ~ any_case path ext).
Proof.
  assert (N : forall e, ends_with (map lower [98; 46; 116; 105; 102]) e = false -> ends_with e e = true -> ~ any_case [98; 46; 116; 105; 102] e).
  { intros e F T C. rewrite (any_case_ends _ e e C (le_n _)) in F. congruence. }
  split; [apply N; reflexivity|]. split; [apply N; reflexivity|].
  intros ext H. cbn [jpeg_endings In] in H. repeat (destruct H as [<-|H]; [apply N; reflexivity|]). contradiction.
Qed.
Example C79_example :
  any_case [98; 46; 69; 120; 82] ext_exr /\ In (9, "dwaa") exr_names /\
  compression_attrs [98; 46; 69; 120; 82] (Compression (exr_from 9) 45 0 0 JpegDefault false) =
  [OStr "Compression" "dwaa"; OFloatAttr "openexr:dwaCompressionLevel" (f32_of_Z 45)].
Proof.
  split; [exists [98], [46; 69; 120; 82]; split; [reflexivity|]|].
  { repeat (apply Forall2_cons; [first [right; cbn; tauto|left; split; [reflexivity|cbn; intuition discriminate]]|]). apply Forall2_nil. }
  split; [cbn; tauto|vm_compute; reflexivity].
Qed.

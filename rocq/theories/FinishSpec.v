(** What baking makes of a stream, number by number, and what graphs and files
    show in these terms. *)
From Coq Require String.
Import String.StringSyntax.
From Coq Require Import Reals Floats.SpecFloat.
From Verif Require Import Machine Loops FloatModel FloatReal BBoxModel BBoxSpec PixelModel PixelSpec PathModel MergeModel MergeSpec EnumModel AttrModel AttrSpec HashModel StreamModel
  GradeModel DeformModel BakeSpec SpaceSpec RemapSpec EdgeSpec LevelSpec PartSpec ViewSpec GraphModel GraphSpec NodeModel ChainSpec ShowSpec SceneSpec EachSpec.
Local Open Scope string_scope.

(** A number of a picture of this type as a float.  (Numbers out of the range of
    the type do not occur.) *)
Definition taken_as (t : datatype) (e : elem) (v : f32) : Prop :=
  match t, e with
  | Float32, EF f => v = f
  | Half16, EF h => is_half h -> f32_finite h -> plain_value v /\ R32 v = R32 h
  | UInt8, EI n => 0 <= n <= 255 -> shade_of 255 n v
  | UInt16, EI n => 0 <= n <= 65535 -> shade_of 65535 n v
  | _, _ => False
  end.
(** A float as a number of a picture of this type. *)
Definition put_as (t : datatype) (v : f32) (e : elem) : Prop :=
  match t, e with
  | Float32, EF f => f = v
  | Half16, EF h => nearest_half v h
  | UInt8, EI n => f32_ok v -> levelled 255 v n
  | UInt16, EI n => f32_ok v -> levelled 65535 v n
  | _, _ => False
  end.

(** The colour library cannot convert the pixels. *)
Definition no_conversion (convert : list f32 -> Z -> Z -> Z -> Z -> bool -> list Z -> list Z -> option (list f32))
    (b : blocksize) (sp : image_spec) (from to : list Z) (px : list f32) : Prop :=
  from <> to /\ convert px (bs_w b) (bs_h b) (bs_nc b) (if bs_nc b =? 4 then 3 else -1) (sp_unassociated_alpha sp) from to = None.

(** The pixels in another colour space; as they were if the colour library
    cannot convert them. *)
Definition recoloured (convert : list f32 -> Z -> Z -> Z -> Z -> bool -> list Z -> list Z -> option (list f32))
    (b : blocksize) (sp : image_spec) (from to : list Z) (px px' : list f32) : Prop :=
  into_space convert (bs_w b) (bs_h b) (bs_nc b) sp from to px px' \/ (no_conversion convert b sp from to px /\ px' = px).

(** The box that a list of lenses and other deformers makes of a box. *)
Inductive box_through (nx : numerics) (display : bbox) : list deformer -> bboxf -> bboxf -> Prop :=
| bt_nil b : box_through nx display [] b b
| bt_cons d ds b b1 b' : deform_box nx d b (bboxf_of display) = Ok b1 ->
    box_through nx display ds b1 b' -> box_through nx display (d :: ds) b b'.

(** The picture with the enabled deformers applied. *)
Definition displaced (nx : numerics) (display : bbox) (ds : list deformer) (src : pixelblock) (win : bbox) (dst : pixelblock) (win' : bbox) : Prop :=
  ((forall d, In d ds -> vi (def_vals d) "enable" <> 1) /\ dst = src /\ win' = win) \/
  (exists d, In d ds /\ vi (def_vals d) "enable" = 1) /\
  moved_pixels nx display (enabled ds) src win dst win' /\
  exists b, box_through nx display (enabled ds) (bboxf_of win) b /\ encloses b win'.

Section Finish.
Variable nx : numerics.
Variable convert : list f32 -> Z -> Z -> Z -> Z -> bool -> list Z -> list Z -> option (list f32).

(** The colours of a stream, in the space [to], as floats: converted to Linear,
    through what is pending on the stream, and converted. *)
Definition linear_colours (s : stream) (px : list f32) : Prop :=
  exists px0 px1, let b := pb_size (st_block s) in
    Forall2 (taken_as (db_type (pb_data (st_block s)))) (elems (pb_data (st_block s))) px0 /\
    recoloured convert b (st_spec s) (sp_color_space (st_spec s)) linear_name px0 px1 /\
    coloured (nx_powf nx) (st_matrix s) (st_ops s) (bs_nc b) px1 px.

(** The picture [r] on the window [win] is the stream with everything applied,
    in the colour space [to], in numbers of type [ty]. *)
Definition finished (s : stream) (to : list Z) (ty : datatype) (r : pixelblock) (win : bbox) : Prop :=
  exists px mid px2 px3,
    linear_colours s px /\
    displaced nx (st_display s) (st_deformers s) (PB (pb_size (st_block s)) (DF32 px)) (st_data s) mid win /\
    pb_data mid = DF32 px2 /\
    recoloured convert (pb_size mid) (st_spec s) linear_name to px2 px3 /\
    pb_size r = pb_size mid /\ db_type (pb_data r) = ty /\ Forall2 (put_as ty) px3 (elems (pb_data r)).

(** The same without the deformers, which stay to be applied. *)
Definition half_finished (s : stream) (to : list Z) (ty : datatype) (r : pixelblock) : Prop :=
  exists px px3,
    linear_colours s px /\
    recoloured convert (pb_size (st_block s)) (st_spec s) linear_name to px px3 /\
    pb_size r = pb_size (st_block s) /\ db_type (pb_data r) = ty /\ Forall2 (put_as ty) px3 (elems (pb_data r)).

(** Only in another colour space, and named after it, unless the colour library
    cannot convert it. *)
Definition converted (s : stream) (to : list Z) (ty : datatype) (r : pixelblock) (sp : image_spec) : Prop :=
  exists px px1, let b := pb_size (st_block s) in let from := sp_color_space (st_spec s) in
    Forall2 (taken_as (db_type (pb_data (st_block s)))) (elems (pb_data (st_block s))) px /\
    (into_space convert (bs_w b) (bs_h b) (bs_nc b) (st_spec s) from to px px1 /\ sp = set_color_space (st_spec s) to \/
     no_conversion convert b (st_spec s) from to px /\ px1 = px /\ sp = st_spec s) /\
    pb_size r = pb_size (st_block s) /\ db_type (pb_data r) = ty /\ Forall2 (put_as ty) px1 (elems (pb_data r)).
End Finish.

(** The picture [r] on [win] set into the frame [frame]: cut off outside, black
    where it has no pixels. *)
Definition framed (r : pixelblock) (win frame : bbox) (r' : pixelblock) : Prop :=
  wf_block r' /\ placed r' frame /\ bs_nc (pb_size r') = bs_nc (pb_size r) /\ db_type (pb_data r') = db_type (pb_data r) /\
  forall x y c, in_box frame x y -> 0 <= c < bs_nc (pb_size r) ->
    pixel_val r' frame x y c = if in_boxb win x y then pixel_val r win x y c else Some (zero_elem (db_type (pb_data r))).

Section Scene.
Context {D : Type}.
Variable x : externals D.
Variable p : profile.
Variable d : D.
Variable fr : spec_float.
Notation finished := (finished (x_numerics x) (x_convert x)).
Notation half_finished := (half_finished (x_numerics x) (x_convert x)).
Notation converted := (converted (x_convert x)).

(** The stream as linear floats, with everything applied. *)
Definition flat (s : stream) (im : image) : Prop :=
  finished s linear_name Float32 (im_block im) (im_data im) /\ im_display im = st_display s.

(** Nodes that leave the pixels alone. *)
Definition leaves_pixels (n : node) (vs : list stream) : Prop :=
  (nd_type n = TMerge -> node_get_i32 n "enable" = 1 -> vs <> [] -> forall m, ~ selects (node_get_i32 n "mode") m) /\
  (nd_type n = TCrop -> node_get_i32 n "enable" = 1 -> vs = []) /\
  (nd_type n = TViewer -> told_to_bake (nd_attrs n) BakeNothing).

(** What node [n] shows when its inputs show [vs]. *)
Inductive draws (n : node) (vs : list stream) (v : stream) : Prop :=
| draws_merge m A C : nd_type n = TMerge -> node_get_i32 n "enable" = 1 -> vs <> [] -> selects (node_get_i32 n "mode") m ->
    flat (first vs) A -> flat (second vs) C -> nothing_pending v ->
    merged m (f32_of_bits (node_get_f32 n "mix")) A C (picture v) -> st_spec v = spec_new -> draws n vs v
| draws_crop A : nd_type n = TCrop -> node_get_i32 n "enable" = 1 -> vs <> [] ->
    flat (first vs) A -> nothing_pending v ->
    cut A (BBox (node_get_i32 n "window_min_x") (node_get_i32 n "window_min_y")
                (node_get_i32 n "window_max_x") (node_get_i32 n "window_max_y")) (picture v) ->
    st_display v = (if node_get_i32 n "reformat" =? 1 then st_data v else st_display (first vs)) ->
    st_spec v = st_spec (first vs) -> draws n vs v
| draws_colours ty : nd_type n = TViewer -> node_get_i32 n "enable" = 1 -> told_to_bake (nd_attrs n) BakeColorSpaceAndGrade ->
    viewer_type (nd_attrs n) ty ->
    half_finished (first vs) (node_get_str n "bake_color_space") (asked_type ty (st_block (first vs))) (st_block v) ->
    st_display v = st_display (first vs) -> st_data v = st_data (first vs) -> st_spec v = set_color_space (st_spec (first vs)) (node_get_str n "bake_color_space") ->
    st_matrix v = identity4 -> st_ops v = [] -> st_deformers v = st_deformers (first vs) -> draws n vs v
| draws_space ty : nd_type n = TViewer -> node_get_i32 n "enable" = 1 -> told_to_bake (nd_attrs n) BakeColorSpace ->
    viewer_type (nd_attrs n) ty ->
    converted (first vs) (node_get_str n "bake_color_space") (asked_type ty (st_block (first vs))) (st_block v) (st_spec v) ->
    st_display v = st_display (first vs) -> st_data v = st_data (first vs) ->
    st_matrix v = st_matrix (first vs) -> st_ops v = st_ops (first vs) -> st_deformers v = st_deformers (first vs) -> draws n vs v
| draws_other : leaves_pixels n vs -> does p x d fr n vs v -> draws n vs v.

(** What the [i]th node of a graph shows. *)
Variable g : graph node stream.
Inductive composition : nat -> stream -> Prop :=
| comp_node i n l vs v : nth_error (g_nodes g) i = Some n -> inputs_in_slot_order (g_graph g) i l ->
    Forall2 composition l vs -> draws n vs v -> composition i v.

(** The file that writer [n] makes of the stream [s]: at the path of the frame,
    the stream with everything applied, in the colour space and numbers of the
    file; uncut or set into the display window; described like a new picture. *)
Definition filed (n : node) (s : stream) (path : list Z) (img : shared) (co : compression) : Prop :=
  expand_string (x_expand x) (node_get_str n "file_path") (frame_number fr) = Ok path /\
  (exists space ty r win cropped,
     file_color_space path space /\ ChainSpec.file_type (node_get_i32 n "pixel_data_type") s ty /\
     finished s space ty r win /\ file_cropped (node_get_i32 n "crop_on_write") path cropped /\
     sh_display img = st_display s /\ sh_spec img = spec_new /\
     (cropped = false -> sh_block img = r /\ sh_data img = win) /\
     (cropped = true -> sh_data img = st_display s /\ framed r win (st_display s) (sh_block img))) /\
  co = Compression (exr_from (node_get_i32 n "exr_compression")) (node_get_i32 n "exr_dwa_compression_level")
    (node_get_i32 n "png_compression_level") (node_get_i32 n "jpeg_compression_level")
    (jpeg_from (node_get_i32 n "jpeg_subsampling")) (negb (node_get_i32 n "jpeg_progressive" =? 0)).

(** The file of the writer that is node [i]. *)
Definition of_drawn (i : nat) (o : order) : Prop :=
  let '(path, img, co) := o in exists nw k s, writer g i nw k /\ composition k s /\ filed nw s path img co.
End Scene.

(* ------------------------------ one pixel ------------------------------ *)

(** The pixel of a picture on [win], counted from its corner, that pixel (X, Y)
    of the picture with the deformers applied comes from. *)
Definition comes_from (nx : numerics) (display : bbox) (ds : list deformer) (w h : Z) (win : bbox) (X Y sx sy : Z) : Prop :=
  ((forall d, In d ds -> vi (def_vals d) "enable" <> 1) /\ sx = X - min_x win /\ sy = Y - min_y win) \/
  (exists d, In d ds /\ vi (def_vals d) "enable" = 1) /\
  exists qx qy, taken_back nx display (enabled ds) (centre X, centre Y) = Ok (qx, qy) /\
    picked (stretched (min_x display) (max_x display) (min_x win) (max_x win - 1) qx) w sx /\
    picked (stretched (min_y display) (max_y display) (min_y win) (max_y win - 1) qy) h sy.

Definition channel (c : Z) (v : rgba) : f32 :=
  let '(r, g, b, a) := v in if c =? 0 then r else if c =? 1 then g else if c =? 2 then b else a.

(** Pixel (X, Y) of the picture [r]: the pixel of the stream it comes from, with
    the pending matrix and colour operations applied. *)
Definition one_pixel_right (nx : numerics) (s : stream) (ty : datatype) (r : pixelblock) (win : bbox) (X Y : Z) : Prop :=
  let b := pb_size (st_block s) in
  exists sx sy v, comes_from nx (st_display s) (st_deformers s) (bs_w b) (bs_h b) (st_data s) X Y sx sy /\
    forall c, 0 <= c < 4 -> exists e e',
      at_z (elems (pb_data (st_block s))) ((sy * bs_w b + sx) * 4 + c) = Some e /\ taken_as (db_type (pb_data (st_block s))) e (channel c v) /\
      pixel_val r win X Y c = Some e' /\ put_as ty (channel c (pixel_meaning (nx_powf nx) (st_matrix s) (st_ops s) v)) e'.

(** C48 continued: colour spaces in baking. *)
From Coq Require String.
Import String.StringSyntax.
From Coq Require Import Floats.SpecFloat.
From Verif Require Import Machine FloatModel BBoxModel PixelModel MergeModel MergeSpec EnumModel AttrModel
  StreamModel GradeModel DeformModel BakeModel BakeSpec NodeModel NodeExamples SpaceSpec SpaceProofs PropertiesBake.
Local Open Scope string_scope.

(** Any source format and colour space, any target: the pixels as floats are
    converted to Linear, go through the matrix and the operations in order, are
    converted to the target space and type, and carry the target's name.  (With
    nothing that moves pixels; for that see C48_order and C62.) *)
Theorem C48_spaces_rgba : forall p nx convert w h blk ps ps1 px disp data sp s from to ty r,
  pb_convert blk Float32 = Ok (PB (BS w h 4) (DF32 (flat4 ps))) ->
  into_space convert w h 4 sp from linear_name (flat4 ps) (flat4 ps1) ->
  enabled (st_deformers s) = [] ->
  into_space convert w h 4 sp linear_name to (flat4 (map (pixel_meaning (nx_powf nx) (st_matrix s) (st_ops s)) ps1)) px ->
  ty <> UnknownType -> pb_convert (PB (BS w h 4) (DF32 px)) ty = Ok r ->
  do_process p nx convert BakeAll blk disp data sp s from to ty =
  Ok (Baked r data (set_color_space sp to)
        (Stream (st_state s) (st_hash s) (st_display s) (st_data s) identity4 (st_spec s) (st_block s) [] [])).
Proof. exact spaces_4. Qed.
Print Assumptions C48_spaces_rgba.
Theorem C48_spaces_rgb : forall p nx convert w h blk ps ps1 px disp data sp s from to ty r,
  pb_convert blk Float32 = Ok (PB (BS w h 3) (DF32 (flat3 ps))) ->
  into_space convert w h 3 sp from linear_name (flat3 ps) (flat3 ps1) ->
  enabled (st_deformers s) = [] ->
  into_space convert w h 3 sp linear_name to (flat3 (map (rgb_meaning (nx_powf nx) (st_matrix s) (st_ops s)) ps1)) px ->
  ty <> UnknownType -> pb_convert (PB (BS w h 3) (DF32 px)) ty = Ok r ->
  do_process p nx convert BakeAll blk disp data sp s from to ty =
  Ok (Baked r data (set_color_space sp to)
        (Stream (st_state s) (st_hash s) (st_display s) (st_data s) identity4 (st_spec s) (st_block s) [] [])).
Proof. exact spaces_3. Qed.
Print Assumptions C48_spaces_rgb.

(** An 8 bit picture with unassociated alpha, in a space twice as bright as
    Linear unless its alpha is unassociated, when it is four times as bright;
    red is then doubled. *)
Definition bright (px : list f32) (w h n a : Z) (u : bool) (from to : list Z) : option (list f32) :=
  if bytes_eqb to linear_name then Some (map (fun v => f32_mul v (f32_of_bits (if u then 1048576000 else 1056964608))) px) else None.
Example C48_spaces_example :
  let blk := PB (BS 1 1 4) (DU8 [255; 255; 0; 255]) in
  let sp := Spec [98] f1 f1 0 true 0 in
  let s := push_color_op stream_new (grade_op (with_attrs TGrade [WF32 "multiply_r" 1073741824])) in
  let q := f32_of_bits 1048576000 in
  pb_convert blk Float32 = Ok (PB (BS 1 1 4) (DF32 (flat4 [(f32_one, f32_one, f32_zero, f32_one)]))) /\
  into_space bright 1 1 4 sp [98] linear_name (flat4 [(f32_one, f32_one, f32_zero, f32_one)]) (flat4 [(q, q, f32_zero, q)]) /\
  match do_process Release demo_numerics bright BakeAll blk (BBox 0 0 1 1) (BBox 0 0 1 1) sp s [98] linear_name UInt8 with
  | Ok r => pb_data (bk_block r) = DU8 [127; 63; 0; 63] /\ bk_spec r = Spec linear_name f1 f1 0 true 0
  | Panic => False
  end.
Proof.
  split; [vm_compute; reflexivity|]. split; [right; split; [discriminate|vm_compute; reflexivity]|]. vm_compute. auto.
Qed.

(** "A picture whose colours could not be converted is not passed on as
    converted" is false: if the colour library fails, the result is that of a
    picture in Linear, with the name of the target. *)
Theorem C48_failed_conversion : forall p nx convert blk disp data sp s from to ty,
  do_process p nx (fun _ _ _ _ _ _ _ _ => None) BakeAll blk disp data sp s from to ty =
  let* r := do_process p nx convert BakeAll blk disp data sp s linear_name linear_name ty in
  Ok (Baked (bk_block r) (bk_data r) (set_color_space sp to) (bk_stream r)).
Proof. exact failed_spaces. Qed.
Print Assumptions C48_failed_conversion.
Theorem C48_failed_conversion_refuted : exists blk r,
  do_process Release demo_numerics (fun _ _ _ _ _ _ _ _ => None) BakeAll blk (BBox 0 0 1 1) (BBox 0 0 1 1) spec_new stream_new
    linear_name srgb_name Float32 = Ok r /\ sp_color_space (bk_spec r) = srgb_name /\ pb_data (bk_block r) = pb_data blk.
Proof.
  exists (PB (BS 1 1 3) (DF32 [f32_one; f32_one; f32_one])). eexists. split; [vm_compute; reflexivity|]. split; reflexivity.
Qed.
Print Assumptions C48_failed_conversion_refuted.

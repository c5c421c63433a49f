(** C103: what each bake option applies and what it leaves. *)
From Coq Require String.
Import String.StringSyntax.
From Coq Require Import Floats.SpecFloat.
From Verif Require Import Machine FloatModel BBoxModel PixelModel MergeModel MergeSpec EnumModel AttrModel HashModel
  StreamModel GradeModel DeformModel BakeModel BakeSpec GraphModel NodeModel NodeSpec NodeExamples SpaceSpec ViewSpec PartSpec PartProofs
  PropertiesBake PropertiesDeform PropertiesNode.
Local Open Scope string_scope.

(** "Nothing" changes nothing. *)
Theorem C103_nothing : forall p nx convert blk disp data sp s from to ty,
  do_process p nx convert BakeNothing blk disp data sp s from to ty = Ok (Baked blk data sp s).
Proof. exact nothing_done. Qed.
Print Assumptions C103_nothing.

(** "Colour space": the pixels as floats are converted from the picture's space
    to the target, then to the type asked for; the picture carries the target's
    name; the window, and all that is pending on the stream, stay. *)
Theorem C103_color_space : forall p nx convert w h nc blk px px' disp data sp s from to ty r, nc = 1 \/ nc = 3 \/ nc = 4 ->
  pb_convert blk Float32 = Ok (PB (BS w h nc) (DF32 px)) -> into_space convert w h nc sp from to px px' ->
  pb_convert (PB (BS w h nc) (DF32 px')) (asked_type ty blk) = Ok r -> sp_color_space sp = from ->
  do_process p nx convert BakeColorSpace blk disp data sp s from to ty = Ok (Baked r data (set_color_space sp to) s).
Proof. exact color_space. Qed.
Print Assumptions C103_color_space.

(** If the colour library fails, the picture keeps its colours and its name. *)
Theorem C103_color_space_failed : forall p nx convert b blk px disp data sp s from to ty r,
  pb_convert blk Float32 = Ok (PB b (DF32 px)) ->
  (forall c u, convert px (bs_w b) (bs_h b) (bs_nc b) c u from to = None) ->
  pb_convert (PB b (DF32 px)) (asked_type ty blk) = Ok r ->
  do_process p nx convert BakeColorSpace blk disp data sp s from to ty = Ok (Baked r data sp s).
Proof. exact color_space_failed. Qed.
Print Assumptions C103_color_space_failed.

(** "Colour space and grade": converted to Linear, through the matrix and the
    operations in order, converted to the target and to the type asked for; the
    window and the deformers stay. *)
Theorem C103_grade : forall p nx convert w h nc blk px px1 px2 px3 disp data sp s from to ty r,
  pb_convert blk Float32 = Ok (PB (BS w h nc) (DF32 px)) ->
  into_space convert w h nc sp from linear_name px px1 ->
  coloured (nx_powf nx) (st_matrix s) (st_ops s) nc px1 px2 ->
  into_space convert w h nc sp linear_name to px2 px3 ->
  pb_convert (PB (BS w h nc) (DF32 px3)) (asked_type ty blk) = Ok r ->
  do_process p nx convert BakeColorSpaceAndGrade blk disp data sp s from to ty
  = Ok (Baked r data (set_color_space sp to) (colours_done s)).
Proof. exact grade_done. Qed.
Print Assumptions C103_grade.

(** "All", with no deformer enabled, is "colour space and grade" with the
    deformers dropped.  (For enabled deformers see C48 and C63.) *)
Theorem C103_all : forall p nx convert blk disp data sp s from to ty, enabled (st_deformers s) = [] ->
  do_process p nx convert BakeAll blk disp data sp s from to ty =
  let* r := do_process p nx convert BakeColorSpaceAndGrade blk disp data sp s from to ty in
  Ok (Baked (bk_block r) (bk_data r) (bk_spec r) (all_done s)).
Proof. exact all_is_grade. Qed.
Print Assumptions C103_all.

(** Whatever the pictures and libraries: what is left pending, the window and
    the size of the picture, and the type of its numbers. *)
Theorem C103_left : forall p nx convert opt blk disp data sp s from to ty r,
  do_process p nx convert opt blk disp data sp s from to ty = Ok r ->
  bk_stream r = match opt with BakeColorSpaceAndGrade => colours_done s | BakeAll => all_done s | _ => s end /\
  (opt <> BakeAll -> bk_data r = data /\ pb_size (bk_block r) = pb_size blk).
Proof. exact left_over. Qed.
Print Assumptions C103_left.
Theorem C103_type : forall p nx convert opt blk disp data sp s from to ty r, opt <> BakeNothing ->
  do_process p nx convert opt blk disp data sp s from to ty = Ok r -> db_type (pb_data (bk_block r)) = asked_type ty blk.
Proof. exact type_asked. Qed.
Print Assumptions C103_type.

(** A grading bake whose conversions fail passes the picture on under the name
    of the target all the same. *)
Theorem C103_failed_grade : forall p nx convert blk disp data sp s from to ty,
  do_process p nx (fun _ _ _ _ _ _ _ _ => None) BakeColorSpaceAndGrade blk disp data sp s from to ty =
  let* r := do_process p nx convert BakeColorSpaceAndGrade blk disp data sp s linear_name linear_name ty in
  Ok (Baked (bk_block r) (bk_data r) (set_color_space sp to) (bk_stream r)).
Proof. exact failed_grade. Qed.
Print Assumptions C103_failed_grade.
Theorem C103_failed_name_refuted : exists blk r,
  do_process Release demo_numerics (fun _ _ _ _ _ _ _ _ => None) BakeColorSpaceAndGrade blk (BBox 0 0 1 1) (BBox 0 0 1 1) spec_new stream_new
    linear_name srgb_name Float32 = Ok r /\ sp_color_space (bk_spec r) = srgb_name /\ pb_data (bk_block r) = pb_data blk.
Proof.
  exists (PB (BS 1 1 3) (DF32 [f32_one; f32_one; f32_one])). eexists. split; [vm_compute; reflexivity|]. split; reflexivity.
Qed.
Print Assumptions C103_failed_name_refuted.

(** Linear float pictures with finite colours: first the colours and then all
    the rest is the same as everything at once. *)
Theorem C103_two_stages : forall p nx convert w h nc px px1 disp data sp s,
  coloured (nx_powf nx) (st_matrix s) (st_ops s) nc px px1 -> Forall plain_value px1 ->
  exists r1, do_process p nx convert BakeColorSpaceAndGrade (PB (BS w h nc) (DF32 px)) disp data sp s linear_name linear_name Float32 = Ok r1 /\
    same_bake
      (do_process p nx convert BakeAll (bk_block r1) disp (bk_data r1) (bk_spec r1) (bk_stream r1) linear_name linear_name Float32)
      (do_process p nx convert BakeAll (PB (BS w h nc) (DF32 px)) disp data sp s linear_name linear_name Float32).
Proof. exact two_stages. Qed.
Print Assumptions C103_two_stages.

(** A viewer that neither crops nor uses the cache passes on, under its own key,
    what the option it is told bakes of its input. *)
Theorem C103_viewer : forall (D : Type) p (x : externals D) b o ty h mode s rest out w fr,
  gi TViewer b "enable" = 1 -> told_to_bake b o -> o <> BakeNothing -> gi TViewer b "crop_to_format" = 0 ->
  gi TViewer b "use_cache" = 0 -> viewer_type b ty ->
  compute_op p x TViewer b fr h mode (s :: rest) out w =
  let* r := do_process p (x_numerics x) (x_convert x) o (st_block s) (st_display s) (st_data s) (st_spec s) s
              (sp_color_space (st_spec s)) (node_get_str (Node TViewer 0 0 b) "bake_color_space") ty in
  Ok (NsValid, viewed s h r, w).
Proof. intros D. exact viewer_bakes. Qed.
Print Assumptions C103_viewer.

(** So does one that uses the cache and finds nothing there.  (What is found
    there is the same in a session: C54.) *)
Theorem C103_viewer_stores : forall (D : Type) p (x : externals D) b o ty h mode s rest out (w : world D) fr st s' w',
  gi TViewer b "enable" = 1 -> told_to_bake b o -> o <> BakeNothing -> gi TViewer b "crop_to_format" = 0 ->
  misses w h -> viewer_type b ty ->
  compute_op p x TViewer b fr h mode (s :: rest) out w = Ok (st, s', w') ->
  exists r, do_process p (x_numerics x) (x_convert x) o (st_block s) (st_display s) (st_data s) (st_spec s) s
              (sp_color_space (st_spec s)) (node_get_str (Node TViewer 0 0 b) "bake_color_space") ty = Ok r /\
    st = NsValid /\ s' = viewed s h r /\ w_disk w' = w_disk w.
Proof. intros D. exact viewer_stores. Qed.
Print Assumptions C103_viewer_stores.
(** C89 for viewers that bake: with nothing connected they do, in all their
    settings, what they do when the colour bars are connected. *)
Theorem C89_viewer : forall (D : Type) p (x : externals D) b h mode out w fr,
  compute_op p x TViewer b fr h mode [] out w = compute_op p x TViewer b fr h mode [stream_new] out w.
Proof. intros D. exact viewer_alone. Qed.
Print Assumptions C89_viewer.

(** An 8 bit picture in a space twice as bright as Linear, with a grade that
    doubles red and a transform, baked in its colours only. *)
Definition twice_as_bright (px : list f32) (w h n a : Z) (u : bool) (from to : list Z) : option (list f32) :=
  if BakeModel.bytes_eqb from [98] && BakeModel.bytes_eqb to linear_name then Some (map (fun v => f32_mul v (f32_of_bits 1056964608)) px)
  else if BakeModel.bytes_eqb from linear_name && BakeModel.bytes_eqb to [98] then Some (map (fun v => f32_mul v (f32_of_bits 1073741824)) px)
  else None.
Definition part_stream : stream :=
  push_deformer (push_color_op stream_new (grade_op (with_attrs TGrade [WF32 "multiply_r" 1056964608]))) at_rest.
Definition part_block : pixelblock := PB (BS 1 1 3) (DU8 [255; 255; 0]).
Definition part_spec : image_spec := Spec [98] f1 f1 0 false 0.
Example C103_example :
  let half := f32_of_bits 1056964608 in
  let px := flat3 [(f32_one, f32_one, f32_zero)] in
  let px1 := flat3 [(half, half, f32_zero)] in
  pb_convert part_block Float32 = Ok (PB (BS 1 1 3) (DF32 px)) /\
  into_space twice_as_bright 1 1 3 part_spec [98] linear_name px px1 /\
  (exists px2, coloured (nx_powf demo_numerics) (st_matrix part_stream) (st_ops part_stream) 3 px1 px2 /\ Forall plain_value px2 /\
     exists px3, into_space twice_as_bright 1 1 3 part_spec linear_name [98] px2 px3 /\
       pb_convert (PB (BS 1 1 3) (DF32 px3)) (asked_type UnknownType part_block) = Ok (PB (BS 1 1 3) (DU8 [127; 255; 0]))) /\
  st_deformers (colours_done part_stream) = [at_rest] /\
  told_to_bake (attrs TViewer [WI32 "bake_option" 2]) BakeColorSpaceAndGrade /\ viewer_type (attrs TViewer []) Half16.
Proof.
  cbn zeta. split; [vm_compute; reflexivity|]. split; [right; split; [discriminate|vm_compute; reflexivity]|].
  split.
  { eexists. split; [right; left; split; [reflexivity|]; eexists; split; [reflexivity|vm_compute; reflexivity]|].
    split; [repeat (constructor; [split; vm_compute; auto|]); constructor|].
    eexists. split; [right; split; [discriminate|vm_compute; reflexivity]|]. vm_compute. reflexivity. }
  split; [reflexivity|]. split; vm_compute; [split; reflexivity|reflexivity].
Qed.
Example C103_viewer_stores_example : misses (demo_world [] 4000) 0 /\ exists r,
  compute_op Debug demo TViewer (attrs TViewer [WI32 "bake_option" 2]) frame0 0 15 [part_stream] stream_new (demo_world [] 4000) = Ok r.
Proof. split; [reflexivity|]. eexists. vm_compute. reflexivity. Qed.

(** C46-C48, C55 and an addition to C34: grading, transforming, baking. *)
From Coq Require String.
Import String.StringSyntax.
From Coq Require Import Floats.SpecFloat.
From Verif Require Import Machine FloatModel BBoxModel PixelModel MergeModel MergeSpec EnumModel AttrModel HashModel
  StreamModel GradeModel DeformModel BakeModel NodeModel NodeExamples BakeSpec BakeProofs TransformProofs.
Local Open Scope string_scope.

Definition with_attrs (t : node_type) (ws : list awrite) : block :=
  nd_attrs (fold_left node_write ws (create_node t 1)).
Definition infinity : f32 := S754_infinity false.
Definition two : f32 := f32_of_Z 2.

(* ------------------------------ C46 ------------------------------ *)

(** The transform of a window does not depend on the window's vertical extent. *)
Theorem C46_vertical_extent_ignored : forall nx v win win' inverse,
  fmin_x win = fmin_x win' -> fmax_x win = fmax_x win' ->
  transform_matrix nx v win inverse = transform_matrix nx v win' inverse.
Proof. exact vertical_extent_ignored. Qed.
Print Assumptions C46_vertical_extent_ignored.

(** Rotating a point: the centre of rotation does not appear in the result. *)
Theorem C46_centre_ignored : forall nx cx cy degree x y,
  let m := rotate_2d nx cx cy degree in
  let angle := f32_div (f32_mul degree f32_pi) (f32_of_Z 180) in
  let c := nx_cos nx angle in
  let s := nx_sin nx angle in
  f32_finite (mat m 0 2) -> f32_finite (mat m 1 2) ->
  same_number (mat_row m 0 (x, y, f32_zero, f32_one)) (f32_add (f32_mul c x) (f32_mul (f32_neg s) y)) /\
  same_number (mat_row m 1 (x, y, f32_zero, f32_one)) (f32_add (f32_mul s x) (f32_mul c y)).
Proof. exact centre_ignored. Qed.
Print Assumptions C46_centre_ignored.

(** Half a turn (cosine -1, sine 0) about (2, 1) moves (2, 1). *)
Definition half_turn : numerics :=
  Numerics (fun a _ => a) (fun _ => f32_neg f32_one) (fun _ => f32_zero) (fun _ => None)
           (fun _ _ q => q) (fun _ _ b => b).
Theorem C46_centre_refuted :
  exists cx cy degree x y z w,
    mat_vec (rotate_2d half_turn cx cy degree) (cx, cy, f32_zero, f32_one) = (x, y, z, w)
    /\ f32_eq x cx = false /\ f32_eq y cy = false.
Proof. exists two, f32_one, (f32_of_Z 180). eexists _, _, _, _. split; [reflexivity|]. split; vm_compute; reflexivity. Qed.
Print Assumptions C46_centre_refuted.
Example C46_example :
  f32_finite (mat (rotate_2d half_turn two f32_one (f32_of_Z 180)) 0 2)
  /\ f32_finite (mat (rotate_2d half_turn two f32_one (f32_of_Z 180)) 1 2).
Proof. vm_compute. auto. Qed.

(** The same vertical translation in two windows of the same height: different
    effects. *)
Theorem C46_vertical_refuted :
  exists v w w',
    max_y w - min_y w = max_y w' - min_y w' /\
    mat (transform_matrix demo_numerics v (bboxf_of w) false) 1 3
    <> mat (transform_matrix demo_numerics v (bboxf_of w') false) 1 3.
Proof.
  exists (transform_op (with_attrs TTransform [WF32 "translate_y" 1065353216])), (BBox 0 0 4 4), (BBox 0 0 8 4).
  split; [reflexivity|]. vm_compute. discriminate.
Qed.
Print Assumptions C46_vertical_refuted.

(* ------------------------------ C55 ------------------------------ *)

(** With default settings (any pivot) positions move to the pivot's frame and
    back, for windows that start at 0. *)
Theorem C55_default_transform_partial : forall nx v w x y,
  unit_transform v -> nx_cos nx (S754_zero false) = f32_one -> nx_sin nx (S754_zero false) = S754_zero false ->
  min_x w = 0 -> 0 < max_x w < 2 ^ 24 ->
  let px := f32_of_bits (vf v "pivot_x") in
  let py := f32_of_bits (vf v "pivot_y") in
  plain_value (f32_sub x px) -> plain_value (f32_sub y py) ->
  let '(x', y') := transform_apply nx v (bboxf_of w) false (x, y) in
  same_number x' (f32_add (f32_sub x px) px) /\ same_number y' (f32_add (f32_sub y py) py).
Proof. exact unit_transform_identity. Qed.
Print Assumptions C55_default_transform_partial.
Example C55_example :
  let v := transform_op (with_attrs TTransform []) in
  unit_transform v /\ plain_value (f32_sub two (f32_of_bits (vf v "pivot_x")))
  /\ f32_add (f32_sub two (f32_of_bits (vf v "pivot_x"))) (f32_of_bits (vf v "pivot_x")) = two.
Proof.
  split; [|split; [split; vm_compute; auto|reflexivity]].
  split; [reflexivity|]. split; [|split; reflexivity].
  intros n H. repeat (destruct H as [<-|H]; [reflexivity|]). contradiction.
Qed.

(** A window that starts at 2 and is 4 wide: everything moves by half a pixel. *)
Theorem C55_refuted :
  transform_apply demo_numerics (transform_op (with_attrs TTransform [])) (bboxf_of (BBox 2 0 6 4)) false (two, two)
  = (S754_finite false 12582912 (-23), S754_finite false 12582912 (-23)).
Proof. vm_compute. reflexivity. Qed.
Print Assumptions C55_refuted.

(* ------------------------------ C47 ------------------------------ *)

(** Every value of a buffer of whole pixels: unprocessed channels keep their
    value; fully mixed processed channels hold the graded value. *)
Theorem C47_grade_channels_partial : forall powf o nc n pixels,
  vi o "enable" = 1 -> working o -> (nc = 1 \/ nc = 3 \/ nc = 4)%nat -> length pixels = (n * nc)%nat ->
  exists pixels', apply_grade powf o (Z.of_nat nc) pixels = Ok pixels' /\ length pixels' = length pixels /\
  forall i v, nth_error pixels i = Some v ->
    let c := colour_of nc (i mod nc) in
    exists v', nth_error pixels' i = Some v' /\
      (process o c = 0 -> f32_finite (f32_of_bits (vf o "mix")) -> f32_finite (graded_value powf o c v) -> f32_ok v ->
       same_number v' v) /\
      (process o c = 1 -> f32_of_bits (vf o "mix") = f32_one -> f32_ok (graded_value powf o c v) -> f32_finite v ->
       same_number v' (graded_value powf o c v)).
Proof. exact grade_channels. Qed.
Print Assumptions C47_grade_channels_partial.

(** Red is processed, green is not; green's gain is infinite. *)
Definition leaky : block :=
  with_attrs TGrade [WI32 "process_g" 0; WI32 "process_b" 0; WI32 "process_a" 0; WF32 "gain_g" 2139095040].
Definition tight : block :=
  with_attrs TGrade [WI32 "process_g" 0; WI32 "process_b" 0; WI32 "process_a" 0].
Theorem C47_refuted :
  exists r b, apply_grade (nx_powf demo_numerics) (grade_op leaky) 3 [f32_one; f32_one; f32_one] = Ok [r; S754_nan; b]
  /\ process (grade_op leaky) CG = 0.
Proof. eexists _, _. split; [vm_compute; reflexivity|reflexivity]. Qed.
Print Assumptions C47_refuted.
Example C47_example :
  vi (grade_op tight) "enable" = 1 /\ working (grade_op tight)
  /\ process (grade_op tight) CR = 1 /\ process (grade_op tight) CG = 0
  /\ f32_of_bits (vf (grade_op tight) "mix") = f32_one
  /\ f32_finite (graded_value (nx_powf demo_numerics) (grade_op tight) CG two)
  /\ f32_ok (graded_value (nx_powf demo_numerics) (grade_op tight) CR two).
Proof.
  split; [vm_compute; reflexivity|]. split; [left; vm_compute; discriminate|].
  split; [vm_compute; reflexivity|]. split; [vm_compute; reflexivity|]. split; [vm_compute; reflexivity|].
  split; vm_compute; auto.
Qed.

(* ------------------------------ C34 ------------------------------ *)

(** Parameters of unprocessed channels are not part of the key, yet through
    0 * infinity they can change the picture. *)
Theorem C34_unprocessed_refuted :
  exists h px px',
    cache_hash Debug (fun l => l) demo_digest TGrade leaky (S754_zero false) [5] = Ok h
    /\ cache_hash Debug (fun l => l) demo_digest TGrade tight (S754_zero false) [5] = Ok h
    /\ apply_grade (nx_powf demo_numerics) (grade_op leaky) 3 [f32_one; f32_one; f32_one] = Ok px
    /\ apply_grade (nx_powf demo_numerics) (grade_op tight) 3 [f32_one; f32_one; f32_one] = Ok px'
    /\ px <> px'.
Proof.
  eexists _, _, _. split; [vm_compute; reflexivity|]. split; [vm_compute; reflexivity|].
  split; [vm_compute; reflexivity|]. split; [vm_compute; reflexivity|]. discriminate.
Qed.
Print Assumptions C34_unprocessed_refuted.

(* ------------------------------ C48 ------------------------------ *)

(** Baking everything leaves nothing pending, for any image and stream. *)
Theorem C48_consumes : forall p nx convert blk disp data sp s from to ty r,
  do_process p nx convert BakeAll blk disp data sp s from to ty = Ok r ->
  bk_stream r = Stream (st_state s) (st_hash s) (st_display s) (st_data s) identity4 (st_spec s) (st_block s) [] [].
Proof. exact bake_consumes. Qed.
Print Assumptions C48_consumes.

(** The order of application, for linear float images: each pixel goes through
    the matrix and the enabled operations in the order they were added, then
    the deformers move the pixels. *)
Theorem C48_order_rgba : forall p nx convert w h ps disp data sp s,
  do_process p nx convert BakeAll (PB (BS w h 4) (DF32 (flat4 ps))) disp data sp s linear_name linear_name Float32 =
  let* (blk, d) := deform_pixels nx p (st_deformers s) disp
                     (PB (BS w h 4) (DF32 (flat4 (map (pixel_meaning (nx_powf nx) (st_matrix s) (st_ops s)) ps)))) data in
  Ok (Baked blk d (set_color_space sp linear_name)
        (Stream (st_state s) (st_hash s) (st_display s) (st_data s) identity4 (st_spec s) (st_block s) [] [])).
Proof. exact bake_order_4. Qed.
Print Assumptions C48_order_rgba.
Theorem C48_order_rgb : forall p nx convert w h ps disp data sp s,
  do_process p nx convert BakeAll (PB (BS w h 3) (DF32 (flat3 ps))) disp data sp s linear_name linear_name Float32 =
  let* (blk, d) := deform_pixels nx p (st_deformers s) disp
                     (PB (BS w h 3) (DF32 (flat3 (map (rgb_meaning (nx_powf nx) (st_matrix s) (st_ops s)) ps)))) data in
  Ok (Baked blk d (set_color_space sp linear_name)
        (Stream (st_state s) (st_hash s) (st_display s) (st_data s) identity4 (st_spec s) (st_block s) [] [])).
Proof. exact bake_order_3. Qed.
Print Assumptions C48_order_rgb.

Theorem C48_order_alpha : forall p nx convert w h l disp data sp s,
  do_process p nx convert BakeAll (PB (BS w h 1) (DF32 l)) disp data sp s linear_name linear_name Float32 =
  let* (blk, d) := deform_pixels nx p (st_deformers s) disp
                     (PB (BS w h 1) (DF32 (map (alpha_meaning (nx_powf nx) (st_matrix s) (st_ops s)) l))) data in
  Ok (Baked blk d (set_color_space sp linear_name)
        (Stream (st_state s) (st_hash s) (st_display s) (st_data s) identity4 (st_spec s) (st_block s) [] [])).
Proof. exact bake_order_1. Qed.
Print Assumptions C48_order_alpha.

(** A second bake keeps every (finite) pixel. *)
Theorem C48_second_bake_partial : forall p nx convert w h ps disp data sp s,
  st_matrix s = identity4 -> st_ops s = [] -> st_deformers s = [] -> Forall plain_pixel ps ->
  exists ps', do_process p nx convert BakeAll (PB (BS w h 4) (DF32 (flat4 ps))) disp data sp s
                linear_name linear_name Float32
    = Ok (Baked (PB (BS w h 4) (DF32 (flat4 ps'))) data (set_color_space sp linear_name) s)
    /\ Forall2 same4 ps' ps.
Proof. exact second_bake_4. Qed.
Print Assumptions C48_second_bake_partial.

(** One infinite channel: a bake with nothing pending makes every channel NaN
    but its own. *)
Theorem C48_second_bake_refuted :
  exists r, do_process Debug demo_numerics (fun _ _ _ _ _ _ _ _ => None) BakeAll
      (PB (BS 1 1 4) (DF32 [infinity; f32_one; f32_one; f32_one])) (BBox 0 0 1 1) (BBox 0 0 1 1) spec_new stream_new
      linear_name linear_name Float32 = Ok r
    /\ pb_data (bk_block r) = DF32 [infinity; S754_nan; S754_nan; S754_nan].
Proof. eexists. split; [vm_compute; reflexivity|]. reflexivity. Qed.
Print Assumptions C48_second_bake_refuted.
Example C48_example :
  let s := push_color_op (push_color_op stream_new
             (grade_op (with_attrs TGrade [WF32 "multiply_r" 1073741824])))
             (grade_op (with_attrs TGrade [WF32 "offset_r" 1065353216])) in
  pixel_meaning (nx_powf demo_numerics) (st_matrix s) (st_ops s) (f32_one, f32_one, f32_one, f32_one)
  = (f32_of_Z 3, f32_one, f32_one, f32_one).
Proof. vm_compute. reflexivity. Qed.

(** C86: where a transform takes a point. *)
From Coq Require String.
Import String.StringSyntax.
From Coq Require Import Reals Floats.SpecFloat Lra.
From Verif Require Import Machine Loops FloatModel FloatReal BBoxModel PixelModel PixelSpec AttrModel HashModel StreamModel GradeModel
  DeformModel NodeModel MergeSpec BakeSpec TransformProofs LineSpec LineProofs RemapSpec RemapReal RemapKeep GeomReal PropertiesBake PropertiesDeform MoveSpec MoveReal MoveProofs.
Local Open Scope string_scope.

(** Scaled and turned about the pivot and translated by the set part of the
    width, up to seven units of rounding of the terms. *)
Theorem C86_formula : forall nx v win x y,
  usual_transform v win -> fair_turn nx v -> vi v "invert" <= 0 -> modest x -> modest y ->
  let C := R32 (nx_cos nx (radians v)) in
  let S := R32 (nx_sin nx (radians v)) in
  let (x', y') := transform_apply nx v win false (x, y) in
  plain_value x' /\ plain_value y' /\
  (Rabs (R32 x' - placed_x v C S win (R32 x) (R32 y)) <= 7 * / 2 ^ 24 * reach_x v C S win (R32 x) (R32 y) + / 2 ^ 70)%R /\
  (Rabs (R32 y' - placed_y v C S win (R32 x) (R32 y)) <= 7 * / 2 ^ 24 * reach_y v C S win (R32 x) (R32 y) + / 2 ^ 70)%R.
Proof. exact placed. Qed.
Print Assumptions C86_formula.

(** So is every vertex of a mesh, whose depth stays. *)
Theorem C86_vertices : forall nx v win buf buf' i x y z,
  usual_transform v win -> fair_turn nx v -> vi v "enable" = 1 -> vi v "invert" <= 0 ->
  deform_positions nx [DTransform v] win buf = Ok buf' ->
  nth_error buf (3 * i) = Some x -> nth_error buf (3 * i + 1) = Some y -> nth_error buf (3 * i + 2) = Some z -> modest x -> modest y ->
  let C := R32 (nx_cos nx (radians v)) in
  let S := R32 (nx_sin nx (radians v)) in
  exists x' y', nth_error buf' (3 * i) = Some x' /\ nth_error buf' (3 * i + 1) = Some y' /\ nth_error buf' (3 * i + 2) = Some z /\
  plain_value x' /\ plain_value y' /\
  (Rabs (R32 x' - placed_x v C S win (R32 x) (R32 y)) <= 7 * / 2 ^ 24 * reach_x v C S win (R32 x) (R32 y) + / 2 ^ 70)%R /\
  (Rabs (R32 y' - placed_y v C S win (R32 x) (R32 y)) <= 7 * / 2 ^ 24 * reach_y v C S win (R32 x) (R32 y) + / 2 ^ 70)%R.
Proof. exact placed_points. Qed.
Print Assumptions C86_vertices.

(** A quarter turn about (1, 0), scaled by two and three, and moved by half of
    the width: (2, 1) goes to (-1.5, 2). *)
Definition quarter : numerics :=
  Numerics (fun a _ => a) (fun _ => f32_zero) (fun _ => f32_one) (fun _ => None) (fun _ _ q => q) (fun _ _ b => b).
Definition turned : vals := transform_op (with_attrs TTransform
  [WF32 "translate_x" 1112014848; WF32 "rotate" 1119092736; WF32 "scale_x" 1073741824; WF32 "scale_y" 1077936128;
   WF32 "pivot_x" 1065353216; WF32 "pivot_y" 0]).
Definition wide : bbox := BBox 0 0 100 50.
Example C86_example :
  usual_transform turned (bboxf_of wide) /\ fair_turn quarter turned /\ vi turned "enable" = 1 /\ vi turned "invert" = 0 /\
  deform_positions quarter [DTransform turned] (bboxf_of wide) [f32_of_Z 2; f32_of_Z 1; f32_zero] =
    Ok [f32_div (f32_of_Z (-3)) (f32_of_Z 2); f32_of_Z 2; f32_zero] /\
  placed_x turned 0 1 (bboxf_of wide) 2 1 = (-3 / 2)%R /\ placed_y turned 0 1 (bboxf_of wide) 2 1 = 2%R.
Proof.
  assert (RZ : forall z, (Z.abs z <= 1000) -> R32 (f32_of_Z z) = IZR z).
  { intros z H. destruct (small_real z ltac:(lia)) as (_ & _ & E). exact E. }
  assert (E1 : f32_of_bits (vf turned "translate_x") = f32_of_Z 50) by (vm_compute; reflexivity).
  assert (E2 : f32_of_bits (vf turned "translate_y") = f32_of_Z 0) by (vm_compute; reflexivity).
  assert (E3 : f32_of_bits (vf turned "rotate_center_x") = f32_of_Z 0) by (vm_compute; reflexivity).
  assert (E4 : f32_of_bits (vf turned "rotate_center_y") = f32_of_Z 0) by (vm_compute; reflexivity).
  assert (E5 : f32_of_bits (vf turned "scale_x") = f32_of_Z 2) by (vm_compute; reflexivity).
  assert (E6 : f32_of_bits (vf turned "scale_y") = f32_of_Z 3) by (vm_compute; reflexivity).
  assert (E7 : f32_of_bits (vf turned "pivot_x") = f32_of_Z 1) by (vm_compute; reflexivity).
  assert (E8 : f32_of_bits (vf turned "pivot_y") = f32_of_Z 0) by (vm_compute; reflexivity).
  assert (M : forall z, Z.abs z <= 1000 -> modest (f32_of_Z z)) by exact modest_Z.
  split.
  { split; [repeat apply Forall_cons; try apply Forall_nil; rewrite ?E1, ?E2, ?E3, ?E4, ?E5, ?E6, ?E7, ?E8; apply M; lia|].
    unfold bboxf_of, wide. cbn [fmin_x fmax_x min_x max_x]. split; [apply M; lia|]. split; [apply M; lia|].
    rewrite !RZ by lia. rewrite Rminus_0_r, Rabs_pos_eq by lra. lra. }
  split.
  { unfold fair_turn. cbn [nx_cos nx_sin quarter]. destruct one_real as (_ & _ & R1). rewrite R1.
    change (R32 f32_zero) with 0%R. rewrite Rabs_R0, Rabs_R1. split; [split; reflexivity|]. split; [lra|]. split; [split; reflexivity|lra]. }
  split; [vm_compute; reflexivity|]. split; [vm_compute; reflexivity|]. split; [vm_compute; reflexivity|].
  unfold placed_x, placed_y, width_part, setting, bboxf_of, wide. cbn [fmin_x fmax_x min_x max_x].
  rewrite E1, E2, E5, E6, E7, E8, !RZ by lia. split; lra.
Qed.

(** The same translation does not move the pixels by that part of the width: no
    translation by up to half of the width takes a baked pixel from further
    away than its neighbours. *)
Theorem C86_bake_stays : forall nx v w h,
  only_translates v w -> exact_shifts nx -> 1 <= w <= 2 ^ 16 -> 1 <= h <= 2 ^ 16 ->
  forall p blk, float_picture blk -> bs_w (pb_size blk) = w -> bs_h (pb_size blk) = h -> vi v "enable" = 1 ->
  exists dst, deform_pixels nx p [DTransform v] (BBox 0 0 w h) blk (BBox 0 0 w h) = Ok (dst, BBox 0 0 w h) /\
  forall x y, 0 <= x < w -> 0 <= y < h -> exists sx sy,
    Z.abs (sx - x) <= 1 /\ Z.abs (sy - y) <= 1 /\ fetched blk dst (BBox 0 0 w h) x y sx sy.
Proof. exact hardly_moved. Qed.
Print Assumptions C86_bake_stays.

(** A transform which moves the mesh by half of the width, and the row of
    pixels by one pixel at its right end. *)
Definition half_right : vals := transform_op (with_attrs TTransform [WF32 "translate_x" 1101004800]).
Lemma flat_shifts : exact_shifts flat_numerics.
Proof.
  split; [reflexivity|]. split; [reflexivity|]. intros m A B H. cbn [nx_inverse flat_numerics]. unfold flat_inverse.
  assert (O : forall i, (i < 2)%nat -> mat m i i = f32_one).
  { intros i Hi. destruct (H i i ltac:(lia) ltac:(lia)) as ((V & F) & E). destruct one_real as (V1 & F1 & E1).
    assert (R1 : R32 (mat m i i) = 1%R) by (rewrite E; destruct i as [|[|i]]; [reflexivity|reflexivity|lia]).
    apply real_inj; [exact V|exact V1|now apply fin_iff|exact F1|congruence|]. rewrite R1. lra. }
  rewrite (O 0%nat), (O 1%nat) by lia. change (f32_div f32_one f32_one) with f32_one.
  pose proof (num_neg _ _ (mul1_r _ _ _ (shift_num m A B 0 3 H ltac:(lia) ltac:(lia)) num_one)) as N0.
  pose proof (num_neg _ _ (mul1_r _ _ _ (shift_num m A B 1 3 H ltac:(lia) ltac:(lia)) num_one)) as N1.
  intros i j Hi Hj. apply plain_of_num.
  do 4 (destruct i as [|i]; [do 4 (destruct j as [|j]; [unfold mat; cbn [nth Nat.mul Nat.add shift_entry Nat.eqb]; first [exact num_one|exact num_f0|exact N0|exact N1]|]); lia|]). lia.
Qed.
Theorem C86_bake_refuted :
  exists dst, only_translates half_right 40 /\ exact_shifts flat_numerics /\ vi half_right "enable" = 1 /\ float_picture (ramp 40) /\
  setting half_right "translate_x" = 20%R /\
  deform_positions flat_numerics [DTransform half_right] (bboxf_of (BBox 0 0 40 1)) [f32_zero; f32_zero; f32_zero] =
    Ok [f32_div f32_one (f32_of_Z 2); f32_zero; f32_zero] /\
  deform_pixels flat_numerics Release [DTransform half_right] (BBox 0 0 40 1) (ramp 40) (BBox 0 0 40 1) = Ok (dst, BBox 0 0 40 1) /\
  pixel_val dst (BBox 0 0 40 1) 10 0 0 = pixel_val (ramp 40) (BBox 0 0 40 1) 10 0 0 /\
  pixel_val dst (BBox 0 0 40 1) 39 0 0 = pixel_val (ramp 40) (BBox 0 0 40 1) 38 0 0 /\
  pixel_val dst (BBox 0 0 40 1) 39 0 0 <> pixel_val (ramp 40) (BBox 0 0 40 1) 19 0 0.
Proof.
  assert (RZ : forall z, (Z.abs z <= 1000) -> R32 (f32_of_Z z) = IZR z).
  { intros z H. destruct (small_real z ltac:(lia)) as (_ & _ & E). exact E. }
  assert (E1 : f32_of_bits (vf half_right "translate_x") = f32_of_Z 20) by (vm_compute; reflexivity).
  assert (E2 : f32_of_bits (vf half_right "translate_y") = f32_of_Z 0) by (vm_compute; reflexivity).
  assert (E3 : f32_of_bits (vf half_right "rotate_center_x") = f32_of_Z 0) by (vm_compute; reflexivity).
  assert (E4 : f32_of_bits (vf half_right "rotate_center_y") = f32_of_Z 0) by (vm_compute; reflexivity).
  assert (E7 : f32_of_bits (vf half_right "pivot_x") = S754_finite false 8388608 (-24)) by (vm_compute; reflexivity).
  assert (E8 : f32_of_bits (vf half_right "pivot_y") = S754_finite false 8388608 (-24)) by (vm_compute; reflexivity).
  eexists. split.
  { split; [reflexivity|]. split; [reflexivity|]. split; [reflexivity|]. split; [reflexivity|]. split.
    - assert (Z16 : forall z, Z.abs z <= 1000 -> plain_value (f32_of_Z z) /\ (Rabs (R32 (f32_of_Z z)) <= 2 ^ 16)%R).
      { intros z Hz. destruct (modest_Z z Hz) as (P & _). split; [exact P|]. rewrite RZ, <- abs_IZR by exact Hz. apply IZR_le in Hz. lra. }
      assert (H16 : plain_value (S754_finite false 8388608 (-24)) /\ (Rabs (R32 (S754_finite false 8388608 (-24))) <= 2 ^ 16)%R).
      { split; [split; reflexivity|]. change (S754_finite false 8388608 (-24)) with half32. rewrite half_real, Rabs_pos_eq; lra. }
      intros n I. unfold setting. repeat (destruct I as [<-|I]; [rewrite ?E1, ?E2, ?E3, ?E4, ?E7, ?E8; first [exact H16|apply Z16; lia]|]). contradiction.
    - unfold setting. rewrite E1, E2, !RZ by lia. rewrite Rabs_R0, Rabs_pos_eq by lra. split; lra. }
  split; [exact flat_shifts|]. split; [vm_compute; reflexivity|]. split; [apply ramp_ok; lia|].
  split; [unfold setting; rewrite E1; apply RZ; lia|]. split; [vm_compute; reflexivity|]. split; [vm_compute; reflexivity|].
  split; [vm_compute; reflexivity|]. split; [vm_compute; reflexivity|]. vm_compute. discriminate.
Qed.
Print Assumptions C86_bake_refuted.

(** C55 in windows that start anywhere: with default settings everything moves
    left and up by the window's left edge divided by its width. *)
Theorem C55_offset : forall nx v w x y,
  unit_transform v -> nx_cos nx (S754_zero false) = f32_one -> nx_sin nx (S754_zero false) = S754_zero false ->
  modest (f32_of_bits (vf v "pivot_x")) -> modest (f32_of_bits (vf v "pivot_y")) -> modest x -> modest y ->
  Z.abs (min_x w) <= 2 ^ 20 -> Z.abs (max_x w) <= 2 ^ 20 -> min_x w < max_x w ->
  let off := (IZR (min_x w) / IZR (max_x w - min_x w))%R in
  let (x', y') := transform_apply nx v (bboxf_of w) false (x, y) in
  (Rabs (R32 x' - (R32 x - off)) <=
   7 * / 2 ^ 24 * (Rabs (setting v "pivot_x") + Rabs (R32 x - setting v "pivot_x") + Rabs off) + / 2 ^ 70)%R /\
  (Rabs (R32 y' - (R32 y - off)) <=
   7 * / 2 ^ 24 * (Rabs (setting v "pivot_y") + Rabs (R32 y - setting v "pivot_y") + Rabs off) + / 2 ^ 70)%R.
Proof. exact offset. Qed.
Print Assumptions C55_offset.
(** The case of C55_refuted: from 2 to 6, so by half a pixel. *)
Example C55_offset_case :
  let v := transform_op (with_attrs TTransform []) in
  unit_transform v /\ modest (f32_of_bits (vf v "pivot_x")) /\ modest two /\ (IZR 2 / IZR (6 - 2) = 1 / 2)%R /\
  transform_apply flat_numerics v (bboxf_of (BBox 2 0 6 4)) false (two, two) = (f32_div (f32_of_Z 3) two, f32_div (f32_of_Z 3) two).
Proof.
  split.
  { split; [reflexivity|]. split; [|split; reflexivity]. intros n H. repeat (destruct H as [<- | H]; [reflexivity|]). contradiction. }
  split.
  { change (modest half32). split; [split; reflexivity|]. rewrite half_real, Rabs_pos_eq by lra.
    apply Rle_trans with 1%R; [lra|apply pow_R1_Rle; lra]. }
  split; [change (modest (f32_of_Z 2)); apply modest_Z; lia|]. split; [simpl; lra|]. vm_compute. reflexivity.
Qed.

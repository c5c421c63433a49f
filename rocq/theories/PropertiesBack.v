(** C91: an inverted transform undoes the transform. *)
From Coq Require String.
Import String.StringSyntax.
From Coq Require Import Reals Floats.SpecFloat Lra.
From Verif Require Import Machine Loops FloatModel FloatReal BBoxModel AttrModel HashModel StreamModel GradeModel DeformModel NodeModel
  MergeSpec BakeSpec LineSpec LineProofs RemapSpec RemapKeep GeomReal RemapReal LineProofs MoveSpec BackSpec BackProofs PropertiesBake PropertiesDeform PropertiesMove.
Local Open Scope string_scope.

(** Every vertex moved by a transform and then by the inverted transform is back,
    up to what the library's inverse [m'] is off and sixty units of rounding of
    the squared size of the matrices; depths stay. *)
Theorem C91_undone_partial : forall nx v v' win m' K d buf buf' i x y z,
  reversed v' v -> vi v "enable" = 1 -> vi v' "enable" = 1 ->
  modest (f32_of_bits (vf v "pivot_x")) -> modest (f32_of_bits (vf v "pivot_y")) -> modest x -> modest y ->
  let m := transform_matrix nx v win false in
  nx_inverse nx m = Some m' -> (1 <= K)%R -> tame K m -> tame K m' -> takes_back d m' m ->
  let L := off_pivot v (R32 x) (R32 y) in
  (K * L + pivot_off v <= 2 ^ 19)%R ->
  deform_positions nx [DTransform v; DTransform v'] win buf = Ok buf' ->
  nth_error buf (3 * i) = Some x -> nth_error buf (3 * i + 1) = Some y -> nth_error buf (3 * i + 2) = Some z ->
  exists x' y', nth_error buf' (3 * i) = Some x' /\ nth_error buf' (3 * i + 1) = Some y' /\ nth_error buf' (3 * i + 2) = Some z /\
  (Rabs (R32 x' - R32 x) <= d * L + 60 * / 2 ^ 24 * (K * K * (L + pivot_off v)) + / 2 ^ 40)%R /\
  (Rabs (R32 y' - R32 y) <= d * L + 60 * / 2 ^ 24 * (K * K * (L + pivot_off v)) + / 2 ^ 40)%R.
Proof. exact undone. Qed.
Print Assumptions C91_undone_partial.

(** Baking pixels looks up the source of a point the same way: the source of
    where a point went is the point. *)
Theorem C91_fetched_partial : forall nx v win m' K d x y,
  vi v "invert" = 0 -> modest (f32_of_bits (vf v "pivot_x")) -> modest (f32_of_bits (vf v "pivot_y")) -> modest x -> modest y ->
  let m := transform_matrix nx v win false in
  nx_inverse nx m = Some m' -> (1 <= K)%R -> tame K m -> tame K m' -> takes_back d m' m ->
  let L := off_pivot v (R32 x) (R32 y) in
  (K * L + pivot_off v <= 2 ^ 19)%R ->
  let (x', y') := transform_apply nx v win true (transform_apply nx v win false (x, y)) in
  plain_value x' /\ plain_value y' /\
  (Rabs (R32 x' - R32 x) <= d * L + 60 * / 2 ^ 24 * (K * K * (L + pivot_off v)) + / 2 ^ 40)%R /\
  (Rabs (R32 y' - R32 y) <= d * L + 60 * / 2 ^ 24 * (K * K * (L + pivot_off v)) + / 2 ^ 40)%R.
Proof. exact fetched_point. Qed.
Print Assumptions C91_fetched_partial.

(** Twice as large and to the right by the width, and back. *)
Definition there : vals := transform_op (with_attrs TTransform
  [WF32 "translate_x" 1065353216; WF32 "scale_x" 1073741824; WF32 "scale_y" 1073741824; WF32 "pivot_x" 1065353216; WF32 "pivot_y" 0]).
Definition back : vals := transform_op (with_attrs TTransform
  [WI32 "invert" 1; WF32 "translate_x" 1065353216; WF32 "scale_x" 1073741824; WF32 "scale_y" 1073741824; WF32 "pivot_x" 1065353216; WF32 "pivot_y" 0]).
Definition one_wide : bboxf := bboxf_of (BBox 0 0 1 1).
Definition there_matrix : mat4 := Eval vm_compute in transform_matrix flat_numerics there one_wide false.
Definition back_matrix : mat4 := Eval vm_compute in match flat_inverse there_matrix with Some m => m | None => [] end.
Example C91_example :
  reversed back there /\ vi there "enable" = 1 /\ vi back "enable" = 1 /\
  modest (f32_of_bits (vf there "pivot_x")) /\ modest (f32_of_bits (vf there "pivot_y")) /\
  transform_matrix flat_numerics there one_wide false = there_matrix /\
  nx_inverse flat_numerics there_matrix = Some back_matrix /\ tame 2 there_matrix /\ tame 2 back_matrix /\ takes_back 0 back_matrix there_matrix /\
  (2 * off_pivot there (R32 (f32_of_Z 3)) (R32 (f32_of_Z 1)) + pivot_off there <= 2 ^ 19)%R /\
  deform_positions flat_numerics [DTransform there] one_wide [f32_of_Z 3; f32_of_Z 1; f32_zero] = Ok [f32_of_Z 6; f32_of_Z 2; f32_zero] /\
  deform_positions flat_numerics [DTransform there; DTransform back] one_wide [f32_of_Z 3; f32_of_Z 1; f32_zero] =
    Ok [f32_of_Z 3; f32_of_Z 1; f32_zero].
Proof.
  assert (RZ : forall z, Z.abs z <= 1000 -> R32 (f32_of_Z z) = IZR z).
  { intros z H. destruct (small_real z ltac:(lia)) as (_ & _ & E). exact E. }
  assert (R0 : R32 f32_zero = 0%R) by reflexivity.
  assert (E0 : f32_of_bits (vf there "pivot_x") = f32_of_Z 1) by (vm_compute; reflexivity).
  assert (E1 : f32_of_bits (vf there "pivot_y") = f32_of_Z 0) by (vm_compute; reflexivity).
  assert (RH : R32 half32 = (/ 2)%R) by exact half_real.
  assert (ET : there_matrix = [f32_of_Z 2; f32_zero; f32_zero; f32_one; f32_zero; f32_of_Z 2; f32_zero; f32_zero;
     f32_zero; f32_zero; f32_one; f32_zero; f32_zero; f32_zero; f32_zero; f32_one]) by (vm_compute; reflexivity).
  assert (EB : back_matrix = [half32; f32_zero; f32_zero; f32_neg half32; f32_zero; half32; f32_zero; f32_neg f32_zero;
     f32_zero; f32_zero; f32_one; f32_zero; f32_zero; f32_zero; f32_zero; f32_one]) by (vm_compute; reflexivity).
  assert (RN : R32 (f32_neg half32) = (- / 2)%R) by (destruct (neg_real half32) as (N & _); rewrite N, RH; reflexivity).
  assert (RO : R32 f32_one = 1%R) by (destruct one_real as (_ & _ & E); exact E).
  assert (RT : R32 (f32_of_Z 2) = 2%R) by (apply RZ; lia).
  split; [split; [intro n|split; vm_compute; [discriminate|reflexivity]]|].
  { unfold there, back. reflexivity. }
  split; [vm_compute; reflexivity|]. split; [vm_compute; reflexivity|].
  split; [rewrite E0; apply modest_Z; lia|]. split; [rewrite E1; apply modest_Z; lia|].
  split; [vm_compute; reflexivity|]. split; [vm_compute; reflexivity|].
  split.
  { intros i I. destruct i as [|[|i]]; [| |lia]; (split; [split; vm_compute; reflexivity|]);
      intros j J; (repeat (destruct J as [<-|J]; [split; [split; vm_compute; reflexivity|]; rewrite ET; unfold mat; cbn [nth Nat.mul Nat.add];
        rewrite ?RT, ?R0, ?RO, ?Rabs_R0, ?Rabs_R1, ?(Rabs_pos_eq 2) by lra; lra|]); contradiction). }
  split.
  { intros i I. destruct i as [|[|i]]; [| |lia]; (split; [split; vm_compute; reflexivity|]);
      intros j J; (repeat (destruct J as [<-|J]; [split; [split; vm_compute; reflexivity|]; rewrite EB; unfold mat; cbn [nth Nat.mul Nat.add];
        change (R32 (f32_neg f32_zero)) with 0%R; rewrite ?RN, ?RH, ?R0, ?Rabs_Ropp, ?Rabs_R0, ?(Rabs_pos_eq (/ 2)) by lra; try lra|]); contradiction). }
  split.
  { intros x y. unfold moved_x, moved_y. rewrite ET, EB. unfold mat. cbn [nth Nat.mul Nat.add]. change (R32 (f32_neg f32_zero)) with 0%R.
    rewrite RT, RO, R0, RH, RN. split; match goal with |- (Rabs ?a <= _)%R => replace a with 0%R by field; rewrite Rabs_R0; lra end. }
  split; [|split; vm_compute; reflexivity].
  unfold off_pivot, pivot_off, setting. rewrite E0, E1, !RZ by lia. rewrite !Rabs_pos_eq by lra. lra.
Qed.

(** Where the library finds no inverse, the inverted transform is the transform
    itself. *)
Theorem C91_no_inverse : forall nx v v' win xy, reversed v' v -> nx_inverse nx (transform_matrix nx v win false) = None ->
  transform_apply nx v' win false xy = transform_apply nx v win false xy.
Proof. exact not_undone. Qed.
Print Assumptions C91_no_inverse.

(** Flattened to a line and not restored. *)
Definition flatten : vals := transform_op (with_attrs TTransform [WF32 "scale_x" 0; WF32 "pivot_x" 0; WF32 "pivot_y" 0]).
Definition unflatten : vals := transform_op (with_attrs TTransform [WI32 "invert" 1; WF32 "scale_x" 0; WF32 "pivot_x" 0; WF32 "pivot_y" 0]).
Definition no_inverses : numerics :=
  Numerics (fun a _ => a) (fun _ => f32_one) (fun _ => f32_zero) (fun _ => None) (fun _ _ q => q) (fun _ _ b => b).
Theorem C91_undone_refuted :
  reversed unflatten flatten /\
  deform_positions no_inverses [DTransform flatten; DTransform unflatten] one_wide [f32_of_Z 3; f32_of_Z 1; f32_zero] = Ok [f32_zero; f32_of_Z 1; f32_zero].
Proof.
  split; [split; [intro n; reflexivity|split; vm_compute; [discriminate|reflexivity]]|]. vm_compute. reflexivity.
Qed.
Print Assumptions C91_undone_refuted.

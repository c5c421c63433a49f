(** C95: the radial ("Brownian") lens deformer. *)
From Coq Require String.
Import String.StringSyntax.
From Coq Require Import Reals Floats.SpecFloat Psatz.
From Flocq Require Import Core.Core.
From Verif Require Import Machine FloatModel FloatReal BBoxModel AttrModel StreamModel DeformModel MergeSpec BakeSpec LineProofs
  PropertiesDeform TripSpec BrownSpec BrownProofs.
Local Open Scope string_scope.
Local Open Scope R_scope.

(** With both coefficients zero it leaves points where they are, either way, up
    to rounding. *)
Theorem C95_zero_partial : forall nx v display inverse side q,
  1 <= side <= 65536 -> near_display side display -> around display q ->
  plain_value (field v "xc") -> plain_value (field v "yc") ->
  Rabs (R32 (field v "xc")) <= 1024 * 1024 -> Rabs (R32 (field v "yc")) <= 1024 * 1024 ->
  R32 (field v "k1") = 0 -> plain_value (field v "k1") -> R32 (field v "k2") = 0 -> plain_value (field v "k2") ->
  exists q', deform_point nx (DBrownian v) (bboxf_of display) inverse q = Ok q' /\ close_by (side / 131072) q' q.
Proof. exact nothing_moved. Qed.
Print Assumptions C95_zero_partial.

Definition radial (k1 k2 : Z) : vals := Vals [("enable", 1%Z)] [("xc", 0%Z); ("yc", 0%Z); ("k1", k1); ("k2", k2)].
Lemma zero_plain : plain_value f32_zero /\ R32 f32_zero = 0.
Proof. destruct (small_real 0 ltac:(lia)) as (V & F & E). split; [split; [exact V|now apply fin_iff]|exact E]. Qed.
Example C95_example : exists q,
  near_display 1 (BBox 0 0 1 1) /\ around (BBox 0 0 1 1) q /\ plain_value (field (radial 0 0) "xc") /\ R32 (field (radial 0 0) "k1") = 0.
Proof.
  exists (f32_zero, f32_zero). destruct zero_plain as (P & E).
  split; [unfold near_display; cbn [min_x min_y max_x max_y]; repeat split; try lia; apply Rabs_le; lra|].
  split; [|split; [exact P|exact E]].
  split; [exact P|]. split; [exact P|]. cbn [fst snd min_x min_y max_x max_y]. rewrite E. change (1 - 0)%Z with 1%Z. split; apply Rabs_le; lra.
Qed.

(** It is not the documented formula: on the unit square, with k2 = 1, the point
    (1, 0) goes to (3, 0) instead of (2, 0). *)
Theorem C95_formula_refuted : exists nx v display x y x' y',
  deform_point nx (DBrownian v) (bboxf_of display) false (x, y) = Ok (x', y') /\ display = BBox 0 0 1 1 /\
  plain_value x /\ plain_value y /\ plain_value x' /\
  Rabs (R32 x' - fst (documented (R32 (field v "xc")) (R32 (field v "yc")) (R32 (field v "k1")) (R32 (field v "k2")) (R32 x) (R32 y))) = 1.
Proof.
  exists flat_numerics, (radial 0 1065353216), (BBox 0 0 1 1), f32_one, f32_zero, (f32_of_Z 3). eexists.
  split; [vm_compute; reflexivity|]. split; [reflexivity|].
  destruct zero_plain as (P0 & E0). destruct (small_real 1 ltac:(lia)) as (V1 & F1 & E1). destruct (small_real 3 ltac:(lia)) as (V3 & F3 & E3).
  split; [split; [exact V1|now apply fin_iff]|]. split; [exact P0|]. split; [split; [exact V3|now apply fin_iff]|].
  change (field (radial 0 1065353216) "xc") with f32_zero. change (field (radial 0 1065353216) "yc") with f32_zero. change (field (radial 0 1065353216) "k1") with f32_zero.
  change (field (radial 0 1065353216) "k2") with (f32_of_Z 1). change f32_one with (f32_of_Z 1). rewrite E0, E1, E3. unfold documented. cbn [fst].
  replace (3 - _) with 1 by ring. apply Rabs_R1.
Qed.
Print Assumptions C95_formula_refuted.

(** Nor does the inverse undo it: (1, 0) goes to (2, 0), and (2, 0) back to
    (-6, 0). *)
Theorem C95_inverse_refuted : exists nx v display q q' q'',
  deform_point nx (DBrownian v) (bboxf_of display) false q = Ok q' /\ deform_point nx (DBrownian v) (bboxf_of display) true q' = Ok q'' /\
  fst q = f32_of_Z 1 /\ fst q'' = f32_of_Z (-6).
Proof.
  exists flat_numerics, (radial 1065353216 0), (BBox 0 0 1 1), (f32_one, f32_zero). do 2 eexists.
  split; [vm_compute; reflexivity|]. split; [vm_compute; reflexivity|]. split; vm_compute; reflexivity.
Qed.
Print Assumptions C95_inverse_refuted.

(** And it depends on the resolution, for the radius is measured in pixels: the
    right corner of a display one pixel wide goes to 2, that of a display two
    pixels wide to 10 instead of 4. *)
Theorem C95_resolution_refuted : exists nx v q1 q2,
  deform_point nx (DBrownian v) (bboxf_of (BBox 0 0 1 1)) false (f32_of_Z 1, f32_of_Z 0) = Ok q1 /\ fst q1 = f32_of_Z 2 /\
  deform_point nx (DBrownian v) (bboxf_of (BBox 0 0 2 2)) false (f32_of_Z 2, f32_of_Z 0) = Ok q2 /\ fst q2 = f32_of_Z 10.
Proof.
  exists flat_numerics, (radial 1065353216 0). do 2 eexists.
  split; [vm_compute; reflexivity|]. split; [vm_compute; reflexivity|]. split; vm_compute; reflexivity.
Qed.
Print Assumptions C95_resolution_refuted.

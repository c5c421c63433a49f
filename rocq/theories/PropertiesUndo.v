(** C75: a grade and its reverse. *)
From Coq Require String.
Import String.StringSyntax.
From Coq Require Import Reals Floats.SpecFloat Lra Lia.
From Flocq Require Import Core.Core IEEE754.BinarySingleNaN.
From Verif Require Import Machine FloatModel FloatReal AttrModel AttrProofs StreamModel MergeSpec GradeModel GeomReal BakeSpec NodeModel NewSpec UndoSpec UndoProofs PropertiesBake.
Local Open Scope string_scope.

(** A grade of gamma one followed by the same grade reversed, on any buffer of
    whole pixels: channels that are not processed keep their value, the others
    come back up to rounding. *)
Theorem C75_gamma_one_partial : forall powf o o' nc n pixels,
  (forall v, good v -> powf v f32_one = v) -> forward o -> reversed o o' -> (forall k, (k < nc)%nat -> moderate o (colour_of nc k)) ->
  (nc = 1 \/ nc = 3 \/ nc = 4)%nat -> length pixels = (n * nc)%nat ->
  Forall (fun v => good v /\ (Rabs (R32 v) <= 2 ^ 20)%R) pixels ->
  exists r, apply_color_ops powf [o; o'] (Z.of_nat nc) pixels = Ok r /\ length r = length pixels /\
  forall i v, nth_error pixels i = Some v -> exists v', nth_error r i = Some v' /\ f32_finite v' /\
    let c := colour_of nc (i mod nc) in
    (process o c = 0 -> same_number v' v) /\
    (process o c = 1 -> (Rabs (R32 v' - R32 v) <= 12 * / 2 ^ 24 * (Rabs (R32 v) + Rabs (R32 (shift_of o c) / R32 (slope_of o c))) + / 2 ^ 126)%R).
Proof. exact undo_buffer. Qed.
Print Assumptions C75_gamma_one_partial.

(** Gain two and gamma two: a value of two stays two, and is reversed to one:
    reversing the line discards the reversed gamma. *)
Definition gained (r : Z) : vals :=
  grade_op (with_attrs TGrade [WF32 "gain_r" 1073741824; WF32 "gamma_r" 1073741824; WI32 "reverse" r]).
Theorem C75_gamma_and_gain_refuted : forall powf, powf (f32_of_Z 4) (f32_of_bits 1056964608) = f32_of_Z 2 ->
  graded_value powf (gained 0) CR (f32_of_Z 2) = f32_of_Z 2 /\ graded_value powf (gained 1) CR (f32_of_Z 2) = f32_of_Z 1.
Proof.
  intros powf P. split; [|reflexivity].
  change (graded_value powf (gained 0) CR (f32_of_Z 2)) with (powf (f32_of_Z 4) (f32_of_bits 1056964608)). exact P.
Qed.
Print Assumptions C75_gamma_and_gain_refuted.

(** Gamma two alone: four becomes two, which is reversed to three. *)
Definition curved (r : Z) : vals := grade_op (with_attrs TGrade [WF32 "gamma_r" 1073741824; WI32 "reverse" r]).
Theorem C75_above_one_refuted : forall powf, powf (f32_of_Z 4) (f32_of_bits 1056964608) = f32_of_Z 2 ->
  graded_value powf (curved 0) CR (f32_of_Z 4) = f32_of_Z 2 /\ graded_value powf (curved 1) CR (f32_of_Z 2) = f32_of_Z 3.
Proof.
  intros powf P. split; [|reflexivity].
  change (graded_value powf (curved 0) CR (f32_of_Z 4)) with (powf (f32_of_Z 4) (f32_of_bits 1056964608)). exact P.
Qed.
Print Assumptions C75_above_one_refuted.

(** Red graded by gain 3 and offset 1, alpha not processed. *)
Definition threefold (r : Z) : vals :=
  grade_op (with_attrs TGrade [WF32 "gain_r" 1077936128; WF32 "offset_r" 1065353216; WI32 "reverse" r]).
Lemma three_real : R32 (f32_of_Z 3) = 3%R.
Proof. vm_compute (f32_of_Z 3). unfold R32, SF2R, F2R. cbn. lra. Qed.
Example C75_example :
  forward (threefold 0) /\ reversed (threefold 0) (threefold 1) /\ (forall c, moderate (threefold 0) c) /\
  process (threefold 0) CR = 1 /\ process (threefold 0) CA = 0 /\
  slope_of (threefold 0) CR = f32_of_Z 3 /\ shift_of (threefold 0) CR = f32_of_Z 1.
Proof.
  assert (SR : slope_of (threefold 0) CR = f32_of_Z 3) by (vm_compute; reflexivity).
  assert (HR : shift_of (threefold 0) CR = f32_of_Z 1) by (vm_compute; reflexivity).
  assert (SO : forall c, c <> CR -> slope_of (threefold 0) c = f32_one /\ shift_of (threefold 0) c = f32_zero).
  { intros [] N; [contradiction| | |]; split; vm_compute; reflexivity. }
  split; [|split; [|split; [|split; [vm_compute; reflexivity|split; [vm_compute; reflexivity|split; assumption]]]]].
  - split; [reflexivity|]. split; [reflexivity|]. split; [vm_compute; reflexivity|]. split; [left; vm_compute; discriminate|].
    intros []; (split; [vm_compute; reflexivity|vm_compute; auto]).
  - split; [reflexivity|]. split.
    + intros name N. unfold vi.
      assert (E0 : v_i32 (threefold 0) = [("enable", 1); ("process_r", 1); ("process_g", 1); ("process_b", 1); ("process_a", 0); ("reverse", 0);
        ("clamp_black", 1); ("clamp_white", 0); ("premult", 0)]) by (vm_compute; reflexivity).
      assert (E1 : v_i32 (threefold 1) = [("enable", 1); ("process_r", 1); ("process_g", 1); ("process_b", 1); ("process_a", 0); ("reverse", 1);
        ("clamp_black", 1); ("clamp_white", 0); ("premult", 0)]) by (vm_compute; reflexivity).
      rewrite E0, E1. cbn [table]. apply seqb_neq in N. rewrite N. reflexivity.
    + assert (E : v_f32 (threefold 1) = v_f32 (threefold 0)) by (vm_compute; reflexivity). intros name. unfold vf. now rewrite E.
  - destruct one_real as (V1 & F1 & R1). pose proof three_real as R3. intros c.
    assert (C : c = CR \/ c <> CR) by (destruct c; [now left|right; discriminate..]). destruct C as [->|C].
    + unfold moderate. rewrite SR, HR, R3. change (f32_of_Z 1) with f32_one. rewrite R1.
      split; [split; reflexivity|]. split; [split; reflexivity|]. rewrite !Rabs_pos_eq by lra. split; lra.
    + unfold moderate. destruct (SO c C) as (-> & ->). rewrite R1. change (R32 f32_zero) with 0%R.
      split; [split; reflexivity|]. split; [split; reflexivity|]. rewrite !Rabs_pos_eq by lra. split; lra.
Qed.

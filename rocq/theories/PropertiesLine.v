(** C82: a grade follows its line. *)
From Coq Require String.
Import String.StringSyntax.
From Coq Require Import Reals Floats.SpecFloat Lra Lia.
From Flocq Require Import Core.Core IEEE754.BinarySingleNaN.
From Verif Require Import Machine FloatModel FloatReal AttrModel StreamModel MergeSpec GradeModel BakeSpec NodeModel NewSpec LineSpec LineProofs PropertiesBake.
Local Open Scope string_scope.

(** Gamma one, any mix, any buffer of whole pixels: every value is the blend
    of itself and the line, up to ten units of rounding. *)
Theorem C82_blend_partial : forall powf o nc n pixels,
  (forall v, good v -> powf v f32_one = v) -> vi o "enable" = 1 -> vi o "reverse" = 0 -> working o ->
  plain_value (f32_of_bits (vf o "mix")) -> (0 <= R32 (f32_of_bits (vf o "mix")) <= 1)%R ->
  (nc = 1 \/ nc = 3 \/ nc = 4)%nat -> length pixels = (n * nc)%nat ->
  (forall k, (k < nc)%nat -> let c := colour_of nc k in usual o c /\ param o "gamma" c = f32_one /\ (process o c = 0 \/ process o c = 1)) ->
  Forall modest pixels ->
  exists r, apply_color_ops powf [o] (Z.of_nat nc) pixels = Ok r /\ length r = length pixels /\
  forall i v, nth_error pixels i = Some v -> exists v', nth_error r i = Some v' /\ f32_finite v' /\
    let c := colour_of nc (i mod nc) in let x := R32 v in let m := part_of o c in
    (Rabs (R32 v' - (m * grade_line o c x + (1 - m) * x)) <= 10 * / 2 ^ 24 * (m * line_size o c x + (1 - m) * Rabs x) + / 2 ^ 70)%R.
Proof. exact line_buffer. Qed.
Print Assumptions C82_blend_partial.

(** Any gamma: what is raised to the power is the line up to rounding. *)
Theorem C82_gamma_partial : forall o c v, usual o c -> modest v -> forall powf, vi o "reverse" = 0 -> exists u, plain_value u /\
  (Rabs (R32 u - grade_line o c (R32 v)) <= 8 * / 2 ^ 24 * line_size o c (R32 v) + / 2 ^ 70)%R /\
  graded_value powf o c v = powf u (f32_div f32_one (param o "gamma" c)).
Proof. exact near_line. Qed.
Print Assumptions C82_gamma_partial.

(** White point equal to the black point: every value becomes not a number,
    whatever the mix. *)
Definition flattened (mix : Z) : vals := grade_op (with_attrs TGrade [WF32 "white_point_r" 0; WF32 "mix" mix]).
Theorem C82_white_is_black_refuted : forall powf mix v, powf S754_nan f32_one = S754_nan -> f32_finite v ->
  exists r, apply_color_ops powf [flattened mix] 4 [v; v; v; v] = Ok r /\ nth_error r 0 = Some S754_nan.
Proof.
  intros powf mix v P _. destruct (first_value powf (flattened mix) v) as (r & A & B); [reflexivity|left; vm_compute; discriminate|].
  exists r. split; [exact A|]. rewrite B. f_equal. unfold blended.
  assert (G : graded_value powf (flattened mix) CR v = S754_nan).
  { assert (E : graded_value powf (flattened mix) CR v = powf (f32_add (f32_mul (S754_infinity false) v) S754_nan) f32_one) by reflexivity.
    rewrite E. destruct (f32_mul (S754_infinity false) v); exact P. }
  rewrite G. apply nan_blend.
Qed.
Print Assumptions C82_white_is_black_refuted.

(** Gamma two: minus one becomes not a number. *)
Definition rooted : vals := grade_op (with_attrs TGrade [WF32 "gamma_r" 1073741824]).
Theorem C82_negative_refuted : forall powf, powf (f32_of_Z (-1)) (f32_of_bits 1056964608) = S754_nan ->
  exists r, let v := f32_of_Z (-1) in apply_color_ops powf [rooted] 4 [v; v; v; v] = Ok r /\ nth_error r 0 = Some S754_nan.
Proof.
  intros powf P. destruct (first_value powf rooted (f32_of_Z (-1))) as (r & A & B); [reflexivity|left; vm_compute; discriminate|].
  exists r. split; [exact A|]. rewrite B. f_equal. unfold blended.
  assert (G : graded_value powf rooted CR (f32_of_Z (-1)) = powf (f32_of_Z (-1)) (f32_of_bits 1056964608)) by reflexivity.
  rewrite G, P. apply nan_blend.
Qed.
Print Assumptions C82_negative_refuted.

(** Red with gain 3, offset 1 and half mixed: 2 becomes 4 and a half. *)
Definition halfway : vals := grade_op (with_attrs TGrade [WF32 "gain_r" 1077936128; WF32 "offset_r" 1065353216; WF32 "mix" 1056964608]).
Example C82_example :
  working halfway /\ vi halfway "enable" = 1 /\ vi halfway "reverse" = 0 /\ part_of halfway CR = (/ 2)%R /\
  (forall c, usual halfway c /\ param halfway "gamma" c = f32_one /\ (process halfway c = 0 \/ process halfway c = 1)) /\
  modest (f32_of_Z 2) /\ grade_line halfway CR 2 = 7%R.
Proof.
  assert (PZ : forall c, param halfway "black_point" c = f32_of_Z 0 /\ param halfway "white_point" c = f32_of_Z 1 /\
    param halfway "lift" c = f32_of_Z 0 /\ param halfway "gain" c = f32_of_Z (match c with CR => 3 | _ => 1 end) /\
    param halfway "multiply" c = f32_of_Z 1 /\ param halfway "offset" c = f32_of_Z (match c with CR => 1 | _ => 0 end)).
  { intros []; repeat split; vm_compute; reflexivity. }
  assert (RZ : forall z, (Z.abs z <= 1000) -> R32 (f32_of_Z z) = IZR z).
  { intros z H. destruct (small_real z ltac:(lia)) as (_ & _ & E). exact E. }
  split; [left; vm_compute; discriminate|]. split; [reflexivity|]. split; [reflexivity|].
  split. { unfold part_of. change (process halfway CR) with 1. cbn [Z.eqb].
    assert (E : f32_of_bits (vf halfway "mix") = S754_finite false 8388608 (-24)) by (vm_compute; reflexivity).
    rewrite E. unfold R32, SF2R, F2R. cbn. lra. }
  split.
  { intros c. destruct (PZ c) as (A1 & A2 & A3 & A4 & A5 & A6). split; [split|split].
    - repeat apply Forall_cons; try apply Forall_nil; rewrite ?A1, ?A2, ?A3, ?A4, ?A5, ?A6; apply modest_Z; destruct c; cbn; lia.
    - unfold number. rewrite A1, A2, !RZ by (cbn; lia). rewrite Rabs_pos_eq by lra. lra.
    - destruct c; vm_compute; reflexivity.
    - destruct c; vm_compute; auto. }
  split; [apply modest_Z; cbn; lia|].
  destruct (PZ CR) as (A1 & A2 & A3 & A4 & A5 & A6). unfold grade_line, line_slope, number. rewrite A1, A2, A3, A4, A5, A6, !RZ by (cbn; lia). lra.
Qed.

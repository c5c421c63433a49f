(** Where a transform takes a point, in exact numbers. *)
From Coq Require String.
Import String.StringSyntax.
From Coq Require Import Reals Floats.SpecFloat.
From Verif Require Import Machine FloatModel FloatReal AttrModel StreamModel DeformModel BBoxModel PixelModel MergeSpec BakeSpec LineSpec RemapSpec.
Local Open Scope string_scope.
Local Open Scope R_scope.

(** The number a setting holds. *)
Definition setting (v : vals) (name : String.string) : R := R32 (f32_of_bits (vf v name)).
(** A translation as part of the window's width, counted from its left edge. *)
Definition width_part (v : vals) (name : String.string) (win : bboxf) : R :=
  (setting v name - R32 (fmin_x win)) / (R32 (fmax_x win) - R32 (fmin_x win)).

(** Scale and turn about the pivot, then translate. [C] and [S] are cosine and
    sine of the turn. *)
Definition placed_x (v : vals) (C S : R) (win : bboxf) (x y : R) : R :=
  setting v "pivot_x" + (C * (setting v "scale_x" * (x - setting v "pivot_x")) - S * (setting v "scale_y" * (y - setting v "pivot_y"))) +
  width_part v "translate_x" win.
Definition placed_y (v : vals) (C S : R) (win : bboxf) (x y : R) : R :=
  setting v "pivot_y" + (S * (setting v "scale_x" * (x - setting v "pivot_x")) + C * (setting v "scale_y" * (y - setting v "pivot_y"))) +
  width_part v "translate_y" win.
(** How large the terms are. *)
Definition reach_x (v : vals) (C S : R) (win : bboxf) (x y : R) : R :=
  Rabs (setting v "pivot_x") + Rabs (C * (setting v "scale_x" * (x - setting v "pivot_x"))) +
  Rabs (S * (setting v "scale_y" * (y - setting v "pivot_y"))) + Rabs (width_part v "translate_x" win).
Definition reach_y (v : vals) (C S : R) (win : bboxf) (x y : R) : R :=
  Rabs (setting v "pivot_y") + Rabs (S * (setting v "scale_x" * (x - setting v "pivot_x"))) +
  Rabs (C * (setting v "scale_y" * (y - setting v "pivot_y"))) + Rabs (width_part v "translate_y" win).

(** Numbers below a million in every setting and in the window, which has a width. *)
Definition usual_transform (v : vals) (win : bboxf) : Prop :=
  Forall (fun n => modest (f32_of_bits (vf v n)))
    ["translate_x"; "translate_y"; "rotate_center_x"; "rotate_center_y"; "scale_x"; "scale_y"; "pivot_x"; "pivot_y"] /\
  modest (fmin_x win) /\ modest (fmax_x win) /\ / 2 ^ 20 <= Rabs (R32 (fmax_x win) - R32 (fmin_x win)).

(** The turn in radians, and what the numeric library makes of it. *)
Definition radians (v : vals) : f32 := f32_div (f32_mul (f32_of_bits (vf v "rotate")) f32_pi) (f32_of_Z 180).
Definition fair_turn (nx : numerics) (v : vals) : Prop :=
  plain_value (nx_cos nx (radians v)) /\ Rabs (R32 (nx_cos nx (radians v))) <= 1 /\
  plain_value (nx_sin nx (radians v)) /\ Rabs (R32 (nx_sin nx (radians v))) <= 1.

(** The matrix that moves by [(A, B)], zeros of either sign. *)
Definition shift_entry (A B : R) (i j : nat) : R :=
  match i, j with
  | 0%nat, 3%nat => A
  | 1%nat, 3%nat => B
  | _, _ => if Nat.eqb i j then 1 else 0
  end.
Definition shift_matrix (m : mat4) (A B : R) : Prop :=
  forall i j, (i < 4)%nat -> (j < 4)%nat -> plain_value (mat m i j) /\ R32 (mat m i j) = shift_entry A B i j.

(** What is assumed of the numeric library for transforms that only translate. *)
Definition exact_shifts (nx : numerics) : Prop :=
  nx_cos nx (S754_zero false) = f32_one /\ nx_sin nx (S754_zero false) = S754_zero false /\
  forall m A B, shift_matrix m A B ->
    match nx_inverse nx m with Some m' => shift_matrix m' (- A) (- B) | None => True end.

(** A transform that only translates, by at most half of a width [w]. *)
Definition only_translates (v : vals) (w : Z) : Prop :=
  vi v "invert" = 0%Z /\ vf v "rotate" = 0%Z /\ vf v "scale_x" = 1065353216%Z /\ vf v "scale_y" = 1065353216%Z /\
  (forall n, In n ["translate_x"; "translate_y"; "rotate_center_x"; "rotate_center_y"; "pivot_x"; "pivot_y"] ->
     plain_value (f32_of_bits (vf v n)) /\ Rabs (setting v n) <= 2 ^ 16) /\
  Rabs (setting v "translate_x") <= IZR w / 2 /\ Rabs (setting v "translate_y") <= IZR w / 2.

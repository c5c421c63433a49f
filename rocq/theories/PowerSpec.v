(** Grades with any gamma, in exact numbers. *)
From Coq Require String.
Import String.StringSyntax.
From Coq Require Import Reals Floats.SpecFloat.
From Verif Require Import Machine FloatModel FloatReal AttrModel StreamModel MergeSpec BakeSpec LineSpec.
Local Open Scope string_scope.
Local Open Scope R_scope.

(** [powf] raises to the power [g] with a relative error of at most [k] units
    of rounding, where the result is neither tiny nor huge. *)
Definition accurate (powf : f32 -> f32 -> f32) (k : R) (g : f32) : Prop :=
  forall u, plain_value u -> 0 < R32 u -> / 2 ^ 100 <= Rpower (R32 u) (R32 g) <= 2 ^ 100 ->
  plain_value (powf u g) /\ Rabs (R32 (powf u g) - Rpower (R32 u) (R32 g)) <= k * / 2 ^ 24 * Rpower (R32 u) (R32 g).

(** The line, raised to one over gamma. *)
Definition gamma_curve (o : vals) (c : colour) (x : R) : R := Rpower (grade_line o c x) (/ number o "gamma" c).

(** A value whose line is positive and not the small difference of large terms. *)
Definition clear_of_zero (o : vals) (c : colour) (x : R) : Prop :=
  / 2 ^ 20 <= grade_line o c x <= 2 ^ 20 /\ line_size o c x <= 2 ^ 10 * grade_line o c x.

(** How many units of rounding the curve may be off: the error of the line and
    that of one over gamma, both as they appear after raising to the power,
    and that of the power itself. *)
Definition curve_units (o : vals) (c : colour) (x k : R) : R :=
  (9 * (line_size o c x / grade_line o c x) + 2 * Rabs (ln (grade_line o c x))) / number o "gamma" c + 2 * k.

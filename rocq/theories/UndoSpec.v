(** A grade and the grade that reverses it. *)
From Coq Require String.
Import String.StringSyntax.
From Coq Require Import Reals Floats.SpecFloat.
From Verif Require Import Machine FloatModel FloatReal StreamModel MergeSpec GradeModel BakeSpec.
Local Open Scope string_scope.

(** An enabled grade, fully mixed, of gamma one, whose channels are processed
    or not. *)
Definition forward (o : vals) : Prop :=
  vi o "enable" = 1 /\ vi o "reverse" = 0 /\ f32_of_bits (vf o "mix") = f32_one /\ working o /\
  forall c, param o "gamma" c = f32_one /\ (process o c = 0 \/ process o c = 1).
(** The same settings with "reverse" on. *)
Definition reversed (o o' : vals) : Prop :=
  vi o' "reverse" = 1 /\ (forall name, name <> "reverse" -> vi o' name = vi o name) /\ forall name, vf o' name = vf o name.

(** The line a channel of gamma one is graded along: value times slope plus shift. *)
Definition slope_of (o : vals) (c : colour) : f32 :=
  f32_div (f32_mul (param o "multiply" c) (f32_sub (param o "gain" c) (param o "lift" c)))
          (f32_sub (param o "white_point" c) (param o "black_point" c)).
Definition shift_of (o : vals) (c : colour) : f32 :=
  f32_sub (f32_add (param o "offset" c) (param o "lift" c)) (f32_mul (slope_of o c) (param o "black_point" c)).
(** Slope between a millionth and a million, shift up to a million. *)
Definition moderate (o : vals) (c : colour) : Prop :=
  plain_value (slope_of o c) /\ plain_value (shift_of o c) /\
  (/ 2 ^ 20 <= Rabs (R32 (slope_of o c)) <= 2 ^ 20)%R /\ (Rabs (R32 (shift_of o c)) <= 2 ^ 20)%R.

(** A channel that is only raised to a power: slope one, shift zero. *)
Definition straight (o : vals) (c : colour) : Prop := slope_of o c = f32_one /\ exists s, shift_of o c = S754_zero s.
(** A channel that is also moved along a line. *)
Definition sloped (o : vals) (c : colour) : Prop := f32_eq (slope_of o c) f32_one = false \/ f32_eq (shift_of o c) f32_zero = false.
(** Two grades that differ in nothing but the gammas. *)
Definition but_gamma (o o' : vals) : Prop :=
  (forall name, vi o' name = vi o name) /\
  (forall name, ~ In name ["gamma_r"; "gamma_g"; "gamma_b"; "gamma_a"] -> vf o' name = vf o name).

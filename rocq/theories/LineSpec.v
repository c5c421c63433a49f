(** The line of a grade, in exact numbers. *)
From Coq Require String.
Import String.StringSyntax.
From Coq Require Import Reals Floats.SpecFloat.
From Verif Require Import Machine FloatModel FloatReal AttrModel StreamModel MergeSpec BakeSpec.
Local Open Scope string_scope.
Local Open Scope R_scope.

(** The number a parameter of a channel holds. *)
Definition number (o : vals) (stem : String.string) (c : colour) : R := R32 (param o stem c).

(** The black point goes to the lift, the white point to the gain, both times
    "multiply"; "offset" and the lift are added on top. *)
Definition line_slope (o : vals) (c : colour) : R :=
  number o "multiply" c * (number o "gain" c - number o "lift" c) / (number o "white_point" c - number o "black_point" c).
Definition grade_line (o : vals) (c : colour) (x : R) : R :=
  line_slope o c * (x - number o "black_point" c) + number o "offset" c + number o "lift" c.
(** How large the terms of the line are at a value. *)
Definition line_size (o : vals) (c : colour) (x : R) : R :=
  Rabs (line_slope o c) * (Rabs x + Rabs (number o "black_point" c)) + Rabs (number o "offset" c + number o "lift" c).

(** A number below a million. *)
Definition modest (v : f32) : Prop := plain_value v /\ Rabs (R32 v) <= 2 ^ 20.
(** Modest parameters, the white point apart from the black point. *)
Definition usual (o : vals) (c : colour) : Prop :=
  Forall (fun stem => modest (param o stem c)) ["black_point"; "white_point"; "lift"; "gain"; "multiply"; "offset"] /\
  / 2 ^ 20 <= Rabs (number o "white_point" c - number o "black_point" c).

(** The part of the grade a channel is given: all of "mix", or nothing. *)
Definition part_of (o : vals) (c : colour) : R := if Z.eqb (process o c) 0 then 0 else R32 (f32_of_bits (vf o "mix")).

(** The documented radial lens model (deformer/brownian.rs 79-91). *)
From Coq Require String.
Import String.StringSyntax.
From Coq Require Import Reals Floats.SpecFloat.
From Verif Require Import Machine FloatModel FloatReal AttrModel StreamModel.
Local Open Scope string_scope.
Local Open Scope R_scope.

(** xu = xd + (xd - xc) * (k1 * r^2 + k2 * r^4), and the same for y. *)
Definition documented (xc yc k1 k2 x y : R) : R * R :=
  let r2 := (x - xc) ^ 2 + (y - yc) ^ 2 in
  let k := k1 * r2 + k2 * r2 ^ 2 in
  (x + (x - xc) * k, y + (y - yc) * k).

(** The value of a field. *)
Definition field (v : vals) (n : String.string) : f32 := f32_of_bits (vf v n).

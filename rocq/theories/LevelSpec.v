(** What changing the number format of a picture is supposed to do to a value. *)
From Coq Require Import Reals Floats.SpecFloat.
From Verif Require Import Machine FloatModel FloatReal MergeSpec BakeSpec.
Local Open Scope R_scope.

(** A float as one of the levels 0 .. [n]: kept to the range, and less than one
    level below its value, hardly above. *)
Definition levelled (n : Z) (x : f32) (t : Z) : Prop :=
  (0 <= t <= n)%Z /\
  (x = S754_nan \/ f32_le x f32_zero = true -> t = 0%Z) /\
  (f32_le f32_one x = true -> t = n) /\
  (plain_value x -> 0 <= R32 x <= 1 -> IZR n * R32 x - 1 < IZR t <= IZR n * R32 x + IZR n / 2 ^ 24).

(** A level as a float. *)
Definition shade_of (n : Z) (t : Z) (x : f32) : Prop :=
  plain_value x /\ Rabs (R32 x - IZR t / IZR n) <= / 2 ^ 24.

(** Half floats have 11 bits, the least unit being 2^-24. *)
Definition is_half (h : f16) : Prop := SpecFloat.valid_binary 11 16 h = true.
(** A float as a half: the nearest there is, infinite from half a unit above the
    greatest (65504). *)
Definition nearest_half (x : f32) (h : f16) : Prop :=
  is_half h /\
  (f32_finite x -> Rabs (R32 x) < 65520 ->
     f32_finite h /\ forall y, is_half y -> f32_finite y -> Rabs (R32 h - R32 x) <= Rabs (R32 y - R32 x)) /\
  (f32_finite x -> 65520 <= R32 x -> h = S754_infinity false) /\
  (f32_finite x -> R32 x <= -65520 -> h = S754_infinity true) /\
  (~ f32_finite x -> h = x).

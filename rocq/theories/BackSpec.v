(** Undoing a transform by an inverted one, in exact numbers. *)
From Coq Require String.
Import String.StringSyntax.
From Coq Require Import Reals Floats.SpecFloat.
From Verif Require Import Machine FloatModel FloatReal AttrModel StreamModel DeformModel MergeSpec BakeSpec LineSpec MoveSpec.
Local Open Scope string_scope.
Local Open Scope R_scope.

(** Where a matrix takes a point of the plane. *)
Definition moved_x (m : mat4) (x y : R) : R := R32 (mat m 0 0) * x + R32 (mat m 0 1) * y + R32 (mat m 0 3).
Definition moved_y (m : mat4) (x y : R) : R := R32 (mat m 1 0) * x + R32 (mat m 1 1) * y + R32 (mat m 1 3).

(** The two rows that count hold numbers, those that count of at most [K]. *)
Definition tame (K : R) (m : mat4) : Prop :=
  forall i, (i < 2)%nat -> plain_value (mat m i 2) /\
    forall j, In j [0; 1; 3]%nat -> plain_value (mat m i j) /\ Rabs (R32 (mat m i j)) <= K.

(** [m'] takes points back to where they were before [m], up to the part [d] of
    their distance from the origin. *)
Definition takes_back (d : R) (m' m : mat4) : Prop :=
  forall x y, Rabs (moved_x m' (moved_x m x y) (moved_y m x y) - x) <= d * (Rabs x + Rabs y + 1) /\
              Rabs (moved_y m' (moved_x m x y) (moved_y m x y) - y) <= d * (Rabs x + Rabs y + 1).

(** The same settings but for the direction. *)
Definition reversed (v' v : vals) : Prop :=
  (forall n, vf v' n = vf v n) /\ (vi v "invert" <= 0 < vi v' "invert")%Z.

(** How far a point is from the pivot, and the pivot from the origin. *)
Definition off_pivot (v : vals) (x y : R) : R := Rabs (x - setting v "pivot_x") + Rabs (y - setting v "pivot_y") + 1.
Definition pivot_off (v : vals) : R := Rabs (setting v "pivot_x") + Rabs (setting v "pivot_y").

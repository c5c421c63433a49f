(** What a colour matrix is supposed to compute. *)
From Coq Require Import Reals Floats.SpecFloat.
From Verif Require Import Machine FloatModel FloatReal StreamModel GradeModel BakeSpec LineSpec.
Local Open Scope R_scope.

(** Red, green, blue, alpha of a pixel are 0, 1, 2, 3. *)
Definition comp (v : rgba) (k : nat) : f32 :=
  let '(r, g, b, a) := v in nth k [r; g; b; a] f32_zero.
Definition total (f : nat -> R) : R := f 0%nat + f 1%nat + f 2%nat + f 3%nat.

(** Row [i] of a matrix times a pixel, and the size of the four terms. *)
Definition product (m : mat4) (v : rgba) (i : nat) : R := total (fun j => R32 (mat m i j) * R32 (comp v j)).
Definition terms (m : mat4) (v : rgba) (i : nat) : R := total (fun j => Rabs (R32 (mat m i j) * R32 (comp v j))).

Definition multiplied (m : mat4) (v v' : rgba) : Prop :=
  forall i, (i < 4)%nat -> plain_value (comp v' i) /\
    Rabs (R32 (comp v' i) - product m v i) <= terms m v i / 4000000 + / 2 ^ 140.
(** RGB pictures count as opaque, alpha pictures as white. *)
Definition multiplied_rgb (m : mat4) (v v' : f32 * f32 * f32) : Prop :=
  let '(r, g, b) := v in let '(r', g', b') := v' in exists a', multiplied m (r, g, b, f32_one) (r', g', b', a').
Definition multiplied_alpha (m : mat4) (a a' : f32) : Prop :=
  exists r g b, multiplied m (f32_one, f32_one, f32_one, a) (r, g, b, a').

(** Numbers below a million. *)
Definition modest_matrix (m : mat4) : Prop := forall i j, (i < 4)%nat -> (j < 4)%nat -> modest (mat m i j).
Definition modest_pixel (v : rgba) : Prop := forall i, (i < 4)%nat -> modest (comp v i).
Definition modest_rgb (v : f32 * f32 * f32) : Prop := let '(r, g, b) := v in modest r /\ modest g /\ modest b.

(** The colours of a pixel multiplied after a matrix. *)
Definition scaled_by (m : mat4) (r g b a : f32) (v v' : rgba) : Prop :=
  forall i, (i < 4)%nat -> let s := R32 (comp (r, g, b, a) i) in
    plain_value (comp v' i) /\ Rabs (R32 (comp v' i) - s * product m v i) <= Rabs s * terms m v i / 3300000 + / 2 ^ 120.
Definition float_scaled (r g b a : f32) (v v' : rgba) : Prop :=
  forall i, (i < 4)%nat -> R32 (comp v' i) = R32 (f32_mul (comp (r, g, b, a) i) (comp v i)).

(** Model of src/math/colorxform.rs, which nothing in the crate calls. *)
From Verif Require Import Machine FloatModel StreamModel GradeModel DeformModel.

(** nalgebra [Matrix4::from_diagonal] *)
Definition diagonal4 (r g b a : f32) : mat4 :=
  let z := f32_zero in [r; z; z; z;  z; g; z; z;  z; z; b; z;  z; z; z; a].
(** colorxform.rs 25-35 *)
Definition apply_scale_rgba (input : mat4) (r g b a : f32) : mat4 := mat_mul (diagonal4 r g b a) input.

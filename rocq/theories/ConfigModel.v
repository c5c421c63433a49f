(** Model of src/config.rs 54-63. *)
From Coq Require Import Floats.SpecFloat.
From Verif Require Import Machine FloatModel.

(** config.rs 61-63 *)
Definition ram_capacity_percent (p : f32) : f32 :=
  f32_max (f32_min (f32_div p (f32_of_Z 100)) f32_zero) f32_one.

(** config.rs 54-59; [ram_bytes] is get_total_system_memory_as_bytes(), a u64. *)
Definition ram_capacity_bytes (ram_bytes : Z) (p : f32) : Z :=
  f32_as_u64 (f32_mul (f32_of_Z ram_bytes) (ram_capacity_percent p)).

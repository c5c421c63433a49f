(** IEEE-754 binary32 ("f32") and binary16 ("half::f16") values and the Rust
    operations on them, over the standard library's axiom-free [SpecFloat]
    (round to nearest, ties to even).  NaN payloads and NaN signs are not
    represented here; the properties about bit patterns use HashModel. *)
From Coq Require Import Floats.SpecFloat.
From Verif Require Import Machine.

Definition f32 : Type := spec_float.
Definition f16 : Type := spec_float.

Definition prec32 : Z := 24.
Definition emax32 : Z := 128.
Definition prec16 : Z := 11.
Definition emax16 : Z := 16.

Definition f32_add (x y : f32) : f32 := SFadd prec32 emax32 x y.
Definition f32_sub (x y : f32) : f32 := SFsub prec32 emax32 x y.
Definition f32_mul (x y : f32) : f32 := SFmul prec32 emax32 x y.
Definition f32_div (x y : f32) : f32 := SFdiv prec32 emax32 x y.
Definition f32_neg (x : f32) : f32 := SFopp x.

(** Rust [i as f32] (nearest, ties to even). *)
Definition f32_of_Z (n : Z) : f32 := binary_normalize prec32 emax32 n 0 false.

(** Rust comparisons: false when either operand is NaN. *)
Definition f32_lt (x y : f32) : bool := SFltb x y.
Definition f32_le (x y : f32) : bool := SFleb x y.
Definition f32_eq (x y : f32) : bool := SFeqb x y.

Definition is_nan_sf (x : spec_float) : bool := match x with S754_nan => true | _ => false end.

(** Rust [f32::min]/[f32::max]: the other operand when one is NaN. *)
Definition f32_min (x y : f32) : f32 :=
  if is_nan_sf x then y else if is_nan_sf y then x else if f32_lt y x then y else x.
Definition f32_max (x y : f32) : f32 :=
  if is_nan_sf x then y else if is_nan_sf y then x else if f32_lt x y then y else x.

(** Change of format: exact value rounded to the target format
    ([f16::from_f32], [f16::to_f32]). *)
Definition sf_convert (prec emax : Z) (x : spec_float) : spec_float :=
  match x with
  | S754_finite s m e => binary_normalize prec emax (cond_Zopp s (Zpos m)) e s
  | _ => x
  end.
Definition f16_of_f32 (x : f32) : f16 := sf_convert prec16 emax16 x.
Definition f32_of_f16 (x : f16) : f32 := sf_convert prec32 emax32 x.

(** Magnitude truncated towards zero / rounded half away from zero. *)
Definition mag_trunc (m : positive) (e : Z) : Z :=
  if 0 <=? e then Z.shiftl (Zpos m) e else Z.shiftr (Zpos m) (- e).
Definition mag_round (m : positive) (e : Z) : Z :=
  if 0 <=? e then Z.shiftl (Zpos m) e
  else Z.shiftr (Zpos m + Z.shiftl 1 (- e - 1)) (- e).

(** Rust [x as iN / uN] for lo..=hi : truncates, saturates, NaN gives 0. *)
Definition f_as_int (lo hi : Z) (x : spec_float) : Z :=
  match x with
  | S754_nan => 0
  | S754_zero _ => 0
  | S754_infinity s => if s then lo else hi
  | S754_finite s m e => Z.max lo (Z.min hi (cond_Zopp s (mag_trunc m e)))
  end.
Definition f32_as_u8 : f32 -> Z := f_as_int 0 255.
Definition f32_as_u16 : f32 -> Z := f_as_int 0 65535.
Definition f32_as_i32 : f32 -> Z := f_as_int (- two31) (two31 - 1).
Definition f32_as_u64 : f32 -> Z := f_as_int 0 (two64 - 1).

(** Rust [x.round() as i32]: half away from zero, then saturating. *)
Definition f32_round_as_i32 (x : f32) : Z :=
  match x with
  | S754_nan => 0
  | S754_zero _ => 0
  | S754_infinity s => if s then - two31 else two31 - 1
  | S754_finite s m e => Z.max (- two31) (Z.min (two31 - 1) (cond_Zopp s (mag_round m e)))
  end.

Definition f32_zero : f32 := S754_zero false.
Definition f32_one : f32 := f32_of_Z 1.
Definition f16_one : f16 := f16_of_f32 f32_one.

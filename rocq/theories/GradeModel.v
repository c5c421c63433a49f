(** Model of src/ops/colorgrade.rs, src/colorop/colorgrade.rs (application),
    src/ops/xformcolor.rs and src/coloroputils.rs.

    The pixel loops run over [pixels.len() / num_channels] whole pixels and
    leave a remainder alone; [map3] and [map4] are those loops. *)
From Coq Require String.
Import String.StringSyntax.
From Coq Require Import Floats.SpecFloat.
From Verif Require Import Machine FloatModel PixelModel AttrModel StreamModel.

Definition rgba := (f32 * f32 * f32 * f32)%type.

Fixpoint map3 (f : f32 -> f32 -> f32 -> f32 * f32 * f32) (l : list f32) : list f32 :=
  match l with
  | r :: g :: b :: t => let '(r, g, b) := f r g b in r :: g :: b :: map3 f t
  | rest => rest
  end.
Fixpoint map4 (f : rgba -> rgba) (l : list f32) : list f32 :=
  match l with
  | r :: g :: b :: a :: t =>
      let '(r, g, b, a) := f (r, g, b, a) in r :: g :: b :: a :: map4 f t
  | rest => rest
  end.

(** nalgebra [Matrix4 * Vector4]: columns are accumulated left to right. *)
Definition mat_row (m : mat4) (i : nat) (v : rgba) : f32 :=
  let '(x, y, z, w) := v in
  f32_add (f32_add (f32_add (f32_mul (mat m i 0) x) (f32_mul (mat m i 1) y))
                   (f32_mul (mat m i 2) z)) (f32_mul (mat m i 3) w).
Definition mat_vec (m : mat4) (v : rgba) : rgba :=
  (mat_row m 0 v, mat_row m 1 v, mat_row m 2 v, mat_row m 3 v).

(** xformcolor.rs 24-78: what [num_channels] decides for a per-pixel function. *)
Definition per_pixel (nc : Z) (f : rgba -> rgba) (pixels : list f32) : Res (list f32) :=
  if nc =? 1 then
    Ok (map (fun a => let '(_, _, _, a) := f (f32_one, f32_one, f32_one, a) in a) pixels)
  else if nc =? 3 then
    Ok (map3 (fun r g b => let '(r, g, b, _) := f (r, g, b, f32_one) in (r, g, b)) pixels)
  else if nc =? 4 then Ok (map4 f pixels)
  else Panic.

Definition apply_color_matrix (m : mat4) (nc : Z) (pixels : list f32) : Res (list f32) :=
  if nc <=? 0 then Panic else per_pixel nc (mat_vec m) pixels.

Section Grade.
(** f32::powf *)
Variable powf : f32 -> f32 -> f32.

(** colorgrade.rs 28-79 *)
Definition grade_single (pixel black_point white_point lift gain multiply offset gamma : f32)
    (reverse : bool) : f32 :=
  let a := f32_div (f32_mul multiply (f32_sub gain lift)) (f32_sub white_point black_point) in
  let b := f32_sub (f32_add offset lift) (f32_mul a black_point) in
  if negb reverse then powf (f32_add (f32_mul a pixel) b) (f32_div f32_one gamma)
  else
    let value :=
      if f32_le gamma f32_zero then (if f32_lt f32_zero pixel then f32_one else f32_zero)
      else if negb (f32_eq gamma f32_one) then
        (if f32_le pixel f32_zero then pixel
         else if f32_lt pixel f32_one then powf pixel gamma
         else f32_add f32_one (f32_mul (f32_sub pixel f32_one) gamma))
      else pixel in
    if negb (f32_eq a f32_one) || negb (f32_eq b f32_zero) then
      let a := if negb (f32_eq a f32_zero) then f32_div f32_one a else f32_one in
      let b := f32_mul (f32_neg b) a in
      f32_add (f32_mul pixel a) b
    else value.

(** The parameters of one channel. *)
Record channel := Channel {
  ch_black : f32; ch_white : f32; ch_lift : f32; ch_gain : f32;
  ch_multiply : f32; ch_offset : f32; ch_gamma : f32; ch_process : Z
}.
Definition grade_channel_value (c : channel) (reverse : bool) (pixel : f32) : f32 :=
  grade_single pixel (ch_black c) (ch_white c) (ch_lift c) (ch_gain c) (ch_multiply c)
    (ch_offset c) (ch_gamma c) reverse.

(** colorgrade.rs 152-157 and 178-183: blend by [process as f32 * mix]. *)
Definition masked (c : channel) (mix : f32) (reverse : bool) (pixel : f32) : f32 :=
  let mask := f32_mul (f32_of_Z (ch_process c)) mix in
  f32_add (f32_mul (grade_channel_value c reverse pixel) mask)
          (f32_mul pixel (f32_sub f32_one mask)).

(** colorgrade.rs 81-158 *)
Definition grade_pixel (cr cg cb ca : channel) (mix : f32) (reverse : bool) (v : rgba) : rgba :=
  let '(r, g, b, a) := v in
  (masked cr mix reverse r, masked cg mix reverse g, masked cb mix reverse b, masked ca mix reverse a).

Local Open Scope string_scope.
Definition op_channel (o : vals) (bp wp li ga mu off gm pr : string) : channel :=
  let f n := f32_of_bits (vf o n) in
  Channel (f bp) (f wp) (f li) (f ga) (f mu) (f off) (f gm) (vi o pr).
Definition op_r (o : vals) := op_channel o "black_point_r" "white_point_r" "lift_r" "gain_r"
  "multiply_r" "offset_r" "gamma_r" "process_r".
Definition op_g (o : vals) := op_channel o "black_point_g" "white_point_g" "lift_g" "gain_g"
  "multiply_g" "offset_g" "gamma_g" "process_g".
Definition op_b (o : vals) := op_channel o "black_point_b" "white_point_b" "lift_b" "gain_b"
  "multiply_b" "offset_b" "gamma_b" "process_b".
Definition op_a (o : vals) := op_channel o "black_point_a" "white_point_a" "lift_a" "gain_a"
  "multiply_a" "offset_a" "gamma_a" "process_a".

(** colorop/colorgrade.rs 213-277 with ops/colorgrade.rs 160-284; the division
    by a zero channel count cannot happen (coloroputils.rs 29 asserts). *)
Definition apply_grade (o : vals) (nc : Z) (pixels : list f32) : Res (list f32) :=
  let work := (vi o "enable" =? 1)
    && (negb (vi o "process_r" =? 0) || negb (vi o "process_g" =? 0)
        || negb (vi o "process_b" =? 0) || negb (vi o "process_a" =? 0)) in
  if negb work then Ok pixels else
  per_pixel nc (grade_pixel (op_r o) (op_g o) (op_b o) (op_a o) (f32_of_bits (vf o "mix"))
                  (negb (vi o "reverse" =? 0))) pixels.

Fixpoint apply_each {A} (f : A -> list f32 -> Res (list f32)) (l : list A) (buf : list f32)
  : Res (list f32) :=
  match l with
  | [] => Ok buf
  | x :: t => let* buf := f x buf in apply_each f t buf
  end.

(** coloroputils.rs 24-45 *)
Definition apply_color_ops (ops : list vals) (nc : Z) (pixels : list f32) : Res (list f32) :=
  if nc <=? 0 then Panic else
  apply_each (fun o => apply_grade o nc) (filter (fun o => vi o "enable" =? 1) ops) pixels.
End Grade.

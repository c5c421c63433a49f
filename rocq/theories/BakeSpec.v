(** Vocabulary for grading and baking. *)
From Coq Require String.
Import String.StringSyntax.
From Coq Require Import Floats.SpecFloat.
From Verif Require Import Machine FloatModel PixelModel AttrModel StreamModel GradeModel MergeSpec.
Local Open Scope string_scope.

(** Which channel element [k] of a pixel with [nc] channels is: one-channel
    images hold alpha. *)
Inductive colour := CR | CG | CB | CA.
Definition colour_of (nc k : nat) : colour :=
  if Nat.eqb nc 1 then CA else match k with 0 => CR | 1 => CG | 2 => CB | _ => CA end%nat.
Definition suffix (c : colour) : string := match c with CR => "_r" | CG => "_g" | CB => "_b" | CA => "_a" end.

(** A named parameter of a grade. *)
Definition param (o : vals) (stem : string) (c : colour) : f32 := f32_of_bits (vf o (String.append stem (suffix c))).
Definition process (o : vals) (c : colour) : Z := vi o (String.append "process" (suffix c)).

(** The grade formula for one value: a line and then a power.  In reverse only
    one of the two is undone: the power if the line changes nothing, otherwise the
    line. *)
Definition line_slope (o : vals) (c : colour) : f32 :=
  f32_div (f32_mul (param o "multiply" c) (f32_sub (param o "gain" c) (param o "lift" c)))
          (f32_sub (param o "white_point" c) (param o "black_point" c)).
Definition line_shift (o : vals) (c : colour) : f32 :=
  f32_sub (f32_add (param o "offset" c) (param o "lift" c)) (f32_mul (line_slope o c) (param o "black_point" c)).
Definition power_undone (powf : f32 -> f32 -> f32) (gamma v : f32) : f32 :=
  if f32_le gamma f32_zero then (if f32_lt f32_zero v then f32_one else f32_zero)
  else if f32_eq gamma f32_one || f32_le v f32_zero then v
  else if f32_lt v f32_one then powf v gamma
  else f32_add f32_one (f32_mul (f32_sub v f32_one) gamma).
Definition line_undone (a b v : f32) : f32 :=
  let a := if f32_eq a f32_zero then f32_one else f32_div f32_one a in
  f32_add (f32_mul v a) (f32_mul (f32_neg b) a).
Definition graded_value (powf : f32 -> f32 -> f32) (o : vals) (c : colour) (v : f32) : f32 :=
  let a := line_slope o c in let b := line_shift o c in let gamma := param o "gamma" c in
  if vi o "reverse" =? 0 then powf (f32_add (f32_mul a v) b) (f32_div f32_one gamma)
  else if f32_eq a f32_one && f32_eq b f32_zero then power_undone powf gamma v
  else line_undone a b v.

(** What one grade does to one value: a blend of the value and its grade. *)
Definition blended (powf : f32 -> f32 -> f32) (o : vals) (c : colour) (v : f32) : f32 :=
  let mask := f32_mul (f32_of_Z (process o c)) (f32_of_bits (vf o "mix")) in
  f32_add (f32_mul (graded_value powf o c v) mask) (f32_mul v (f32_sub f32_one mask)).

(** One enabled grade on one pixel; it does nothing if no channel is processed. *)
Definition working (o : vals) : Prop :=
  process o CR <> 0 \/ process o CG <> 0 \/ process o CB <> 0 \/ process o CA <> 0.
Definition workingb (o : vals) : bool :=
  negb (process o CR =? 0) || negb (process o CG =? 0) || negb (process o CB =? 0) || negb (process o CA =? 0).
Definition op_pixel (powf : f32 -> f32 -> f32) (o : vals) (v : rgba) : rgba :=
  let '(r, g, b, a) := v in
  if workingb o then (blended powf o CR r, blended powf o CG g, blended powf o CB b, blended powf o CA a) else v.

(** A colour matrix is sixteen numbers, row after row; each row is multiplied
    with the pixel and added up from the left. *)
Definition through (m : mat4) (v : rgba) : rgba :=
  let '(r, g, b, a) := v in
  let along x y z w := f32_add (f32_add (f32_add (f32_mul (nth x m f32_zero) r) (f32_mul (nth y m f32_zero) g))
                                        (f32_mul (nth z m f32_zero) b)) (f32_mul (nth w m f32_zero) a) in
  (along 0 1 2 3, along 4 5 6 7, along 8 9 10 11, along 12 13 14 15)%nat.

(** Everything that is pending on a stream, for one RGBA pixel: the colour
    matrix, then the enabled operations in order. *)
Definition pixel_meaning (powf : f32 -> f32 -> f32) (m : mat4) (ops : list vals) (v : rgba) : rgba :=
  fold_left (fun v o => if vi o "enable" =? 1 then op_pixel powf o v else v) ops (through m v).
(** RGB pixels: alpha counts as one at every step. *)
Definition opaque_step (f : rgba -> rgba) (v : f32 * f32 * f32) : f32 * f32 * f32 :=
  let '(r, g, b) := v in let '(r, g, b, _) := f (r, g, b, f32_one) in (r, g, b).
Definition rgb_meaning (powf : f32 -> f32 -> f32) (m : mat4) (ops : list vals) (v : f32 * f32 * f32) : f32 * f32 * f32 :=
  fold_left (fun v o => if vi o "enable" =? 1 then opaque_step (op_pixel powf o) v else v) ops
            (opaque_step (through m) v).

(** One-channel images hold alpha; the colours count as one at every step. *)
Definition alpha_step (f : rgba -> rgba) (a : f32) : f32 := let '(_, _, _, a) := f (f32_one, f32_one, f32_one, a) in a.
Definition alpha_meaning (powf : f32 -> f32 -> f32) (m : mat4) (ops : list vals) (a : f32) : f32 :=
  fold_left (fun a o => if vi o "enable" =? 1 then alpha_step (op_pixel powf o) a else a) ops (alpha_step (through m) a).

(** A buffer as a list of pixels. *)
Definition flat4 (l : list rgba) : list f32 := flat_map (fun '(r, g, b, a) => [r; g; b; a]) l.
Definition flat3 (l : list (f32 * f32 * f32)) : list f32 := flat_map (fun '(r, g, b) => [r; g; b]) l.

(** Finite canonical values. *)
Definition plain_value (v : f32) : Prop := f32_ok v /\ f32_finite v.

(** Model of the lens deformer as an object that owns a plug-in: how its
    parameters reach the plug-in and what happens when it is copied and used
    (src/deformer/tde4_classic.rs 39-56, 76-206, 208-300,
    src/deformer/ldpk_utils.rs 32-75, 154-205, 224-297, src/deformer.rs 33-56).
    The values are f32 bit patterns; the exact conversion to f64 is left out. *)
From Coq Require String.
Import String.StringSyntax.
From Coq Require Import Floats.SpecFloat.
From Verif Require Import Machine Loops FloatModel BBoxModel AttrModel StreamModel DeformModel.
Local Open Scope string_scope.
Notation string := String.string.

(** The C++ class OcgLdPluginBase (ldpk_utils.cpp) with internal state [L].
    Setters say whether they succeeded; the calculations may change the state
    (ldpk_utils.rs 35-40); [true] is distort, [false] undistort. *)
Record plugin (L : Type) := Plugin {
  pg_new : L;
  pg_set : L -> string -> Z -> option L;
  pg_init : L -> option L;
  pg_point : L -> bool -> f32 * f32 -> (f32 * f32) * L;
  pg_box : L -> bool -> bboxf -> bboxf * L }.
Arguments pg_new {L}. Arguments pg_set {L}. Arguments pg_init {L}.
Arguments pg_point {L}. Arguments pg_box {L}.

(** tde4_classic.rs 54-75: the deformer. *)
Record lens (L : Type) := Lens { ln_vals : vals; ln_plugin : L }.
Arguments Lens {L}. Arguments ln_vals {L}. Arguments ln_plugin {L}.

(** tde4_classic.rs 40-51 and the calls of 166-204 (the names without the
    terminating zero byte). *)
Definition parameters : list (string * string) :=
  [("tde4_focal_length_cm", "focal_length");
   ("tde4_filmback_width_cm", "film_back_width");
   ("tde4_filmback_height_cm", "film_back_height");
   ("tde4_pixel_aspect", "pixel_aspect");
   ("tde4_lens_center_offset_x_cm", "lens_center_offset_x");
   ("tde4_lens_center_offset_y_cm", "lens_center_offset_y");
   ("Distortion", "distortion");
   ("Anamorphic Squeeze", "anamorphic_squeeze");
   ("Curvature X", "curvature_x");
   ("Curvature Y", "curvature_y");
   ("Quartic Distortion", "quartic_distortion")].

Section Lens.
Context {L : Type}.
Variable P : plugin L.

(** tde4_classic.rs 166-204: each [unwrap] panics on failure. *)
Fixpoint set_all (v : vals) (ps : list (string * string)) (l : L) : Res L :=
  match ps with
  | [] => Ok l
  | (name, field) :: t =>
      match pg_set P l name (vf v field) with
      | Some l => set_all v t l
      | None => Panic
      end
  end.

(** tde4_classic.rs 165-206 followed by the [unwrap] of every caller
    (lens_distort.rs 164, deformer.rs 53). *)
Definition commit (d : lens L) : Res (lens L) :=
  let* l := set_all (ln_vals d) parameters (ln_plugin d) in
  match pg_init P l with Some l => Ok (Lens (ln_vals d) l) | None => Panic end.

(** lens_distort.rs 143-164 with the fields already copied: a new plug-in
    (tde4_classic.rs 101-103) is set up. *)
Definition make (v : vals) : Res (lens L) := commit (Lens v (pg_new P)).

(** deformer.rs 48-56: the derived clone makes a new plug-in
    (ldpk_utils.rs 58-63), then the data is committed again. *)
Definition clone (d : lens L) : Res (lens L) := commit (Lens (ln_vals d) (pg_new P)).

(** tde4_classic.rs 142-156, 272-300: one position. *)
Definition use_point (d : lens L) (win : bboxf) (inverse : bool) (xy : f32 * f32)
  : Res ((f32 * f32) * lens L) :=
  let (x, y) := xy in
  let v := ln_vals d in
  let xr := remap (fmin_x win) (fmax_x win) f32_zero f32_one x in
  let yr := remap (fmin_y win) (fmax_y win) f32_zero f32_one y in
  let* r :=
    (if vi v "direction" =? 0 then Ok (pg_point P (ln_plugin d) inverse (xr, yr))
     else if vi v "direction" =? 1 then Ok (pg_point P (ln_plugin d) (negb inverse) (xr, yr))
     else Panic) in
  Ok ((remap f32_zero f32_one (fmin_x win) (fmax_x win) (fst (fst r)),
       remap f32_zero f32_one (fmin_y win) (fmax_y win) (snd (fst r))), Lens v (snd r)).

(** tde4_classic.rs 208-268 *)
Definition use_box (d : lens L) (b win : bboxf) : Res (bboxf * lens L) :=
  let v := ln_vals d in
  let b' := BBoxF (remap (fmin_x win) (fmax_x win) f32_zero f32_one (fmin_x b))
                  (remap (fmin_y win) (fmax_y win) f32_zero f32_one (fmin_y b))
                  (remap (fmin_x win) (fmax_x win) f32_zero f32_one (fmax_x b))
                  (remap (fmin_y win) (fmax_y win) f32_zero f32_one (fmax_y b)) in
  let* q := (if vi v "direction" =? 0 then Ok (pg_box P (ln_plugin d) false b')
             else if vi v "direction" =? 1 then Ok (pg_box P (ln_plugin d) true b')
             else Panic) in
  let r := fst q in
  let two := f32_of_Z 2 in
  Ok (BBoxF (f32_sub (remap f32_zero f32_one (fmin_x win) (fmax_x win) (fmin_x r)) two)
            (f32_sub (remap f32_zero f32_one (fmin_y win) (fmax_y win) (fmin_y r)) two)
            (f32_add (remap f32_zero f32_one (fmin_x win) (fmax_x win) (fmax_x r)) two)
            (f32_add (remap f32_zero f32_one (fmin_y win) (fmax_y win) (fmax_y r)) two),
      Lens v (snd q)).

End Lens.

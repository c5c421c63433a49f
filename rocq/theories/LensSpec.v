(** What the lens plug-in should be told and how it may behave. *)
From Coq Require String.
Import String.StringSyntax.
From Coq Require Import Floats.SpecFloat.
From Verif Require Import Machine FloatModel AttrModel StreamModel DeformModel NodeModel LensModel.
Local Open Scope string_scope.

(** Where each parameter of the 3DE4 classic lens model comes from: an
    attribute of the node, or a fixed number of centimetres (30 mm lens, 36 mm
    by 24 mm film back) or ratio; the numbers as bits of an f32. *)
Inductive origin := Attribute (name : String.string) | Always (bits : Z).
Definition lens_parameters : list (String.string * origin) :=
  [("Distortion", Attribute "distortion");
   ("Quartic Distortion", Attribute "quartic_distortion");
   ("Anamorphic Squeeze", Attribute "anamorphic_squeeze");
   ("Curvature X", Attribute "curvature_x");
   ("Curvature Y", Attribute "curvature_y");
   ("tde4_lens_center_offset_x_cm", Attribute "lens_center_offset_x");
   ("tde4_lens_center_offset_y_cm", Attribute "lens_center_offset_y");
   ("tde4_focal_length_cm", Always 1077936128);
   ("tde4_filmback_width_cm", Always 1080452710);
   ("tde4_filmback_height_cm", Always 1075419546);
   ("tde4_pixel_aspect", Always 1065353216)].
Definition told (b : block) (o : origin) : Z :=
  match o with Attribute n => b_f32 b n | Always v => v end.

(** A plug-in that keeps the parameters it is given. *)
Record keeps_parameters {L} (P : plugin L) (get : L -> String.string -> option Z) : Prop := {
  kp_set : forall l n v l', pg_set P l n v = Some l' -> get l' n = Some v;
  kp_other : forall l n v l' m, pg_set P l n v = Some l' -> m <> n -> get l' m = get l m;
  kp_init : forall l l' m, pg_init P l = Some l' -> get l' m = get l m;
  kp_point : forall l w p m, get (snd (pg_point P l w p)) m = get l m;
  kp_box : forall l w b m, get (snd (pg_box P l w b)) m = get l m
}.

(** A plug-in whose answers do not change by asking: states that are [alike]
    answer the same, and asking leaves a state alike. *)
Record steady {L} (P : plugin L) (alike : L -> L -> Prop) : Prop := {
  sd_refl : forall l, alike l l;
  sd_point : forall l l' w p, alike l l' -> fst (pg_point P l w p) = fst (pg_point P l' w p);
  sd_box : forall l l' w b, alike l l' -> fst (pg_box P l w b) = fst (pg_box P l' w b);
  sd_after_point : forall l l' w p, alike l l' -> alike (snd (pg_point P l w p)) l';
  sd_after_box : forall l l' w b, alike l l' -> alike (snd (pg_box P l w b)) l'
}.

(** The lens deformers that come from one with the fields [v] by copying and
    using them in any order. *)
Inductive descends {L} (P : plugin L) (v : vals) : lens L -> Prop :=
| ds_made d : make P v = Ok d -> descends P v d
| ds_copied d d' : descends P v d -> clone P d = Ok d' -> descends P v d'
| ds_point d win inverse xy r d' :
    descends P v d -> use_point P d win inverse xy = Ok (r, d') -> descends P v d'
| ds_box d b win r d' : descends P v d -> use_box P d b win = Ok (r, d') -> descends P v d'.

(** The lens as the rest of the model sees it: a function of the fields. *)
Definition with_lens {L} (nx : numerics) (P : plugin L) : numerics :=
  Numerics (nx_powf nx) (nx_cos nx) (nx_sin nx) (nx_inverse nx)
    (fun v w p => match make P v with Ok d => fst (pg_point P (ln_plugin d) w p) | Panic => p end)
    (fun v w b => match make P v with Ok d => fst (pg_box P (ln_plugin d) w b) | Panic => b end).

(** The answer without the changed deformer. *)
Definition answer {A B} (r : Res (A * B)) : Res A :=
  match r with Ok (a, _) => Ok a | Panic => Panic end.

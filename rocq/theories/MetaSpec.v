(** What a file says about its pixels, besides the pixels. *)
From Coq Require String.
Import String.StringSyntax.
From Verif Require Import Machine EnumModel AttrModel StreamModel GraphModel HashModel NodeModel NodeSpec FileModel.
Local Open Scope string_scope.

(** Everything but the name of the colour space: gamma, pixel aspect ratio,
    orientation, whether colours were not multiplied by alpha, dithering. *)
Definition about (s : image_spec) : Z * Z * Z * bool * Z :=
  (sp_gamma s, sp_pixel_aspect s, sp_orientation s, sp_unassociated_alpha s, sp_dither s).

(** Where the first stored row and the first stored column belong in the
    picture. *)
Inductive side := Top | Bottom | AtLeft | AtRight.

(** The "Orientation" of files (Exif tag 274, OpenImageIO "Standard metadata"):
    eight codes from 1. *)
Definition stored_as (code : Z) : option (side * side) :=
  match code with
  | 1 => Some (Top, AtLeft) | 2 => Some (Top, AtRight) | 3 => Some (Bottom, AtRight) | 4 => Some (Bottom, AtLeft)
  | 5 => Some (AtLeft, Top) | 6 => Some (AtRight, Top) | 7 => Some (AtRight, Bottom) | 8 => Some (AtLeft, Bottom)
  | _ => None
  end.

(** The library's names for them, as documented at their declaration
    (cxxbridge.rs 376-414). *)
Definition named_as (o : e_orient) : option (side * side) :=
  match o with
  | OrNormal => Some (Top, AtLeft) | OrFlippedH => Some (Top, AtRight)
  | OrRot180 => Some (Bottom, AtRight) | OrFlippedV => Some (Bottom, AtLeft)
  | OrTransposed => Some (AtLeft, Top) | OrRot90CW => Some (AtRight, Top)
  | OrTransverse => Some (AtRight, Bottom) | OrRot90CCW => Some (AtLeft, Bottom)
  | OrUninitialized => None
  end.

(** The picture says it is stored the way the code says. *)
Definition oriented (s : image_spec) (code : Z) : Prop :=
  exists o, orient_code o = sp_orientation s /\ named_as o = stored_as code.

(** The node passes its first input on; an image it bakes is not yet cached. *)
Definition passes {D} (n : node) (h : Z) (w : world D) : Prop :=
  match nd_type n with
  | TRead | TMerge => False
  | TWrite => b_i32 (nd_attrs n) "enable" <> 0
  | TViewer => b_i32 (nd_attrs n) "enable" = 1 /\ misses w h
  | _ => True
  end.

(** [s'] is computed from [s] by some nodes in a row, each as the first input
    of the next, with whatever other inputs, frames and cache contents. *)
Inductive in_a_row {D} (p : profile) (x : externals D) : stream -> stream -> Prop :=
| row_start : forall s, in_a_row p x s s
| row_next : forall s s1 s2 n fr mode rest out (w : world D) h n' st w',
    in_a_row p x s s1 ->
    cache_hash p (x_expand x) (x_digest x) (nd_type n) (nd_attrs n) fr (map st_hash (s1 :: rest)) = Ok h ->
    passes n h w -> node_compute p x n fr mode (s1 :: rest) out w = Ok (n', st, s2, w') ->
    in_a_row p x s s2.

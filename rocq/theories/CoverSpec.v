(** Where deformers carry the points of a picture, and what is assumed of a lens
    plug-in's bounding boxes. *)
From Coq Require String.
Import String.StringSyntax.
From Coq Require Import Reals Floats.SpecFloat.
From Verif Require Import Machine FloatModel FloatReal BBoxModel AttrModel StreamModel DeformModel BakeSpec.
Local Open Scope string_scope.
Local Open Scope R_scope.

(** Where a list of deformers, one after the other, carries a position. *)
Fixpoint carried (nx : numerics) (display : bbox) (ds : list deformer) (q : f32 * f32) : Res (f32 * f32) :=
  match ds with
  | [] => Ok q
  | d :: t => let* q := deform_point nx d (bboxf_of display) false q in carried nx display t q
  end.

(** A finite position within a box; [slack_x] and [slack_y] tell how far
    outside it may be. *)
Definition plain_box (b : bboxf) : Prop :=
  plain_value (fmin_x b) /\ plain_value (fmin_y b) /\ plain_value (fmax_x b) /\ plain_value (fmax_y b).
Definition within (slack_x slack_y : R) (b : bboxf) (q : f32 * f32) : Prop :=
  plain_value (fst q) /\ plain_value (snd q) /\
  R32 (fmin_x b) - slack_x <= R32 (fst q) <= R32 (fmax_x b) + slack_x /\
  R32 (fmin_y b) - slack_y <= R32 (snd q) <= R32 (fmax_y b) + slack_y.

(** A display window of up to 131072 pixels either way, near the origin. *)
Definition usual_display (d : bbox) : Prop :=
  (- 65536 <= min_x d < max_x d)%Z /\ (max_x d <= 65536)%Z /\ (- 65536 <= min_y d < max_y d)%Z /\ (max_y d <= 65536)%Z.

(** The coordinates of a box are at most [k]. *)
Definition box_up_to (k : R) (b : bboxf) : Prop :=
  Rabs (R32 (fmin_x b)) <= k /\ Rabs (R32 (fmin_y b)) <= k /\ Rabs (R32 (fmax_x b)) <= k /\ Rabs (R32 (fmax_y b)) <= k.
(** One pixel of the display, where the display is the unit square. *)
Definition pixel_x (d : bbox) : R := / IZR (max_x d - min_x d).
Definition pixel_y (d : bbox) : R := / IZR (max_y d - min_y d).

(** What is assumed of the plug-in set up with [v], where the display is the
    unit square: for a box that reaches up to three pixels beyond [a], a box
    that reaches up to [b] and holds, up to a pixel, every point of the given
    box. *)
Definition boxes_hold (nx : numerics) (display : bbox) (v : vals) (distort : bool) (a b : R) : Prop :=
  forall box q, plain_box box -> within 0 0 box q -> box_up_to (a + 3 * pixel_x display + 3 * pixel_y display) box ->
    let r := nx_lens_box nx v distort box in
    let q' := nx_lens nx v distort q in
    plain_box r /\ box_up_to b r /\ within (pixel_x display) (pixel_y display) r q' /\
    Rabs (R32 (fst q')) <= b /\ Rabs (R32 (snd q')) <= b.

(** Lens deformers that are on, the first of which meets boxes that reach up to
    [a], each in one of its two directions. *)
Fixpoint fair_lenses (nx : numerics) (display : bbox) (a : R) (ds : list deformer) : Prop :=
  match ds with
  | [] => True
  | d :: t => exists v b distort, d = DTde4 v /\ vi v "enable" = 1%Z /\
      vi v "direction" = (if distort : bool then 1 else 0)%Z /\
      boxes_hold nx display v distort a b /\ 0 <= b <= 8 /\ fair_lenses nx display b t
  end.

(** A window lies within [a] times the display's size from its corner. *)
Definition reaches (display win : bbox) (a : R) : Prop :=
  let w := IZR (max_x display - min_x display) in
  let h := IZR (max_y display - min_y display) in
  Rabs (IZR (min_x win - min_x display)) <= a * w /\ Rabs (IZR (max_x win - min_x display)) <= a * w /\
  Rabs (IZR (min_y win - min_y display)) <= a * h /\ Rabs (IZR (max_y win - min_y display)) <= a * h.

(** A position within a window of whole pixels. *)
Definition inside (w : bbox) (q : f32 * f32) : Prop :=
  IZR (min_x w) <= R32 (fst q) <= IZR (max_x w) /\ IZR (min_y w) <= R32 (snd q) <= IZR (max_y w).

(** What is assumed of a lens plug-in whose two directions undo each other. *)
From Coq Require String.
Import String.StringSyntax.
From Coq Require Import Reals Floats.SpecFloat.
From Verif Require Import Machine FloatModel FloatReal BBoxModel AttrModel StreamModel DeformModel BakeSpec.
Local Open Scope string_scope.
Local Open Scope R_scope.

(** A display whose edges are at most [side] pixels from the origin. *)
Definition near_display (side : R) (d : bbox) : Prop :=
  (min_x d < max_x d)%Z /\ (min_y d < max_y d)%Z /\
  Rabs (IZR (min_x d)) <= side /\ Rabs (IZR (max_x d)) <= side /\ Rabs (IZR (min_y d)) <= side /\ Rabs (IZR (max_y d)) <= side.

(** A finite point at most [k] from the corner of the unit square. *)
Definition unit_point (k : R) (u : f32 * f32) : Prop :=
  plain_value (fst u) /\ plain_value (snd u) /\ Rabs (R32 (fst u)) <= k /\ Rabs (R32 (snd u)) <= k.

(** Two points of the unit square are at most [d] pixels of the display apart,
    across and up. *)
Definition apart (display : bbox) (d : R) (u u' : f32 * f32) : Prop :=
  Rabs (R32 (fst u) - R32 (fst u')) * IZR (max_x display - min_x display) <= d /\
  Rabs (R32 (snd u) - R32 (snd u')) * IZR (max_y display - min_y display) <= d.

(** Near the display the plug-in set up with [v] takes back in one direction
    what it does in the other, up to [err] pixels, and on the way back stretches
    distances at most [k] times. *)
Definition takes_back (nx : numerics) (display : bbox) (v : vals) (there : bool) (k err : R) : Prop :=
  (forall u, unit_point 7 u -> unit_point 7 (nx_lens nx v there u)) /\
  (forall u, unit_point 8 u -> unit_point 8 (nx_lens nx v (negb there) u)) /\
  (forall u, unit_point 7 u -> apart display err (nx_lens nx v (negb there) (nx_lens nx v there u)) u) /\
  (forall u u' d, unit_point 8 u -> unit_point 8 u' -> apart display d u u' ->
     apart display (k * d + err) (nx_lens nx v (negb there) u) (nx_lens nx v (negb there) u')).

(** A position at most six displays away from the corner of the display. *)
Definition around (display : bbox) (q : f32 * f32) : Prop :=
  plain_value (fst q) /\ plain_value (snd q) /\
  Rabs (R32 (fst q) - IZR (min_x display)) <= 6 * IZR (max_x display - min_x display) /\
  Rabs (R32 (snd q) - IZR (min_y display)) <= 6 * IZR (max_y display - min_y display).

(** Two positions at most [d] pixels apart, across and up. *)
Definition close_by (d : R) (q q' : f32 * f32) : Prop :=
  Rabs (R32 (fst q) - R32 (fst q')) <= d /\ Rabs (R32 (snd q) - R32 (snd q')) <= d.

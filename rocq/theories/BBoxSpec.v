(** Independent specification of pixel boxes: a box is the set of its pixels. *)
From Verif Require Import Machine BBoxModel.

Definition in_box (b : bbox) (x y : Z) : Prop :=
  min_x b <= x < max_x b /\ min_y b <= y < max_y b.

Definition in_boxb (b : bbox) (x y : Z) : bool :=
  (min_x b <=? x) && (x <? max_x b) && (min_y b <=? y) && (y <? max_y b).

Definition well_formed (b : bbox) : Prop := min_x b <= max_x b /\ min_y b <= max_y b.

Definition non_empty (b : bbox) : Prop := exists x y, in_box b x y.

(** Raster order: by row, then by column. *)
Definition raster_lt (p q : Z * Z) : Prop :=
  snd p < snd q \/ (snd p = snd q /\ fst p < fst q).

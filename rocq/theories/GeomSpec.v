(** What the index buffers of a plane must draw, in terms of grid points. *)
From Verif Require Import Machine Loops.

(** Vertex [i] of a grid with [dx] columns, as (column, row). *)
Definition grid_point (dx i : Z) : Z * Z := (i mod dx, i / dx).

(** Twice the signed area of a, b, c. *)
Definition area2 (a b c : Z * Z) : Z :=
  (fst b - fst a) * (snd c - snd a) - (snd b - snd a) * (fst c - fst a).

Definition scale (n : Z) (a : Z * Z) : Z * Z := (n * fst a, n * snd a).

(** The point q/n lies in the triangle a b c, given clockwise; [R] is [Z.le] or [Z.lt] for the closed
    triangle and its interior. *)
Definition inside (R : Z -> Z -> Prop) (n : Z) (q : Z * Z) (a b c : Z * Z) : Prop :=
  R 0 (area2 q (scale n b) (scale n a))
  /\ R 0 (area2 q (scale n c) (scale n b))
  /\ R 0 (area2 q (scale n a) (scale n c)).

(** Triangle [k] of an index buffer. *)
Definition triangle (dx : Z) (buf : list Z) (k : Z) (a b c : Z * Z) : Prop :=
  exists i j l, at_z buf (3 * k) = Some i /\ at_z buf (3 * k + 1) = Some j
    /\ at_z buf (3 * k + 2) = Some l
    /\ a = grid_point dx i /\ b = grid_point dx j /\ c = grid_point dx l.

(** Line [k] of an index buffer. *)
Definition line (dx : Z) (buf : list Z) (k : Z) (a b : Z * Z) : Prop :=
  exists i j, at_z buf (2 * k) = Some i /\ at_z buf (2 * k + 1) = Some j
    /\ a = grid_point dx i /\ b = grid_point dx j.

Definition on_grid (dx dy : Z) (a : Z * Z) : Prop := 0 <= fst a < dx /\ 0 <= snd a < dy.

(** An edge of the grid, in either direction. *)
Definition grid_edge (dx dy : Z) (a b : Z * Z) : Prop :=
  on_grid dx dy a /\ on_grid dx dy b
  /\ Z.abs (fst a - fst b) + Z.abs (snd a - snd b) = 1.

(** An edge on the outline of the grid. *)
Definition border_edge (dx dy : Z) (a b : Z * Z) : Prop :=
  grid_edge dx dy a b
  /\ ((fst a = fst b /\ (fst a = 0 \/ fst a = dx - 1))
      \/ (snd a = snd b /\ (snd a = 0 \/ snd a = dy - 1))).

(** Every index names a vertex. *)
Definition in_range (dx dy : Z) (buf : list Z) : Prop :=
  forall i v, at_z buf i = Some v -> 0 <= v < dx * dy.

(** The division counts for which the u32 index arithmetic is exact. *)
Definition index_space (dx dy : Z) : Prop :=
  1 <= dx /\ 1 <= dy /\ dx * dy + dx <= two32 /\ dx + dy <= two31.

(** C43: the index buffers of the image plane; C56: its vertices. *)
From Coq Require Import Reals Floats.SpecFloat.
From Flocq Require Import Core.Core.
From Verif Require Import Machine Loops FloatModel FloatReal GeomModel GeomSpec GeomProofs GeomProofs2 GeomReal.

(** A buffer of the advertised size is filled completely with indexes of
    existing vertices.  There are two triangles per face, all clockwise and of
    half a face's area; together they cover the plane and no two overlap. *)
Theorem C43_triangles : forall p g b,
  let dx := divisions_x g in let dy := divisions_y g in
  index_space dx dy -> buffer_size_tris p g = Ok (zlen b) ->
  exists out, fill_tris p g b = Ok out /\ zlen out = zlen b /\ in_range dx dy out
    /\ zlen out = 3 * (2 * ((dx - 1) * (dy - 1)))
    /\ (forall k u v w, triangle dx out k u v w -> area2 u v w = -1)
    /\ (2 <= dx -> 2 <= dy -> forall n x y, 0 < n -> 0 <= x <= n * (dx - 1) -> 0 <= y <= n * (dy - 1) ->
         exists k u v w, triangle dx out k u v w /\ inside Z.le n (x, y) u v w)
    /\ (forall n q k u v w k' u' v' w', 0 < n -> triangle dx out k u v w -> triangle dx out k' u' v' w' ->
         inside Z.lt n q u v w -> inside Z.lt n q u' v' w' -> k = k').
Proof. intros p g b dx dy S. exact (triangles_spec p g S b). Qed.
Print Assumptions C43_triangles.

(** Wire lines: exactly the edges of the grid. *)
Theorem C43_wire_lines : forall p g b,
  let dx := divisions_x g in let dy := divisions_y g in
  index_space dx dy -> buffer_size_wire p g = Ok (zlen b) ->
  exists out, fill_wire p g b = Ok out /\ zlen out = zlen b /\ in_range dx dy out
    /\ (forall k u v, line dx out k u v -> grid_edge dx dy u v)
    /\ (2 <= dx -> 2 <= dy -> forall u v, grid_edge dx dy u v -> exists k, line dx out k u v \/ line dx out k v u).
Proof. intros p g b dx dy S. exact (wire_spec p g S b). Qed.
Print Assumptions C43_wire_lines.

(** Border lines: exactly the edges of the outline, each drawn once. *)
Theorem C43_border_lines : forall p g b,
  let dx := divisions_x g in let dy := divisions_y g in
  index_space dx dy -> buffer_size_border p g = Ok (zlen b) ->
  exists out, fill_border p g b = Ok out /\ zlen out = zlen b /\ in_range dx dy out
    /\ (forall k u v, line dx out k u v -> border_edge dx dy u v)
    /\ (forall u v, border_edge dx dy u v -> exists k, line dx out k u v \/ line dx out k v u)
    /\ (2 <= dx -> 2 <= dy -> forall k k' u v, line dx out k u v -> line dx out k' u v \/ line dx out k' v u -> k = k').
Proof. intros p g b dx dy S. exact (border_spec p g S b). Qed.
Print Assumptions C43_border_lines.

(** The sizes are those of the buffers, and never panic. *)
Theorem C43_sizes : forall p g,
  let dx := divisions_x g in let dy := divisions_y g in
  index_space dx dy ->
  buffer_size_tris p g = Ok ((dy - 1) * ((dx - 1) * 6))
  /\ buffer_size_wire p g = Ok ((dy - 1) * ((dx - 1) * 8))
  /\ buffer_size_border p g = Ok (4 * (dx - 1) + 4 * (dy - 1)).
Proof. intros p g dx dy S. exact (conj (size_tris p g S) (conj (size_wire p g S) (size_border p g S))). Qed.
Print Assumptions C43_sizes.

Definition plane_of (dx dy : Z) : plane := Plane f32_zero f32_zero f32_one f32_one dx dy.

Example C43_example :
  index_space 3 2 /\ buffer_size_tris Debug (plane_of 3 2) = Ok (zlen (repeat 99 12))
  /\ fill_tris Debug (plane_of 3 2) (repeat 99 12) = Ok [0; 3; 4; 0; 4; 1; 1; 4; 5; 1; 5; 2]
  /\ fill_border Debug (plane_of 3 2) (repeat 99 12) = Ok [0; 3; 2; 5; 3; 4; 4; 5; 0; 1; 1; 2].
Proof. split; [unfold index_space, two31, two32; lia|]. split; [reflexivity|]. split; reflexivity. Qed.

(** Why the guard on the index space is there: with no division the counts
    underflow, and 65536 x 65536 vertices overflow the u32 arithmetic. *)
Theorem C43_zero_divisions_refuted :
  buffer_size_tris Debug (plane_of 0 2) = Panic
  /\ buffer_size_tris Release (plane_of 0 2) = Ok (6 * (two32 - 1)).
Proof. split; reflexivity. Qed.
Print Assumptions C43_zero_divisions_refuted.

Theorem C43_index_overflow_refuted :
  count_vertex_positions Release (plane_of 65536 65536) = Ok 0
  /\ count_vertex_positions Debug (plane_of 65536 65536) = Panic.
Proof. split; reflexivity. Qed.
Print Assumptions C43_index_overflow_refuted.

(* ------------------------------ C56 ------------------------------ *)

(** Texture coordinates: finite, within [0,1], and right up to 5 * 2^-24. *)
Theorem C56_texture_coordinates : forall p g,
  let dx := divisions_x g in let dy := divisions_y g in
  index_space dx dy -> divisions_ok dx -> divisions_ok dy ->
  forall b, buffer_size_uvs p g = Ok (zlen b) ->
  exists out, fill_uvs p g b = Ok out /\ zlen out = zlen b /\
    forall r c, 0 <= r < dy -> 0 <= c < dx -> exists u v,
      at_z out (2 * (r * dx + c)) = Some u /\ at_z out (2 * (r * dx + c) + 1) = Some v
      /\ fin32 u /\ fin32 v /\ (0 <= R32 u <= 1)%R /\ (0 <= R32 v <= 1)%R
      /\ (Rabs (R32 u - IZR c / IZR (dx - 1)) <= 3 * eps32)%R
      /\ (Rabs (R32 v - (1 - IZR r / IZR (dy - 1))) <= 5 * eps32)%R.
Proof. exact uvs_spec. Qed.
Print Assumptions C56_texture_coordinates.

(** Positions: finite and evenly spaced over the size of the plane, but around
    the negated centre. *)
Theorem C56_positions_partial : forall p g,
  let dx := divisions_x g in let dy := divisions_y g in
  index_space dx dy -> divisions_ok dx -> divisions_ok dy ->
  forall b, plain32 (size_x g) -> plain32 (size_y g) -> plain32 (center_x g) -> plain32 (center_y g) ->
  buffer_size_positions p g = Ok (zlen b) ->
  exists out, fill_positions p g b = Ok out /\ zlen out = zlen b /\
    forall r c, 0 <= r < dy -> 0 <= c < dx -> exists x y,
      at_z out (3 * (r * dx + c)) = Some x /\ at_z out (3 * (r * dx + c) + 1) = Some y
      /\ at_z out (3 * (r * dx + c) + 2) = Some f32_zero
      /\ fin32 x /\ fin32 y
      /\ (Rabs (R32 x - ((- (R32 (size_x g) / 2) + R32 (size_x g) * (IZR c / IZR (dx - 1))) - R32 (center_x g)))
         <= 16 * eps32 * (Rabs (R32 (size_x g)) + Rabs (R32 (center_x g))) + 8 * eta32)%R
      /\ (Rabs (R32 y - ((- (R32 (size_y g) / 2) + R32 (size_y g) * (IZR r / IZR (dy - 1))) - R32 (center_y g)))
         <= 16 * eps32 * (Rabs (R32 (size_y g)) + Rabs (R32 (center_y g))) + 8 * eta32)%R.
Proof. exact positions_spec. Qed.
Print Assumptions C56_positions_partial.

Definition plane_at (cx : Z) : plane :=
  Plane (f32_of_Z cx) f32_zero (f32_of_Z 2) (f32_of_Z 2) 2 2.

Example C56_example :
  index_space 2 2 /\ divisions_ok 2 /\ plain32 (f32_of_Z 2)
  /\ buffer_size_uvs Debug (plane_at 0) = Ok (zlen (repeat f32_zero 8))
  /\ fill_uvs Debug (plane_at 0) (repeat f32_zero 8)
     = Ok [f32_zero; f32_one; f32_one; f32_one; f32_zero; f32_zero; f32_one; f32_zero].
Proof.
  split; [unfold index_space, two31, two32; lia|]. split; [unfold divisions_ok; lia|].
  split; [|split; vm_compute; reflexivity].
  destruct (small_real 2 ltac:(lia)) as (V & F & E). split; [exact V|]. split; [exact F|].
  rewrite E, Rabs_pos_eq by (apply IZR_le; lia). change 2%R with (bpow radix2 1). apply bpow_le. lia.
Qed.

(** The plane of size 2 around x = 10 is built around x = -10. *)
Theorem C56_centre_refuted :
  exists y0 y1 y2 y3,
    fill_positions Debug (plane_at 10) (repeat f32_zero 12)
    = Ok [f32_of_Z (-11); y0; f32_zero; f32_of_Z (-9); y1; f32_zero;
          f32_of_Z (-11); y2; f32_zero; f32_of_Z (-9); y3; f32_zero].
Proof. eexists _, _, _, _. vm_compute. reflexivity. Qed.
Print Assumptions C56_centre_refuted.

(** With a single division the vertices are not numbers. *)
Theorem C56_single_division_refuted :
  fill_positions Release (plane_of 1 1) (repeat f32_zero 3) = Ok [S754_nan; S754_nan; f32_zero]
  /\ fill_uvs Release (plane_of 1 1) (repeat f32_zero 2) = Ok [S754_nan; S754_nan].
Proof. split; vm_compute; reflexivity. Qed.
Print Assumptions C56_single_division_refuted.

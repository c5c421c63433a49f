(** Model of src/bbox/bbox2di.rs, bbox2di/row.rs, bbox2di/row_iter.rs and
    bbox2di/rows_iter.rs.

    Simplification: i32 arithmetic is unbounded here; the results are those of
    the code whenever the extents fit in i32 (max - min < 2^31). *)
From Verif Require Import Machine.

(** src/cxxbridge.rs 69-74: struct BBox2Di (half-open box of pixels). *)
Record bbox : Type := BBox { min_x : Z; min_y : Z; max_x : Z; max_y : Z }.

(** bbox2di.rs 93-99 *)
Definition width (b : bbox) : Z := max_x b - min_x b.
Definition height (b : bbox) : Z := max_y b - min_y b.

(** bbox2di.rs 42-49 *)
Definition combine (a b : bbox) : bbox :=
  BBox (Z.min (min_x a) (min_x b)) (Z.min (min_y a) (min_y b))
       (Z.max (max_x a) (max_x b)) (Z.max (max_y a) (max_y b)).

(** bbox2di.rs 51-77 *)
Definition intersection (a b : bbox) : bbox :=
  if (min_x a >? max_x b) || (min_x b >? max_x a) || (min_y a >? max_y b) || (min_y b >? max_y a)
  then BBox 0 0 0 0
  else
    let x1 := Z.max (min_x a) (min_x b) in
    let x2 := Z.max x1 (Z.min (max_x a) (max_x b)) in
    let y1 := Z.max (min_y a) (min_y b) in
    let y2 := Z.max y1 (Z.min (max_y a) (max_y b)) in
    BBox x1 y1 x2 y2.

(** bbox2di.rs 83-87; Rust [/] truncates towards zero. *)
Definition center (b : bbox) : Z * Z :=
  (Z.quot (min_x b + max_x b) 2, Z.quot (min_y b + max_y b) 2).

(** bbox2di.rs 89-91: [(width * height) as u32] reduces modulo 2^32. *)
Definition area (b : bbox) : Z := (width b * height b) mod two32.

(** rows_iter.rs 26-29 and row.rs 25-28: iterator state is the next row
    number; an item is a row number. *)
Definition rows_next (b : bbox) (next_row : Z) : option (Z * Z) :=
  (* rows_iter.rs 41-52; [height() as usize] of a negative height is huge *)
  if next_row >=? i32_as_usize (height b) then None
  else Some (next_row, next_row + 1).

(** row_iter.rs 33-37 (start) and 44-52 (next): yields column coordinates. *)
Definition row_iter_new (b : bbox) : Z := min_x b.
Definition row_next (b : bbox) (index : Z) : option (Z * Z) :=
  if index >=? max_x b then None else Some (index, index + 1).

(** Draining an iterator for at most [fuel] steps ([for x in iter]); the
    boolean tells whether the iterator was exhausted. *)
Fixpoint drain (next : Z -> option (Z * Z)) (fuel : nat) (s : Z) : list Z * bool :=
  match fuel with
  | O => ([], false)
  | S fuel' =>
      match next s with
      | None => ([], true)
      | Some (item, s') =>
          let (l, fin) := drain next fuel' s' in (item :: l, fin)
      end
  end.

(** [for row in bbox.rows() { for x in row { visit(x, row) } }]: the row item
    carries only its index, the y coordinate is [min_y + row_index]. *)
Definition visit_box (b : bbox) (row_fuel col_fuel : nat) : list (Z * Z) :=
  flat_map
    (fun r => map (fun x => (x, min_y b + r)) (fst (drain (row_next b) col_fuel (row_iter_new b))))
    (fst (drain (rows_next b) row_fuel 0)).

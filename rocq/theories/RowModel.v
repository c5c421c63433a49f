(** Model of walking a picture row by row (src/pixelblock/pixelblock/row.rs,
    src/pixelblock/pixelblock.rs 304-312) and of the numbers of a box on
    machine integers (src/bbox/bbox2di.rs 83-99, src/bbox/bbox2di/row.rs). *)
From Verif Require Import Machine Loops FloatModel BBoxModel PixelModel MergeModel.

Section Rows.
Variable p : profile.

(** row.rs 42-49, usize arithmetic included; the slice is fetched last. *)
Definition picture_row (pb : pixelblock) (row : Z) : Res (list f32) :=
  let w := i32_as_usize (bs_w (pb_size pb)) in
  let nc := i32_as_usize (bs_nc (pb_size pb)) in
  let* stride := mul_u64 p w nc in
  let* first := mul_u64 p row stride in
  let* next := add_u64 p row 1 in
  let* last := mul_u64 p next stride in
  let* data := slice_f32 (pb_data pb) in
  subslice data first last.

(** row.rs 51-53 *)
Definition row_has_next (pb : pixelblock) (row : Z) : bool :=
  row <? i32_as_usize (bs_h (pb_size pb)).

(** row.rs 66-92: the state is the number of the next row, an item is a row
    number.  (The increment cannot overflow: the number is below 2^64.) *)
Definition picture_rows_next (pb : pixelblock) (next_row : Z) : option (Z * Z) :=
  if next_row >=? i32_as_usize (bs_h (pb_size pb)) then None
  else Some (next_row, next_row + 1).

(** [for row in picture.rows() { visit(row.as_slice()) }]: the slices, in
    order, for at most [fuel] rows; the boolean tells whether the iterator
    came to its end. *)
Fixpoint walk (pb : pixelblock) (fuel : nat) (next_row : Z) : Res (list (list f32) * bool) :=
  match fuel with
  | O => Ok ([], false)
  | S fuel' =>
      match picture_rows_next pb next_row with
      | None => Ok ([], true)
      | Some (row, next_row) =>
          let* s := picture_row pb row in
          let* (rest, fin) := walk pb fuel' next_row in
          Ok (s :: rest, fin)
      end
  end.

(** bbox2di.rs 83-87 on i32; [/] truncates towards zero. *)
Definition center_i32 (b : bbox) : Res (Z * Z) :=
  let* x := i32_of p (min_x b + max_x b) in
  let* y := i32_of p (min_y b + max_y b) in
  Ok (Z.quot x 2, Z.quot y 2).

(** bbox2di/row.rs 39-55 *)
Definition box_row_min (b : bbox) : Z := min_x b.
Definition box_row_max (b : bbox) : Z := max_x b.
Definition box_row_len (b : bbox) : Res Z :=
  let* w := width_i32 p b in Ok (i32_as_usize w).
(** The row number is compared with the length of the row. *)
Definition box_row_has_next (b : bbox) (row : Z) : Res bool :=
  let* n := box_row_len b in Ok (row <? n).
End Rows.

(** pixelblock/pixelblock/index.rs 33-40 *)
Definition bi_new (b : blocksize) : blockindex :=
  BI 0 (i32_as_usize (bs_w b)) (i32_as_usize (bs_h b)) (i32_as_usize (bs_nc b)).

(** Model of src/geom/plane.rs. *)
From Coq Require Import Floats.SpecFloat.
From Verif Require Import Machine Loops FloatModel.

(** u32 arithmetic: overflow panics in debug, wraps in release. *)
Definition in_u32 (z : Z) : bool := (0 <=? z) && (z <? two32).
Definition u32_of (p : profile) (z : Z) : Res Z :=
  if in_u32 z then Ok z else match p with Debug => Panic | Release => Ok (z mod two32) end.

(** plane.rs 25-33 *)
Record plane := Plane {
  center_x : f32; center_y : f32; size_x : f32; size_y : f32;
  divisions_x : Z; divisions_y : Z
}.

Section Plane.
Variable p : profile.
Variable g : plane.
Local Notation dx := (divisions_x g).
Local Notation dy := (divisions_y g).

(** plane.rs 102-104 *)
Definition count_vertex_positions : Res Z := u32_of p (dx * dy).
(** plane.rs 106-108 *)
Definition count_vertex_uvs : Res Z := count_vertex_positions.
(** plane.rs 110-114 *)
Definition buffer_size_positions : Res Z :=
  let* n := count_vertex_positions in mul_u64 p n 3.
(** plane.rs 116-120 *)
Definition buffer_size_uvs : Res Z :=
  let* n := count_vertex_uvs in mul_u64 p n 2.
(** plane.rs 122-127 *)
Definition buffer_size_tris : Res Z :=
  let* a := u32_of p (dx - 1) in
  let* b := u32_of p (dy - 1) in
  let* n := u32_of p (a * b) in
  mul_u64 p 6 n.
(** plane.rs 129-134 *)
Definition buffer_size_border : Res Z :=
  let* a := u32_of p (dx - 1) in
  let* a := u32_of p (a * 2) in
  let* b := u32_of p (dy - 1) in
  let* b := u32_of p (b * 2) in
  let* n := u32_of p (a + b) in
  mul_u64 p 2 n.
(** plane.rs 136-141 *)
Definition buffer_size_wire : Res Z :=
  let* a := u32_of p (dx - 1) in
  let* b := u32_of p (dy - 1) in
  let* n := u32_of p (a * b) in
  mul_u64 p 8 n.

(** plane.rs 143-149: top left, bottom left, top right, bottom right. *)
Definition get_indexes (row col : Z) : Res (Z * Z * Z * Z) :=
  let* a := u32_of p (row * dx) in
  let* tl := u32_of p (a + col) in
  let* bl := u32_of p (tl + dx) in
  let* tr := u32_of p (tl + 1) in
  let* br := u32_of p (bl + 1) in
  Ok (tl, bl, tr, br).

(** [buffer[index + 0] = ..; buffer[index + 1] = ..; ...; index += n].  The
    usize additions cannot overflow: a written index is below the length of
    the slice. *)
Fixpoint put {A : Type} (items : list A) (st : list A * Z) : Res (list A * Z) :=
  match items with
  | [] => Ok st
  | a :: t => let* b := set_idx (fst st) (snd st) a in put t (b, snd st + 1)
  end.

(** math/interp.rs 27-30 *)
Definition lerp (lo hi mix : f32) : f32 :=
  f32_add (f32_mul (f32_sub f32_one mix) lo) (f32_mul mix hi).

(** 1.0 / ((divisions - 1) as f32), plane.rs 158-159 and 178-179 *)
Definition square_size (d : Z) : Res f32 :=
  let* n := u32_of p (d - 1) in Ok (f32_div f32_one (f32_of_Z n)).

(** The vertex of a row and column: plane.rs 162-168 *)
Definition vertex_position (sx sy : f32) (row col : Z) : list f32 :=
  let max_x := f32_div (size_x g) (f32_of_Z 2) in
  let min_x := f32_neg max_x in
  let max_y := f32_div (size_y g) (f32_of_Z 2) in
  let min_y := f32_neg max_y in
  let x := f32_mul (f32_of_Z col) sx in
  let y := f32_mul (f32_of_Z row) sy in
  [f32_sub (lerp min_x max_x x) (center_x g); f32_sub (lerp min_y max_y y) (center_y g); f32_zero].

(** plane.rs 152-173 *)
Definition fill_positions (buffer : list f32) : Res (list f32) :=
  let* sx := square_size dx in
  let* sy := square_size dy in
  let* st := for_range 0 dy (fun row st =>
    for_range 0 dx (fun col st => put (vertex_position sx sy row col) st) st) (buffer, 0) in
  Ok (fst st).

(** plane.rs 182-185 *)
Definition vertex_uv (sx sy : f32) (row col : Z) : list f32 :=
  [f32_mul (f32_of_Z col) sx;
   f32_add f32_one (f32_mul (f32_mul (f32_of_Z row) sy) (f32_of_Z (-1)))].

(** plane.rs 176-190 *)
Definition fill_uvs (buffer : list f32) : Res (list f32) :=
  let* sx := square_size dx in
  let* sy := square_size dy in
  let* st := for_range 0 dy (fun row st =>
    for_range 0 dx (fun col st => put (vertex_uv sx sy row col) st) st) (buffer, 0) in
  Ok (fst st).

(** plane.rs 193-214 *)
Definition fill_tris (buffer : list Z) : Res (list Z) :=
  let* ny := u32_of p (dy - 1) in
  let* st := for_range 0 ny (fun row st =>
    let* nx := u32_of p (dx - 1) in
    for_range 0 nx (fun col st =>
      let* (tl, bl, tr, br) := get_indexes row col in
      put [tl; bl; br; tl; br; tr] st) st) (buffer, 0) in
  Ok (fst st).

(** plane.rs 217-260 *)
Definition fill_border (buffer : list Z) : Res (list Z) :=
  let* ny := u32_of p (dy - 1) in
  let* st := for_range 0 ny (fun row st =>
    let* (tl, bl, _, _) := get_indexes row 0 in put [tl; bl] st) (buffer, 0) in
  let* right_column := u32_of p (dx - 1) in
  let* ny := u32_of p (dy - 1) in
  let* st := for_range 0 ny (fun row st =>
    let* (tl, bl, _, _) := get_indexes row right_column in put [tl; bl] st) st in
  let* top_row := u32_of p (dy - 1) in
  let* nx := u32_of p (dx - 1) in
  let* st := for_range 0 nx (fun col st =>
    let* (tl, _, tr, _) := get_indexes top_row col in put [tl; tr] st) st in
  let* nx := u32_of p (dx - 1) in
  let* st := for_range 0 nx (fun col st =>
    let* (tl, _, tr, _) := get_indexes 0 col in put [tl; tr] st) st in
  Ok (fst st).

(** plane.rs 263-289 (there the outer variable is called col, the inner row) *)
Definition fill_wire (buffer : list Z) : Res (list Z) :=
  let* ny := u32_of p (dy - 1) in
  let* st := for_range 0 ny (fun row st =>
    let* nx := u32_of p (dx - 1) in
    for_range 0 nx (fun col st =>
      let* (tl, bl, tr, br) := get_indexes row col in
      put [tl; bl; bl; br; br; tr; tr; tl] st) st) (buffer, 0) in
  Ok (fst st).
End Plane.

(** Model of src/geom.rs 20-67, [export_mesh]: a mesh as a Wavefront OBJ file.
    Text is a list of bytes. *)
From Verif Require Import Machine Loops FloatModel PathModel GeomModel.

(** "# This file uses centimeters as units for non-parametric coordinates." *)
Definition obj_header : list Z :=
  [35; 32; 84; 104; 105; 115; 32; 102; 105; 108; 101; 32; 117; 115; 101; 115; 32; 99; 101; 110; 116; 105; 109; 101; 116; 101; 114; 115; 32;
   97; 115; 32; 117; 110; 105; 116; 115; 32; 102; 111; 114; 32; 110; 111; 110; 45; 112; 97; 114; 97; 109; 101; 116; 114; 105; 99; 32;
   99; 111; 111; 114; 100; 105; 110; 97; 116; 101; 115; 46].
Definition nl : list Z := [10].
Definition sp : list Z := [32].

Section Obj.
Variable p : profile.
(** [Display] of f32 in the Rust standard library. *)
Variable show : f32 -> list Z.

(** geom.rs 34-42 *)
Definition obj_vertices (positions : list f32) (data : list Z) : Res (list Z) :=
  for_range 0 (zlen positions / 3) (fun i data =>
    let* x := idx positions (i * 3) in
    let* y := idx positions (i * 3 + 1) in
    let* z := idx positions (i * 3 + 2) in
    Ok (data ++ ([118; 32] ++ show x ++ sp ++ show y ++ sp ++ show z ++ nl))) data.

(** geom.rs 44-51 *)
Definition obj_uvs (uvs : list f32) (data : list Z) : Res (list Z) :=
  for_range 0 (zlen uvs / 2) (fun i data =>
    let* x := idx uvs (i * 2) in
    let* y := idx uvs (i * 2 + 1) in
    Ok (data ++ ([118; 116; 32] ++ show x ++ sp ++ show y ++ nl))) data.

(** [{0}/{0}] *)
Definition obj_corner (n : Z) : list Z := digits n ++ [47] ++ digits n.

(** geom.rs 53-65: [tri_index] is carried along. *)
Definition obj_faces (indices : list Z) (data : list Z) : Res (list Z) :=
  let* st := for_range 0 (zlen indices / 3) (fun _ st =>
    let '(data, t) := st in
    let* a := idx indices t in let* x := u32_of p (1 + a) in
    let* b := idx indices (t + 1) in let* y := u32_of p (1 + b) in
    let* c := idx indices (t + 2) in let* z := u32_of p (1 + c) in
    Ok (data ++ ([102; 32] ++ obj_corner x ++ sp ++ obj_corner y ++ sp ++ obj_corner z ++ nl), t + 3)) (data, 0) in
  Ok (fst st).

Definition obj_text (positions uvs : list f32) (indices : list Z) : Res (list Z) :=
  let* data := obj_vertices positions (obj_header ++ nl ++ nl) in
  let* data := obj_uvs uvs data in
  obj_faces indices data.

(** geom.rs 66-67: [std::fs::write(..).unwrap()]; [write] is the file system. *)
Definition export_mesh {D} (write : D -> list Z -> list Z -> option D) (d : D)
    (positions uvs : list f32) (indices : list Z) (path : list Z) : Res D :=
  let* text := obj_text positions uvs indices in
  match write d path text with Some d => Ok d | None => Panic end.
End Obj.

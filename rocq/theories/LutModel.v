(** Model of src/colorlutimage.rs and of the colour operations' hash
    (src/colorop.rs 75-81, src/colorop/colorgrade.rs 88-149, 206-211). *)
From Coq Require String.
Import String.StringSyntax.
From Coq Require Import Floats.SpecFloat.
From Verif Require Import Machine Loops FloatModel BBoxModel PixelModel MergeModel EnumModel CacheModel AttrModel
  HashModel StreamModel GradeModel DeformModel BakeModel NodeModel.

(** Rust [x.ceil() as i32]. *)
Definition mag_up (m : positive) (e : Z) : Z :=
  if 0 <=? e then Z.shiftl (Zpos m) e else - Z.shiftr (- Zpos m) (- e).
Definition f32_ceil_as_i32 (x : f32) : Z :=
  match x with
  | S754_finite s m e =>
      Z.max (- two31) (Z.min (two31 - 1) (if s then - mag_trunc m e else mag_up m e))
  | _ => f32_as_i32 x
  end.

(** ASCII bytes of a literal. *)
Definition ascii_bytes (s : String.string) : list Z :=
  map (fun c => Z.of_nat (Ascii.nat_of_ascii c)) (String.list_ascii_of_string s).

Section Lut.
Context {D : Type}.
Variable p : profile.
Variable X : externals D.

(** colorlutimage.rs 47-67 *)
Definition lut_size (n nc : Z) : Res (Z * Z) :=
  if nc =? 1 then Ok (n, 1)
  else if nc =? 2 then Ok (n, n)
  else if nc =? 3 then
    let* w := i32_of p (n * n) in
    let* n2 := i32_of p (n * n) in
    let* count := i32_of p (n2 * n) in
    Ok (w, f32_ceil_as_i32 (f32_div (f32_of_Z count) (f32_of_Z w)))
  else Panic.

(** [(i as f32) * c] of colorlutimage.rs 82, 88, 93-96. *)
Definition lut_value (i edge : Z) : f32 :=
  f32_mul (f32_of_Z i) (f32_div f32_one (f32_sub (f32_of_Z edge) f32_one)).

(** colorlutimage.rs 73-98; remainder and division by a zero edge do not
    happen (the loops are then empty). *)
Definition identity_lut (img : list f32) (n nc : Z) : Res (list f32) :=
  let edge := i32_as_usize n in
  if nc =? 1 then
    for_range 0 edge (fun i img => set_idx img i (lut_value (i mod edge) edge)) img
  else if nc =? 3 then
    let* e2 := mul_u64 p edge edge in
    let* count := mul_u64 p e2 edge in
    for_range 0 count (fun i img =>
      let* img := set_idx img (3 * i + 0) (lut_value (i mod edge) edge) in
      let* img := set_idx img (3 * i + 1) (lut_value ((i / edge) mod edge) edge) in
      set_idx img (3 * i + 2) (lut_value ((i / edge / edge) mod edge) edge)) img
  else Panic.

(** The identity image both generators start from: colorlutimage.rs 109-122, 204-217. *)
Definition identity_block (n nc : Z) : Res pixelblock :=
  let* (w, h) := lut_size n nc in
  let* blk := pb_new p (BS w h nc) Float32 in
  let* img := slice_f32 (pb_data blk) in
  let* img := identity_lut img n nc in
  Ok (PB (BS w h nc) (DF32 img)).

Definition lut_window (b : blocksize) : bbox := BBox 0 0 (bs_w b) (bs_h b).
Definition lut_image (b : blocksize) (blk : pixelblock) (sp : image_spec) : shared :=
  Shared blk (lut_window b) (lut_window b) sp.

(** colorlutimage.rs 102-138 *)
Definition generate_transform_lut (n nc : Z) (from to : list Z) : Res shared :=
  let* blk := identity_block n nc in
  let sp := set_color_space spec_new from in
  let* (baked, sp) := bake_colorspace (x_convert X) blk sp from to in
  Ok (lut_image (pb_size blk) baked sp).

(** colorlutimage.rs 150-158: the bytes fed to the hasher. *)
Definition transform_lut_bytes (n : Z) (from to : list Z) : list Z :=
  ascii_bytes "3DLUT Size:"%string ++ hash_i32 n ++ ascii_bytes "From:"%string ++ from ++ ascii_bytes "To:"%string ++ to.

(** Look up, otherwise generate and store: colorlutimage.rs 160-193, 249-275. *)
Definition get_lut (key : Z) (make : Res shared) (c : cache shared) : Res (shared * cache shared) :=
  match get c key with
  | (c, Some img) => Ok (img, c)
  | (c, None) =>
      let* img := make in
      let* c := insert image_bytes p c key img in
      Ok (img, c)
  end.

(** colorlutimage.rs 142-194 *)
Definition get_transform_lut (from to : list Z) (n : Z) (c : cache shared) : Res (shared * cache shared) :=
  get_lut (x_digest X (transform_lut_bytes n from to)) (generate_transform_lut n 3 from to) c.

(** The attribute values of a colour operation as a block, to share
    [grade_hash] (the two Rust functions are the same text). *)
Definition op_block (o : vals) : block := Block (vi o) (vf o) (fun _ => []).

(** colorop/colorgrade.rs 206-211 *)
Definition op_hash (o : vals) : Res Z :=
  let* b := grade_hash p (op_block o) in Ok (x_digest X b).
(** colorop.rs 75-81 with 52-59 *)
Fixpoint ops_bytes (ops : list vals) : Res (list Z) :=
  match ops with
  | [] => Ok []
  | o :: t => let* h := op_hash o in let* r := ops_bytes t in Ok (hash_u64 h ++ r)
  end.
Definition ops_hash (ops : list vals) : Res Z := let* b := ops_bytes ops in Ok (x_digest X b).

(** colorlutimage.rs 198-225 *)
Definition generate_ops_lut (n nc : Z) (ops : list vals) : Res shared :=
  let* blk := identity_block n nc in
  let sp := set_color_space spec_new linear_name in
  let* baked := bake_colorgrade (x_numerics X) blk identity4 ops in
  Ok (lut_image (pb_size blk) baked sp).

(** colorlutimage.rs 240-247 *)
Definition ops_lut_bytes (n nc : Z) (ops : list vals) : Res (list Z) :=
  let* h := ops_hash ops in
  Ok (ascii_bytes "Color Ops LUT"%string ++ ascii_bytes "LUT Size:"%string ++ hash_i32 n
      ++ ascii_bytes "Number of channels:"%string ++ hash_i32 nc ++ ascii_bytes "Color Ops Hash"%string ++ hash_u64 h).

(** colorlutimage.rs 229-276 *)
Definition get_ops_lut (s : stream) (n nc : Z) (c : cache shared) : Res (shared * cache shared) :=
  let* b := ops_lut_bytes n nc (st_ops s) in
  get_lut (x_digest X b) (generate_ops_lut n nc (st_ops s)) c.
End Lut.

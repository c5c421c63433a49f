(** Model of src/math/interp.rs, src/math/xform.rs, src/bbox/bbox2df.rs,
    src/deformer/{transform,brownian,tde4_classic}.rs (application),
    src/ops/pixelremap.rs and src/deformutils.rs.

    Trigonometry, matrix inversion and the lens plug-in are parameters. *)
From Coq Require String.
Import String.StringSyntax.
From Coq Require Import Floats.SpecFloat.
From Verif Require Import Machine Loops FloatModel BBoxModel PixelModel AttrModel StreamModel GradeModel.

(** interp.rs 27-44 *)
Definition lerp (mn mx mix : f32) : f32 :=
  f32_add (f32_mul (f32_sub f32_one mix) mn) (f32_mul mix mx).
Definition inverse_lerp (mn mx mix : f32) : f32 := f32_div (f32_sub mix mn) (f32_sub mx mn).
Definition remap (old_min old_max new_min new_max mix : f32) : f32 :=
  lerp new_min new_max (inverse_lerp old_min old_max mix).

(** cxxbridge.rs [BBox2Df] and bbox2df.rs 56-65. *)
Record bboxf := BBoxF { fmin_x : f32; fmin_y : f32; fmax_x : f32; fmax_y : f32 }.
Definition bboxf_of (b : bbox) : bboxf :=
  BBoxF (f32_of_Z (min_x b)) (f32_of_Z (min_y b)) (f32_of_Z (max_x b)) (f32_of_Z (max_y b)).

(** Rust [x.floor() as i32] and [x.ceil() as i32] (saturating, NaN gives 0). *)
Definition floor_shift (v e : Z) : Z := if 0 <=? e then Z.shiftl v e else Z.shiftr v (- e).
Definition sat_i32 (z : Z) : Z := Z.max (- two31) (Z.min (two31 - 1) z).
Definition f32_floor_as_i32 (x : f32) : Z :=
  match x with
  | S754_finite s m e => sat_i32 (floor_shift (cond_Zopp s (Zpos m)) e)
  | _ => f32_as_i32 x
  end.
Definition f32_ceil_as_i32 (x : f32) : Z :=
  match x with
  | S754_finite s m e => sat_i32 (- floor_shift (- cond_Zopp s (Zpos m)) e)
  | _ => f32_as_i32 x
  end.

(** Loops over a buffer of positions with stride 2 or 3. *)
Fixpoint map_xy2 (f : f32 * f32 -> Res (f32 * f32)) (l : list f32) : Res (list f32) :=
  match l with
  | x :: y :: t => let* (x, y) := f (x, y) in let* t := map_xy2 f t in Ok (x :: y :: t)
  | rest => Ok rest
  end.
Fixpoint map_xy3 (f : f32 * f32 -> Res (f32 * f32)) (l : list f32) : Res (list f32) :=
  match l with
  | x :: y :: z :: t =>
      let* (x, y) := f (x, y) in let* t := map_xy3 f t in Ok (x :: y :: z :: t)
  | rest => Ok rest
  end.

(** The numeric externals. *)
Record numerics := Numerics {
  nx_powf : f32 -> f32 -> f32;
  nx_cos : f32 -> f32;
  nx_sin : f32 -> f32;
  (* nalgebra Matrix4::try_inverse *)
  nx_inverse : mat4 -> option mat4;
  (* LDPK plug-in set up with the given parameters: distort (true) or
     undistort (false) of a point, and of a bounding box *)
  nx_lens : vals -> bool -> f32 * f32 -> f32 * f32;
  nx_lens_box : vals -> bool -> bboxf -> bboxf
}.

Section Deform.
Variable nx : numerics.

(** nalgebra [Matrix4 * Matrix4], accumulated like [mat_row]. *)
Definition mat_mul (a b : mat4) : mat4 :=
  let col j := (mat b 0 j, mat b 1 j, mat b 2 j, mat b 3 j) in
  flat_map (fun i => map (fun j => mat_row a i (col j)) [0; 1; 2; 3]%nat) [0; 1; 2; 3]%nat.

(** xform.rs 26-47, 49-75, 77-84; PI as f32. *)
Definition f32_pi : f32 := S754_finite false 13176795 (-22).
Definition translate_2d (tx ty : f32) : mat4 :=
  let o := f32_one in let z := f32_zero in
  [o; z; z; tx;  z; o; z; ty;  z; z; o; z;  z; z; z; o].
Definition rotate_2d (cx cy degree : f32) : mat4 :=
  let o := f32_one in let z := f32_zero in
  let angle := f32_div (f32_mul degree f32_pi) (f32_of_Z 180) in
  let c := nx_cos nx angle in
  let s := nx_sin nx angle in
  [c; f32_neg s; f32_add (f32_mul cx (f32_sub o c)) (f32_mul cy s); z;
   s; c; f32_sub (f32_mul cy (f32_sub o c)) (f32_mul cx s); z;
   z; z; o; z;
   z; z; z; o].
Definition scale_2d (sx sy : f32) : mat4 :=
  let o := f32_one in let z := f32_zero in
  [sx; z; z; z;  z; sy; z; z;  z; z; o; z;  z; z; z; o].

(** xform.rs 87-105 for TransformationOrder::SRT: [translate * rotate * scale]. *)
Definition transform_srt (tx ty cx cy degree sx sy : f32) : mat4 :=
  mat_mul (mat_mul (translate_2d tx ty) (rotate_2d cx cy degree)) (scale_2d sx sy).

Local Open Scope string_scope.

(** deformer/transform.rs 93-140; both translations are normalised by the
    horizontal extent, as in the source. *)
Definition transform_matrix (v : vals) (win : bboxf) (inverse : bool) : mat4 :=
  let f n := f32_of_bits (vf v n) in
  let tx := inverse_lerp (fmin_x win) (fmax_x win) (f "translate_x") in
  let ty := inverse_lerp (fmin_x win) (fmax_x win) (f "translate_y") in
  let m := transform_srt tx ty (f "rotate_center_x") (f "rotate_center_y") (f "rotate")
             (f "scale_x") (f "scale_y") in
  let do_invert := if negb inverse then 0 <? vi v "invert" else vi v "invert" =? 0 in
  if do_invert then match nx_inverse nx m with Some i => i | None => m end else m.
Definition transform_apply (v : vals) (win : bboxf) (inverse : bool) (xy : f32 * f32) : f32 * f32 :=
  let (xd, yd) := xy in
  let m := transform_matrix v win inverse in
  let px := f32_of_bits (vf v "pivot_x") in
  let py := f32_of_bits (vf v "pivot_y") in
  let '(x, y, _, _) := mat_vec m (f32_sub xd px, f32_sub yd py, f32_zero, f32_one) in
  (f32_add x px, f32_add y py).

(** deformer/brownian.rs 92-131; [powi(2)] is one multiplication, [powi(4)]
    the square of the square. *)
Definition f32_sqrt (x : f32) : f32 := SFsqrt prec32 emax32 x.
Definition f32_powi2 (x : f32) : f32 := f32_mul x x.
Definition f32_powi4 (x : f32) : f32 := f32_powi2 (f32_powi2 x).
Definition brownian_apply (v : vals) (win : bboxf) (inverse : bool) (xy : f32 * f32) : f32 * f32 :=
  let (xd, yd) := xy in
  let f n := f32_of_bits (vf v n) in
  let xr := remap (fmin_x win) (fmax_x win) f32_zero f32_one xd in
  let yr := remap (fmin_y win) (fmax_y win) f32_zero f32_one yd in
  let xc := f "xc" in let yc := f "yc" in let k1 := f "k1" in let k2 := f "k2" in
  let r := f32_sqrt (f32_add (f32_powi2 (f32_sub xd xc)) (f32_powi2 (f32_sub yd yc))) in
  let r2 := f32_powi2 r in
  let r4 := f32_mul (f32_powi4 r) (f32_of_Z 2) in
  let k := f32_add (f32_mul k1 r2) (f32_mul k2 r4) in
  let move a b := if inverse then f32_sub a b else f32_add a b in
  let xu := move xr (f32_mul (f32_sub xr xc) k) in
  let yu := move yr (f32_mul (f32_sub yr yc) k) in
  (remap f32_zero f32_one (fmin_x win) (fmax_x win) xu,
   remap f32_zero f32_one (fmin_y win) (fmax_y win) yu).

(** tde4_classic.rs 142-156 with 272-300: one position. *)
Definition tde4_apply (v : vals) (win : bboxf) (inverse : bool) (xy : f32 * f32) : Res (f32 * f32) :=
  let (x, y) := xy in
  let xr := remap (fmin_x win) (fmax_x win) f32_zero f32_one x in
  let yr := remap (fmin_y win) (fmax_y win) f32_zero f32_one y in
  let* (xu, yu) :=
    (if vi v "direction" =? 0 then Ok (nx_lens nx v inverse (xr, yr))
     else if vi v "direction" =? 1 then Ok (nx_lens nx v (negb inverse) (xr, yr))
     else Panic) in
  Ok (remap f32_zero f32_one (fmin_x win) (fmax_x win) xu,
      remap f32_zero f32_one (fmin_y win) (fmax_y win) yu).

(** tde4_classic.rs 208-268 *)
Definition tde4_box (v : vals) (b win : bboxf) : Res bboxf :=
  let b' := BBoxF (remap (fmin_x win) (fmax_x win) f32_zero f32_one (fmin_x b))
                  (remap (fmin_y win) (fmax_y win) f32_zero f32_one (fmin_y b))
                  (remap (fmin_x win) (fmax_x win) f32_zero f32_one (fmax_x b))
                  (remap (fmin_y win) (fmax_y win) f32_zero f32_one (fmax_y b)) in
  let* r := (if vi v "direction" =? 0 then Ok (nx_lens_box nx v false b')
             else if vi v "direction" =? 1 then Ok (nx_lens_box nx v true b')
             else Panic) in
  let two := f32_of_Z 2 in
  Ok (BBoxF (f32_sub (remap f32_zero f32_one (fmin_x win) (fmax_x win) (fmin_x r)) two)
            (f32_sub (remap f32_zero f32_one (fmin_y win) (fmax_y win) (fmin_y r)) two)
            (f32_add (remap f32_zero f32_one (fmin_x win) (fmax_x win) (fmax_x r)) two)
            (f32_add (remap f32_zero f32_one (fmin_y win) (fmax_y win) (fmax_y r)) two)).

(** deformer.rs 74-77 (default: unchanged) and the override above. *)
Definition deform_box (d : deformer) (b win : bboxf) : Res bboxf :=
  match d with DTde4 v => tde4_box v b win | _ => Ok b end.

(** Deformer::apply_slice_in_place of the three deformers, one position. *)
Definition deform_point (d : deformer) (win : bboxf) (inverse : bool) (xy : f32 * f32)
  : Res (f32 * f32) :=
  match d with
  | DTransform v => Ok (transform_apply v win inverse xy)
  | DTde4 v => tde4_apply v win inverse xy
  | DBrownian v => Ok (brownian_apply v win inverse xy)
  end.

Definition enabled (ds : list deformer) : list deformer :=
  filter (fun d => vi (def_vals d) "enable" =? 1) ds.

(** deformutils.rs 32-54: used by the viewer to move mesh vertices. *)
Definition deform_positions (ds : list deformer) (data_window : bboxf) (buf : list f32)
  : Res (list f32) :=
  apply_each (fun d => map_xy3 (deform_point d data_window false)) (enabled ds) buf.

Fixpoint fold_box (ds : list deformer) (b win : bboxf) : Res bboxf :=
  match ds with
  | [] => Ok b
  | d :: t => let* b := deform_box d b win in fold_box t b win
  end.

Definition zrange (a b : Z) : list Z := map (fun i => a + Z.of_nat i) (seq 0 (Z.to_nat (b - a))).

(** deformutils.rs 117-133: centres of the pixels of the window, row by row. *)
Definition pixel_centres (w : bbox) : list f32 :=
  let half := S754_finite false 8388608 (-24) in
  flat_map (fun row => flat_map (fun col =>
      [f32_add (f32_of_Z col) half; f32_add (f32_of_Z row) half])
    (zrange (min_x w) (max_x w))) (zrange (min_y w) (max_y w)).

(** pixelremap.rs 104-150: the pixels fetched for a list of coordinates. *)
Fixpoint remap_pixels (p : profile) (display : bboxf) (src : bbox) (src_max_x src_max_y : Z)
    (pixels : list f32) (w h nc ys : Z) (coords : list f32) : Res (list f32) :=
  match coords with
  | x :: y :: t =>
      let x := remap (fmin_x display) (fmax_x display) (f32_of_Z (min_x src)) (f32_of_Z src_max_x) x in
      let y := remap (fmin_y display) (fmax_y display) (f32_of_Z (min_y src)) (f32_of_Z src_max_y) y in
      let* px := (if nc =? 4
                  then let* (r, g, b, a) := sample_rgba p pixels w h nc ys x y in Ok [r; g; b; a]
                  else let* (r, g, b) := sample_rgb p pixels w h nc ys x y in Ok [r; g; b]) in
      let* rest := remap_pixels p display src src_max_x src_max_y pixels w h nc ys t in
      Ok (px ++ rest)
  | _ => Ok []
  end.

(** deformutils.rs 56-162 with pixelremap.rs 34-151.  The destination block
    starts as a copy of the source (bake.rs 197) and every element of it is
    overwritten, in order.  A destination window that is empty or inverted
    panics: its size is negative, or the assertion at pixelremap.rs 97 fails.
    So does one of 2^31 elements or more: in a release build the wrapped size
    gives a shorter buffer, and the loop writes past its end.
    (Should a width or height wrap around in a release build, the coordinates
    that the loops do not reach stay 0.) *)
Definition deform_pixels (p : profile) (ds : list deformer) (display : bbox)
    (blk : pixelblock) (win : bbox) : Res (pixelblock * bbox) :=
  match enabled ds with
  | [] => Ok (blk, win)
  | es =>
      let* b := fold_box es (bboxf_of win) (bboxf_of display) in
      let w' := BBox (f32_floor_as_i32 (fmin_x b)) (f32_floor_as_i32 (fmin_y b))
                     (f32_ceil_as_i32 (fmax_x b)) (f32_ceil_as_i32 (fmax_y b)) in
      let* dw := width_i32 p w' in
      let* dh := height_i32 p w' in
      let nc := bs_nc (pb_size blk) in
      let* dst := pb_resize p blk (BS dw dh nc) (db_type (pb_data blk)) in
      if (dw <=? 0) || (dh <=? 0) || (two31 <=? dw * dh * nc) then Panic else
      let centres := pixel_centres w' in
      let* coords := apply_each (fun d => map_xy2 (deform_point d (bboxf_of display) true)) es
                       (centres ++ repeat f32_zero (Z.to_nat (2 * (dw * dh)) - length centres)) in
      match pb_data blk with
      | DF32 pixels =>
          if negb ((nc =? 4) || (nc =? 3)) then Panic else
          let* ys := i32_of p (bs_w (pb_size blk) * nc) in
          let* smx := i32_of p (max_x win - 1) in
          let* smy := i32_of p (max_y win - 1) in
          let* out := remap_pixels p (bboxf_of display) win smx smy pixels
                        (bs_w (pb_size blk)) (bs_h (pb_size blk)) nc ys coords in
          Ok (PB (pb_size dst) (DF32 out), w')
      | _ => Panic
      end
  end.
End Deform.

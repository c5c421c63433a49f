(** What baking deformations does to pixels. *)
From Coq Require Import Floats.SpecFloat.
From Verif Require Import Machine Loops FloatModel BBoxModel PixelModel PixelSpec AttrModel StreamModel GradeModel DeformModel.

(** The middle of pixel [c]. *)
Definition centre (c : Z) : f32 := f32_add (f32_of_Z c) (S754_finite false 8388608 (-24)).

(** Where a list of deformers, each in the opposite direction and in list
    order, takes a position. *)
Fixpoint taken_back (nx : numerics) (display : bbox) (ds : list deformer) (q : f32 * f32) : Res (f32 * f32) :=
  match ds with
  | [] => Ok q
  | d :: t => let* q := deform_point nx d (bboxf_of display) true q in taken_back nx display t q
  end.

(** A display coordinate as coordinate of the picture: the display range
    [lo..hi] is stretched over the picture's [first] to [last] pixel. *)
Definition stretched (lo hi first last : Z) (v : f32) : f32 :=
  remap (f32_of_Z lo) (f32_of_Z hi) (f32_of_Z first) (f32_of_Z last) v.

(** [r] is the integer nearest to the finite [x]; of two, the one further from 0. *)
Definition rounds_to (x : f32) (r : Z) : Prop :=
  2 * Z.abs (sf_num x - r * sf_den x) <= sf_den x /\
  (2 * Z.abs (sf_num x - r * sf_den x) = sf_den x -> Z.abs (sf_num x) < Z.abs r * sf_den x).

(** [k] is [x] rounded and moved to the nearest of 0..n-1; NaN counts as 0. *)
Definition picked (x : f32) (n k : Z) : Prop :=
  match x with
  | S754_nan => k = 0
  | S754_infinity s => k = if s then 0 else n - 1
  | _ => exists r, rounds_to x r /\ k = Z.max 0 (Z.min (n - 1) r)
  end.

(** Pixel [(x, y)] of the result is the source block's pixel in column [sx] and
    row [sy]. *)
Definition fetched (src dst : pixelblock) (win : bbox) (x y sx sy : Z) : Prop :=
  forall c, 0 <= c < bs_nc (pb_size src) ->
    exists v, pixel_val dst win x y c = Some v /\
      at_z (elems (pb_data src)) ((sy * bs_w (pb_size src) + sx) * bs_nc (pb_size src) + c) = Some v.

(** A float picture of three or four channels within machine limits. *)
Definition float_picture (b : pixelblock) : Prop :=
  (exists l, pb_data b = DF32 l) /\ wf_block b /\ (bs_nc (pb_size b) = 3 \/ bs_nc (pb_size b) = 4) /\
  1 <= bs_w (pb_size b) /\ 1 <= bs_h (pb_size b) /\ bs_w (pb_size b) * bs_h (pb_size b) * bs_nc (pb_size b) < two31.

(** What the result of the bake is. *)
Definition moved_pixels (nx : numerics) (display : bbox) (ds : list deformer) (src : pixelblock) (win : bbox) (dst : pixelblock) (win' : bbox) : Prop :=
  pb_size dst = BS (max_x win' - min_x win') (max_y win' - min_y win') (bs_nc (pb_size src)) /\ wf_block dst /\
  (exists l, pb_data dst = DF32 l) /\
  forall x y, min_x win' <= x < max_x win' -> min_y win' <= y < max_y win' ->
    exists qx qy sx sy,
      taken_back nx display ds (centre x, centre y) = Ok (qx, qy) /\
      picked (stretched (min_x display) (max_x display) (min_x win) (max_x win - 1) qx) (bs_w (pb_size src)) sx /\
      picked (stretched (min_y display) (max_y display) (min_y win) (max_y win - 1) qy) (bs_h (pb_size src)) sy /\
      fetched src dst win' x y sx sy.

(** The identity matrix, zeros of either sign. *)
Definition unit_matrix (m : mat4) : Prop :=
  forall i j, (i < 4)%nat -> (j < 4)%nat ->
    if Nat.eqb i j then mat m i j = f32_one else exists s, mat m i j = S754_zero s.

(** What is assumed of the numeric library for transforms that do nothing. *)
Definition exact_at_rest (nx : numerics) : Prop :=
  nx_cos nx (S754_zero false) = f32_one /\ nx_sin nx (S754_zero false) = S754_zero false /\
  forall m, unit_matrix m -> match nx_inverse nx m with Some m' => unit_matrix m' | None => True end.

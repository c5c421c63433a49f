(** Independent specification of images: a pixel block placed on a window is a
    function from image coordinates and channel to a value. *)
From Coq Require Import Floats.SpecFloat.
From Verif Require Import Machine Loops FloatModel BBoxModel BBoxSpec PixelModel.

(** A channel value of any pixel type. *)
Inductive elem : Type := EF (f : spec_float) | EI (z : Z).

Definition elems (d : datablock) : list elem :=
  match d with
  | DF32 l => map EF l | DF16 l => map EF l
  | DU8 l => map EI l | DU16 l => map EI l
  end.

Definition zero_elem (t : datatype) : elem :=
  match t with Float32 | Half16 => EF (S754_zero false) | _ => EI 0 end.

(** "One" in the native range of the type. *)
Definition full_elem (t : datatype) : elem :=
  match t with
  | Float32 => EF (S754_finite false 8388608 (-23))
  | Half16 => EF (S754_finite false 1024 (-10))
  | UInt8 => EI 255 | UInt16 => EI 65535
  | UnknownType => EI 0
  end.

(** Position of channel [c] of pixel [(x, y)] in the buffer of an image placed on
    window [w] (interleaved channels, rows top to bottom). *)
Definition offset (w : bbox) (nc x y c : Z) : Z :=
  ((y - min_y w) * (max_x w - min_x w) + (x - min_x w)) * nc + c.

Definition pixel_val (pb : pixelblock) (w : bbox) (x y c : Z) : option elem :=
  at_z (elems (pb_data pb)) (offset w (bs_nc (pb_size pb)) x y c).

(** A block whose buffer matches its dimensions. *)
Definition wf_block (pb : pixelblock) : Prop :=
  0 <= bs_w (pb_size pb) /\ 0 <= bs_h (pb_size pb) /\ 0 <= bs_nc (pb_size pb) /\
  db_len (pb_data pb) = bs_w (pb_size pb) * bs_h (pb_size pb) * bs_nc (pb_size pb).

(** The block lies on the window. *)
Definition placed (pb : pixelblock) (w : bbox) : Prop :=
  bs_w (pb_size pb) = max_x w - min_x w /\ bs_h (pb_size pb) = max_y w - min_y w.

(** Machine limits: coordinates within +-2^30, element count within i32. *)
Definition coords_small (b : bbox) : Prop :=
  - 2 ^ 30 <= min_x b <= 2 ^ 30 /\ - 2 ^ 30 <= max_x b < 2 ^ 30 /\
  - 2 ^ 30 <= min_y b <= 2 ^ 30 /\ - 2 ^ 30 <= max_y b < 2 ^ 30.
Definition count_fits (w h nc : Z) : Prop := w * h * Z.max 1 nc < two31 /\ w * nc < two31 /\ nc < two31.

(** Element ranges of two distinct pixels do not overlap. *)
Definition disjoint_ranges (a b n : Z) : Prop := a + n <= b \/ b + n <= a.

(** Exact value of a finite float as a fraction num/den with den > 0. *)
Definition sf_num (x : spec_float) : Z :=
  match x with
  | S754_finite s m e => (if s then - 1 else 1) * (Zpos m * 2 ^ Z.max e 0)
  | _ => 0
  end.
Definition sf_den (x : spec_float) : Z :=
  match x with S754_finite _ _ e => 2 ^ Z.max (- e) 0 | _ => 1 end.
Definition sf_finite (x : spec_float) : bool :=
  match x with S754_finite _ _ _ | S754_zero _ => true | _ => false end.

(** [k] is the (a) coordinate of 0..n-1 closest to [x]; infinities are closest to
    the border on their side; NaN is sent to 0. *)
Definition nearest_coord (x : spec_float) (n k : Z) : Prop :=
  0 <= k < n /\
  match x with
  | S754_nan => k = 0
  | S754_infinity s => k = if s then 0 else n - 1
  | _ => forall j, 0 <= j < n ->
      Z.abs (sf_num x - k * sf_den x) <= Z.abs (sf_num x - j * sf_den x)
  end.

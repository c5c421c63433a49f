(** What a colour lookup table image has to be. *)
From Coq Require Import Reals.
From Verif Require Import Machine Loops FloatModel FloatReal BBoxModel PixelModel StreamModel CacheModel.

(** Channel [c] of the pixel in column [x] of row [y]. *)
Definition texel (s : shared) (x y c : Z) : option f32 :=
  let b := pb_size (sh_block s) in
  match pb_data (sh_block s) with
  | DF32 l =>
      if (0 <=? x) && (x <? bs_w b) && (0 <=? y) && (y <? bs_h b) && (0 <=? c) && (c <? bs_nc b)
      then at_z l (bs_nc b * (y * bs_w b + x) + c) else None
  | _ => None
  end.

(** The value is the coordinate [k] of a grid with [n] points over [0,1], up to
    three units of 2^-24, and itself within [0,1]. *)
Definition grid_value (v : option f32) (k n : Z) : Prop :=
  exists f, v = Some f /\ fin32 f /\ (0 <= R32 f <= 1)%R
    /\ (Rabs (R32 f - IZR k / IZR (n - 1)) <= 3 * eps32)%R.

(** Slices of constant blue side by side: red runs fastest, then green; one row
    per blue. *)
Definition identity_cube (s : shared) (n : Z) : Prop :=
  forall r g b, 0 <= r < n -> 0 <= g < n -> 0 <= b < n ->
    grid_value (texel s (g * n + r) b 0) r n
    /\ grid_value (texel s (g * n + r) b 1) g n
    /\ grid_value (texel s (g * n + r) b 2) b n.

(** The digest maps no two of the given byte strings to the same number.  (It
    cannot be injective on all byte strings.) *)
Definition no_collisions (digest : list Z -> Z) (used : list (list Z)) : Prop :=
  forall a b, In a used -> In b used -> digest a = digest b -> a = b.
Definition digest_u64 (digest : list Z -> Z) : Prop := forall a, 0 <= digest a < two64.

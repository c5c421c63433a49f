(** What it means for a frame to be used under a number. *)
From Coq Require Import Floats.SpecFloat.
From Verif Require Import Machine PixelModel NodeModel StreamModel AttrModel PathSpec ChainSpec.

(** The f64 [x] is the fraction a / b. *)
Definition is_fraction (x : spec_float) (a b : Z) : Prop :=
  0 < b /\
  match x with
  | S754_zero _ => a = 0
  | S754_finite s m e =>
      (if s then - 1 else 1) * Zpos m * 2 ^ Z.max 0 e * b = a * 2 ^ Z.max 0 (- e)
  | _ => False
  end.

(** [n] is the whole number nearest to a / b; of two equally near ones the one
    further from zero. *)
Definition nearest (a b n : Z) : Prop :=
  2 * Z.abs (a - n * b) <= b /\ (2 * Z.abs (a - n * b) = b -> Z.abs a < Z.abs (n * b)).

(** One file per whole frame, in turn, the k-th one named by its number. *)
Inductive sequence {D} (p : profile) (x : externals D) (n : node) (input : D -> spec_float -> stream -> Prop)
    (value : Z -> spec_float) (pre : list Z) (width : Z) (post : list Z) : list Z -> D -> D -> Prop :=
| sq_nil d : sequence p x n input value pre width post [] d d
| sq_cons k ks d s t img co d' :
    is_fraction (value k) k 1 -> input d (value k) s ->
    padded width k t -> written p x n (value k) s (pre ++ t ++ post) img co ->
    sequence p x n input value pre width post ks (fst (x_write x d (pre ++ t ++ post) img co)) d' ->
    sequence p x n input value pre width post (k :: ks) d d'.

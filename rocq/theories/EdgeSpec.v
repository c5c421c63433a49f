(** Whole numbers below and above floats. *)
From Coq Require Import Floats.SpecFloat.
From Verif Require Import Machine FloatModel BBoxModel DeformModel.

(** The value of a finite float is the fraction [num v] / [den v]. *)
Definition num (v : f32) : Z :=
  match v with S754_finite s m e => (if s then -1 else 1) * Zpos m * 2 ^ Z.max 0 e | _ => 0 end.
Definition den (v : f32) : Z := match v with S754_finite s m e => 2 ^ Z.max 0 (- e) | _ => 1 end.

(** [k <= v] and [v <= k], never so for NaN. *)
Definition below (k : Z) (v : f32) : Prop :=
  match v with
  | S754_nan => False
  | S754_infinity s => s = false
  | _ => k * den v <= num v
  end.
Definition above (k : Z) (v : f32) : Prop :=
  match v with
  | S754_nan => False
  | S754_infinity s => s = true
  | _ => num v <= k * den v
  end.
Definition is_i32 (k : Z) : Prop := - two31 <= k < two31.

(** [z] is the greatest i32 below [v], the least of all if there is none below,
    and 0 if [v] is NaN. *)
Definition greatest_below (v : f32) (z : Z) : Prop :=
  is_i32 z /\ (v = S754_nan -> z = 0) /\
  (v <> S754_nan -> (forall k, is_i32 k -> below k v -> k <= z) /\ (below z v \/ z = - two31)).
Definition least_above (v : f32) (z : Z) : Prop :=
  is_i32 z /\ (v = S754_nan -> z = 0) /\
  (v <> S754_nan -> (forall k, is_i32 k -> above k v -> z <= k) /\ (above z v \/ z = two31 - 1)).

(** [w] is the smallest window of whole pixels that contains [b]. *)
Definition encloses (b : bboxf) (w : bbox) : Prop :=
  greatest_below (fmin_x b) (min_x w) /\ greatest_below (fmin_y b) (min_y w) /\
  least_above (fmax_x b) (max_x w) /\ least_above (fmax_y b) (max_y w).

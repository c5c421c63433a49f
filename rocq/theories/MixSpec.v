(** Merging in exact numbers. *)
From Coq Require Import Reals Floats.SpecFloat.
From Verif Require Import Machine FloatModel FloatReal BBoxModel PixelModel MergeModel MergeSpec.
Local Open Scope R_scope.

(** The number in a channel of a picture. *)
Definition shade (im : image) (x y c : Z) : R := R32 (channel_at im x y c).
(** What a merge is to give: [aa] is the alpha of the first picture. *)
Definition exact_merge (mode : merge_mode) (mix aa va vb : R) : R :=
  match mode with
  | MAdd => va + vb * mix
  | MOver => va + vb * ((1 - aa) * mix)
  | MMultiply => va * (vb * mix)
  | _ => 0
  end.
(** How large the terms of it are. *)
Definition merge_size (mode : merge_mode) (mix aa va vb : R) : R :=
  match mode with
  | MAdd => Rabs va + Rabs vb * Rabs mix
  | MOver => Rabs va + Rabs vb * ((1 + Rabs aa) * Rabs mix)
  | MMultiply => Rabs va * (Rabs vb * Rabs mix)
  | _ => 0
  end.
(** A picture of numbers below a million. *)
Definition modest_picture (im : image) : Prop :=
  forall x y c, (0 <= c)%Z -> f32_ok (channel_at im x y c) /\ f32_finite (channel_at im x y c) /\ Rabs (shade im x y c) <= 2 ^ 20.

(** Three pictures: room for the intermediate results, and the sizes. *)
Definition three_fit (a b c : bbox) : Prop :=
  merge_fits a b /\ merge_fits b c /\ forall u v, least_window a b u -> least_window b c v -> merge_fits u c /\ merge_fits a v.
Definition three_size (mode : merge_mode) (aa ab va vb vc : R) : R :=
  match mode with
  | MAdd => Rabs va + Rabs vb + Rabs vc
  | MOver => Rabs va + (Rabs vb + Rabs vc * (1 + Rabs ab)) * (1 + Rabs aa)
  | MMultiply => Rabs va * Rabs vb * Rabs vc
  | _ => 0
  end.

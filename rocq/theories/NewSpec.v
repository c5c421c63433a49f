(** Nodes as they are created. *)
From Coq Require Import Floats.SpecFloat.
From Verif Require Import Machine FloatModel PixelModel MergeSpec AttrModel StreamModel GradeModel.

(** Two streams that differ in their cache key and pending colour operations. *)
Definition same_but_colour (s t : stream) : Prop :=
  st_state s = st_state t /\ st_block s = st_block t /\ st_display s = st_display t /\ st_data s = st_data t /\ st_spec s = st_spec t /\
  st_matrix s = st_matrix t /\ st_deformers s = st_deformers t.

Definition good (v : f32) : Prop := f32_finite v /\ f32_ok v.
(** The operations [l'] do to any whole pixels of finite numbers what [l] do;
    zeros may change their sign. *)
Definition same_colours (powf : f32 -> f32 -> f32) (l l' : list vals) : Prop :=
  forall nc n pixels r, (nc = 1 \/ nc = 3 \/ nc = 4)%nat -> length pixels = (n * nc)%nat ->
    apply_color_ops powf l (Z.of_nat nc) pixels = Ok r -> Forall good r ->
    exists r', apply_color_ops powf l' (Z.of_nat nc) pixels = Ok r' /\ Forall2 same_number r' r.
(** The operations [l'] do to any buffer exactly what [l] do. *)
Definition do_the_same (powf : f32 -> f32 -> f32) (l l' : list vals) : Prop :=
  forall nc pixels, apply_color_ops powf l' nc pixels = apply_color_ops powf l nc pixels.

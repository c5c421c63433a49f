(** Vocabulary for colour spaces in baking. *)
From Coq Require Import Floats.SpecFloat.
From Verif Require Import Machine FloatModel PixelModel StreamModel.

(** [px'] is [px] in another colour space, as the colour library converts
    pictures of this size, channel count, alpha channel (the fourth, if there is
    one) and alpha mode; nothing is asked when the spaces are the same. *)
Definition into_space (convert : list f32 -> Z -> Z -> Z -> Z -> bool -> list Z -> list Z -> option (list f32))
    (w h nc : Z) (sp : image_spec) (from to : list Z) (px px' : list f32) : Prop :=
  (from = to /\ px' = px) \/
  (from <> to /\ convert px w h nc (if nc =? 4 then 3 else -1) (sp_unassociated_alpha sp) from to = Some px').

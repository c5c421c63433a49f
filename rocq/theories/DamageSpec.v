(** What a picture shows of a file that could not be read to the end. *)
From Verif Require Import Machine FloatModel PixelModel PixelSpec PixelProofs2 StreamModel FileModel FileSpec.

(** [r] has the size of [f]; the pixels [got] are those of [f] and all others
    are white. *)
Definition pixels_got (got : nat -> bool) (r : pixelblock) (f : file) : Prop :=
  let s := fi_spec f in
  pb_size r = BS (o_width s) (o_height s) (stored_channels f) /\
  db_type (pb_data r) = file_type (o_format s) /\
  db_len (pb_data r) = o_width s * o_height s * stored_channels f /\
  forall k c, 0 <= k < o_width s * o_height s -> 0 <= c < stored_channels f ->
    value (pb_data r) (stored_channels f) k c =
    if got (Z.to_nat k) && (c <? o_channels s) then value (fi_values f) (o_channels s) k c
    else Some (full_elem (file_type (o_format s))).

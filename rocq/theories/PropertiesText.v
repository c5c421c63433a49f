(** The texts written in the model as byte lists are the ones in the source, and
    the numbers kept as bit patterns are the ones IEEE 754 says. *)
From Coq Require String.
Import String.StringSyntax.
From Coq Require Import Floats.SpecFloat Lia.
From Flocq Require Import IEEE754.Binary IEEE754.Bits.
From Verif Require Import Machine FloatModel AttrModel StreamModel NodeModel ChainSpec ObjModel TextSpec BitsProofs.
Local Open Scope string_scope.

(** C60: the names of the colour spaces (data.rs 45-46) and the endings that
    decide between them (write_image.rs 155-163). *)
Theorem C60_names :
  linear_name = bytes_of "Linear" /\ srgb_name = bytes_of "sRGB" /\
  srgb_extensions = map bytes_of [".jpg"; ".png"; ".jpeg"; ".jpe"; ".jif"; ".jfif"; ".jfi"] /\ ext_exr = bytes_of ".exr".
Proof. repeat split. Qed.
Print Assumptions C60_names.

(** C71: the first line of an exported mesh (geom.rs 29-30). *)
Theorem C71_header : obj_header = bytes_of "# This file uses centimeters as units for non-parametric coordinates." /\ nl = [10] /\ sp = bytes_of " ".
Proof. repeat split. Qed.
Print Assumptions C71_header.

(** C32: float attributes are kept as their 32 bits; the numbers the operators
    compute with are those that Flocq decodes from these bits. *)
Theorem C32_float_bits : forall b, 0 <= b < 2 ^ 32 -> f32_of_bits b = FF2SF (binary_float_of_bits_aux 23 8 b).
Proof. exact (fun b B => eq_sym (bits_read b B)). Qed.
Print Assumptions C32_float_bits.
Example C32_float_bits_case : f32_of_bits 1069547520 = S754_finite false 12582912 (-23) /\ f32_of_bits 2139095040 = S754_infinity false.
Proof. split; reflexivity. Qed.

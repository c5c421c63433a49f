(** Specification of a safe decoding of an enumeration: round trip, and every
    integer that is no code is sent to the invalid value. *)
From Verif Require Import Machine.

Definition safe_decoding {E : Type} (code : E -> Z) (invalid : E) (decode : Z -> E) : Prop :=
  (forall e, decode (code e) = e) /\
  (forall z, (exists e, code e = z) -> code (decode z) = z) /\
  (forall z, (forall e, code e <> z) -> decode z = invalid) /\
  (forall e e', code e = code e' -> e = e') /\
  (forall e, 0 <= code e < 256).

(** Lookup tables asked for through the C++ functions. *)
From Verif Require Import LutHistory ClientModel.

(** The request (see LutHistory) a call for a table makes. *)
Definition asks (call : ccall) (q : request) : Prop :=
  match call with
  | CTransformTable from to n _ => q = RTransform from to n
  | COpsTable s n nc _ => q = ROps s n nc
  | _ => False
  end.

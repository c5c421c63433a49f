(** What the text of a graph should say. *)
From Coq Require String.
Import String.StringSyntax.
From Verif Require Import Machine PathSpec AttrModel AttrSpec TextSpec ClientModel.
Local Open Scope string_scope.

(** The ids under which nodes were created in graph [i], in this order. *)
Definition made_ids (i : nat) (h : list (ccall * reply)) : list Z :=
  flat_map (fun e : ccall * reply => match fst e with CCreate j _ how => if Nat.eqb j i then [creation_id how] else [] | _ => [] end) h.

(** The line gives the number [k], the id, the status and the attributes. *)
Definition says (line : list Z) (k id : Z) (status attrs : list Z) : Prop :=
  exists a b, (line = bytes_of "index=" ++ a ++ bytes_of " id=" ++ b ++ bytes_of " status=" ++ status ++ bytes_of " attrs=" ++ attrs)%list /\
    read_digits 0 a = Some k /\ read_digits 0 b = Some id.

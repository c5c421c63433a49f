(** What callers of the image cache see of explicit evictions and of lookups. *)
From Verif Require Import Machine CacheModel CacheSpec.

Section Keep.
Context {V : Type}.

(** A history of lookups and inserts only. *)
Definition only_uses (ops : list (op V)) : Prop :=
  Forall (fun o => match o with Insert _ _ | Get _ => True | _ => False end) ops.

(** Lookups answered with an image, and without. *)
Definition found (o : out V) : bool := match o with OGet (Some _) => true | _ => false end.
Definition not_found (o : out V) : bool := match o with OGet None => true | _ => false end.
Definition how_many (f : out V -> bool) (outs : list (out V)) : Z := Z.of_nat (length (filter f outs)).

(** What a lookup of every key would answer. *)
Definition answers (c : cache V) : Z -> option V := fun k => snd (get c k).
End Keep.

(** What is plugged into a node, read off the calls alone. *)
From Verif Require Import Machine GraphModel GraphSpec.

Section Plug.
Context {N St Ca F W : Type}.
Variable ops : nodeops N St Ca F W.

(** The ids known so far and the id of the node plugged into [dst]. *)
Definition plug_step (dst : Z) (s : list Z * option Z) (call : gcall N F W) : list Z * option Z :=
  let (known, cur) := s in
  match call with
  | GAdd n => (known ++ [n_id ops n], cur)
  | GConnect src d _ =>
      (known, if (d =? dst) && existsb (Z.eqb src) known && existsb (Z.eqb d) known then Some src else cur)
  | GDisconnect d _ => (known, if d =? dst then None else cur)
  | GRemove id =>
      (known, if (id =? dst) || match cur with Some src => src =? id | None => false end then None else cur)
  | _ => s
  end.
Definition plugged (dst : Z) (h : list (gcall N F W)) : option Z := snd (fold_left (plug_step dst) h ([], None)).

(** Every call about the inputs of [dst] is about input [k]. *)
Definition one_input (dst k : Z) (h : list (gcall N F W)) : Prop :=
  Forall (fun call => match call with GConnect _ d k' | GDisconnect d k' => d = dst -> k' = k | _ => True end) h.
End Plug.

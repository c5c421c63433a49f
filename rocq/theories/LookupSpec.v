(** Independent specification of where the configuration comes from. *)
From Verif Require Import Machine.

(** The search path: names without ':' joined by ':'. *)
Fixpoint joined (dirs : list (list Z)) : list Z :=
  match dirs with
  | [] => []
  | [d] => d
  | d :: ds => d ++ 58 :: joined ds
  end.
Definition search_path (dirs : list (list Z)) : Prop :=
  dirs <> [] /\ forall d, In d dirs -> ~ In 58 d.

(** A file name is absolute when it starts with '/'. *)
Definition absolute (name : list Z) : Prop := exists r, name = 47 :: r.

(** [path] names the file [name] in the directory [d]; the empty directory is
    the current one. *)
Definition inside (d name path : list Z) : Prop :=
  (d = [] /\ path = name) \/
  (exists e, d = e ++ [47] /\ path = d ++ name) \/
  (d <> [] /\ (forall e, d <> e ++ [47]) /\ path = d ++ 47 :: name).

(** What streams and nodes say about themselves. *)
From Coq Require Import Floats.SpecFloat.
From Verif Require Import Machine AttrModel StreamModel GraphModel GraphSpec NodeModel.

(** A node as it is created, some of its attributes set since. *)
Definition as_created (n : node) : Prop := exists t id ws, n = fold_left node_write ws (create_node t id).
Definition adds_new (h : list (gcall node spec_float awrite)) : Prop := forall n, In (GAdd n) h -> as_created n.

(** Some execution in the history was of a node that the node at [i] fed. *)
Definition asked_before {D} p (x : externals D) srt w0 (h : list (gcall node spec_float awrite)) (i : nat) : Prop :=
  exists h1 id frames h2 g w start, h = (h1 ++ GExecute id frames :: h2)%list /\
    history (node_ops p x) srt stream_new w0 h1 g w /\ find_index g id = Some start /\ reaches (g_graph g) i start.

(** The numbers of the statuses "error", "valid", "warning" and "uninitialized". *)
Definition computed_status (z : Z) : Prop := z = 0 \/ z = 1 \/ z = 2.
Definition never_computed : Z := 255.

(** Vocabulary for edits: what a user can tell about a node's settings, and
    nodes as the library makes them. *)
From Coq Require String.
From Coq Require Import Floats.SpecFloat.
From Verif Require Import Machine AttrModel AttrSpec GraphModel GraphSpec.

(** The user cannot tell the settings of two nodes apart: same type, same id,
    and every attribute reads the same. *)
Definition same_readings (n n' : node) : Prop :=
  nd_type n = nd_type n' /\ nd_id n = nd_id n' /\ forall k name, get_value k name n = get_value k name n'.

(** The node was created and then set up by attribute writes. *)
Definition configured (n : node) : Prop :=
  exists writes, nd_attrs n = nd_attrs (fold_left node_write writes (create_node (nd_type n) (nd_id n))).

(** A history in which nodes are created by the library. *)
Definition from_scratch {F} (h : list (gcall node F awrite)) : Prop :=
  forall n, In (GAdd n) h -> exists t id, n = create_node t id.

(** The two writes are to the same attribute. *)
Definition same_target (w w' : awrite) : Prop := w_kind w = w_kind w' /\ w_name w = w_name w'.

(** The two graphs differ at most in whether they ask to be executed. *)
Definition same_but_state {N St} (g g' : graph N St) : Prop := g' = with_state g (g_state g').

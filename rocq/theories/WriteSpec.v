(** Writers at the end of a graph. *)
From Coq Require String.
Import String.StringSyntax.
From Verif Require Import Machine AttrModel AttrSpec StreamModel GraphModel GraphSpec NodeModel ChainSpec.
Local Open Scope string_scope.

(** The node writes no file: it is no writer, or it is switched off or not set to
    execute. *)
Definition silent (n : node) : Prop :=
  nd_type n = TWrite -> node_get_i32 n "enable" = 0 \/ node_get_i32 n "execute" = 0.

(** Node [start] is the writer [nw], writing what node [k] shows; no node before
    it writes. *)
Definition writes (g : graph node stream) (start : nat) (nw : node) (k : nat) : Prop :=
  nth_error (g_nodes g) start = Some nw /\ nd_type nw = TWrite /\
  node_get_i32 nw "enable" <> 0 /\ node_get_i32 nw "execute" <> 0 /\ only_input (g_graph g) k start /\
  forall i n, reaches (g_graph g) i start -> i <> start -> nth_error (g_nodes g) i = Some n -> silent n.

(** File systems that writing files leads to. *)
Inductive after_writes {D} (x : externals D) (d : D) : D -> Prop :=
| aw_here : after_writes x d d
| aw_write d' path img co : after_writes x d d' -> after_writes x d (fst (x_write x d' path img co)).

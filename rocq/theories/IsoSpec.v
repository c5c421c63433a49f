(** Vocabulary for "the same part of a graph", by node ids. *)
From Verif Require Import Machine GraphModel GraphSpec AttrModel.

Section Iso.
Context {N St : Type}.

(** The graph has node [n] under this id, and it was not removed. *)
Definition has_node (g : graph N St) (id : Z) (n : N) : Prop :=
  exists i, nth_error (g_ids g) i = Some id /\ sg_live (g_graph g) i = true /\ nth_error (g_nodes g) i = Some n.

(** Node [src] is connected to input [slot] of node [dst]. *)
Definition wire (g : graph N St) (src dst slot : Z) : Prop :=
  exists a b, nth_error (g_ids g) a = Some src /\ nth_error (g_ids g) b = Some dst /\ feeds (g_graph g) a b slot.

(** [U] is a part of both graphs: it contains the sources of its nodes, its
    nodes are alike and its connections the same, with one source per slot. *)
Record same_part (alike : N -> N -> Prop) (U : Z -> Prop) (g1 g2 : graph N St) : Prop := {
  sp_nodes : forall id, U id -> exists n1 n2, has_node g1 id n1 /\ has_node g2 id n2 /\ alike n1 n2;
  sp_wires : forall src dst slot, U dst -> (wire g1 src dst slot <-> wire g2 src dst slot);
  sp_closed : forall src dst slot, U dst -> wire g1 src dst slot -> U src;
  sp_slots : forall src src' dst slot, U dst -> wire g1 src dst slot -> wire g1 src' dst slot -> src = src'
}.

(** Everything the node depends on, itself included. *)
Inductive upstream (g : graph N St) (id : Z) : Z -> Prop :=
| us_self : upstream g id id
| us_source : forall src dst slot, upstream g id dst -> wire g src dst slot -> upstream g id src.
End Iso.

(** Related results of a call that may panic or not finish. *)
Definition same_outcome {A B} (R : A -> B -> Prop) (a : option (Res A)) (b : option (Res B)) : Prop :=
  match a, b with
  | None, None => True
  | Some Panic, Some Panic => True
  | Some (Ok a), Some (Ok b) => R a b
  | _, _ => False
  end.

Section Calls.
Context {N St Ca F W : Type}.
Variable ops : nodeops N St Ca F W.
Variable srt : edge_sort.

(** The node a call changes: its settings, its inputs, or itself. *)
Definition changes (call : gcall N F W) : option Z :=
  match call with
  | GAdd n => Some (n_id ops n)
  | GRemove id => Some id
  | GConnect _ dst _ => Some dst
  | GDisconnect dst _ => Some dst
  | GWrite id _ => Some id
  | GExecute _ _ => None
  end.

(** Several calls in a row. *)
Inductive then_calls : list (gcall N F W) -> graph N St -> Ca -> graph N St -> Ca -> Prop :=
| tc_nil : forall g c, then_calls [] g c g c
| tc_cons : forall call cs g c g1 c1 g' c', calls ops srt g c call g1 c1 -> then_calls cs g1 c1 g' c' ->
    then_calls (call :: cs) g c g' c'.

End Calls.

(** Nodes with the same type, id and settings, whatever their status. *)
Definition same_settings (n n' : node) : Prop :=
  nd_type n = nd_type n' /\ nd_id n = nd_id n' /\ nd_attrs n = nd_attrs n'.

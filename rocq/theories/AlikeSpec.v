(** When two graphs describe the same composition. *)
From Coq Require String.
Import String.StringSyntax.
From Coq Require Import Floats.SpecFloat.
From Verif Require Import Machine FloatModel PathModel HashModel EnumModel AttrModel AttrSpec StreamModel GraphModel GraphSpec NodeModel ViewSpec.
Local Open Scope string_scope.

(** A node that passes on what it is given: null nodes, nodes that are switched
    off, grades that process no channel, resampling by nothing, writers, and
    viewers that bake nothing. *)
Definition idle (n : node) : Prop :=
  match nd_type n with
  | TNull => True
  | TGrade => node_get_i32 n "enable" <> 1 \/ forall f, In f (rgba_names "process") -> node_get_i32 n f = 0
  | TTransform | TLens | TCrop => node_get_i32 n "enable" <> 1
  | TResample => node_get_i32 n "enable" <> 1 \/ node_get_i32 n "factor" = 0
  | TWrite => node_get_i32 n "enable" <> 0
  | TViewer => node_get_i32 n "enable" = 1 /\ told_to_bake (nd_attrs n) BakeNothing
  | TRead | TMerge => False
  end.

(** Following idle nodes upstream from [i] leads to [j]. *)
Inductive through (g : graph node stream) : nat -> nat -> Prop :=
| through_here i : through g i i
| through_idle i n k j : nth_error (g_nodes g) i = Some n -> idle n -> inputs_in_slot_order (g_graph g) i [k] -> through g k j -> through g i j.

Section Alike.
Context {D : Type}.
Variable x : externals D.
(** Two frames, file systems and graphs. *)
Variables (fr1 fr2 : spec_float) (d1 d2 : D) (g1 g2 : graph node stream).

(** The files a reader names at the two frames in the two file systems have the
    same contents. *)
Definition same_file (n : node) : Prop := nd_type n = TRead -> forall path1,
  expand_string (x_expand x) (node_get_str n "file_path") (frame_number fr1) = Ok path1 ->
  exists path2, expand_string (x_expand x) (node_get_str n "file_path") (frame_number fr2) = Ok path2 /\
    x_kind x d1 path1 = x_kind x d2 path2 /\ x_read x d1 path1 empty_image = x_read x d2 path2 empty_image.

(** [R] relates nodes of the two graphs that, idle nodes aside, have the same
    type and attributes and, slot by slot, related inputs. *)
Definition same_composition (R : nat -> nat -> Prop) : Prop := forall i j, R i j ->
  exists i' j' n m, through g1 i i' /\ through g2 j j' /\
    nth_error (g_nodes g1) i' = Some n /\ nth_error (g_nodes g2) j' = Some m /\
    nd_type n = nd_type m /\ nd_attrs n = nd_attrs m /\ same_file n /\
    forall l, inputs_in_slot_order (g_graph g1) i' l -> exists l', inputs_in_slot_order (g_graph g2) j' l' /\ Forall2 R l l'.
End Alike.

(** Nodes that hand on their first input. *)
From Coq Require String.
Import String.StringSyntax.
From Verif Require Import Machine AttrModel StreamModel.
Local Open Scope string_scope.

(** Two streams that differ in their cache key at most. *)
Definition same_view (s t : stream) : Prop :=
  st_state s = st_state t /\ st_block s = st_block t /\ st_display s = st_display t /\ st_data s = st_data t /\ st_spec s = st_spec t /\
  st_matrix s = st_matrix t /\ st_ops s = st_ops t /\ st_deformers s = st_deformers t.

(** Null nodes; crops, grades, transforms, lens distortions and resamplers that
    are not enabled; resamplers by nothing and grades of no channel; enabled
    writers told not to write; viewers that are off or bake nothing. *)
Definition passes (n : node) : Prop :=
  nd_type n = TNull \/
  In (nd_type n) [TCrop; TGrade; TTransform; TLens; TResample] /\ node_get_i32 n "enable" <> 1 \/
  nd_type n = TResample /\ node_get_i32 n "factor" = 0 \/
  nd_type n = TGrade /\ node_get_i32 n "process_r" = 0 /\ node_get_i32 n "process_g" = 0 /\
    node_get_i32 n "process_b" = 0 /\ node_get_i32 n "process_a" = 0 \/
  nd_type n = TWrite /\ node_get_i32 n "enable" <> 0 /\ node_get_i32 n "execute" = 0 \/
  nd_type n = TViewer /\ (node_get_i32 n "enable" = 0 \/ node_get_i32 n "bake_option" = 0).

(** Nodes that ask all of their input: all but viewers that bake. *)
Definition asks_all (n : node) : Prop :=
  nd_type n <> TViewer \/ node_get_i32 n "enable" = 0 \/ node_get_i32 n "bake_option" = 0.

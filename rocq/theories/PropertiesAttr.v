(** C32-C33: reading and writing node attributes. *)
From Coq Require String.
Import String.StringSyntax.
From Coq Require Import Floats.SpecFloat.
From Verif Require Import Machine AttrModel AttrSpec AttrProofs GraphModel GraphSpec GraphHistory2 GraphPlay
  StreamModel NodeModel NodeExamples.
Local Open Scope string_scope.

(* ------------------------------ C32 ------------------------------ *)

(** Whatever calls were made, on whatever nodes, reading an attribute returns
    the value last written to it with its own kind (or the value the node came
    with), and the zero value for ids never added: no other write, and no
    connection, removal or execution, changes it. *)
Theorem C32_reads_follow_history :
  forall (D : Type) p (x : externals D) srt s0 c0 h g c id k name,
  history (node_ops p x) srt s0 c0 h g c ->
  read_node g id (get_value k name) (zero_value k) =
  Ok (match attr_after h id k name with Some (_, v) => v | None => zero_value k end).
Proof. intros D. exact attr_history_value. Qed.
Print Assumptions C32_reads_follow_history.

(** One node: the written value is read back. *)
Theorem C32_write_read_back : forall n w, has_attr (nd_type n) (w_kind w) (w_name w) ->
  get_value (w_kind w) (w_name w) (node_write n w) = w_value w.
Proof. exact write_read_back. Qed.
Print Assumptions C32_write_read_back.

(** Every other attribute of the node keeps its value. *)
Theorem C32_write_no_leak : forall n w k name, (k, name) <> (w_kind w, w_name w) ->
  get_value k name (node_write n w) = get_value k name n.
Proof. exact write_no_leak. Qed.
Print Assumptions C32_write_no_leak.

(** The library's own "does this attribute exist" answers by the table. *)
Theorem C32_attr_exists : forall n name,
  node_attr_exists n name = true <-> exists k, has_attr (nd_type n) k name.
Proof. exact attr_exists_table. Qed.
Print Assumptions C32_attr_exists.

Definition c32_history : list (gcall node spec_float awrite) :=
  [GAdd (create_node TGrade 7); GAdd (create_node TGrade 8);
   GWrite 7 (WF32 "gain_r" 1073741824); GWrite 8 (WF32 "gain_r" 1056964608);
   GWrite 7 (WF32 "gain_g" 5); GConnect 7 8 0; GWrite 7 (WI32 "gain_r" 3);
   GExecute 8 [S754_zero false]; GWrite 7 (WF32 "lift_r" 9)].
Example C32_example :
  match played (node_ops Debug demo) insertion_sort 20 stream_new (demo_world [] 1000) c32_history with
  | Some (g, _) => read_node g 7 (get_value KF32 "gain_r") (VF 0) = Ok (VF 1073741824)
                   /\ read_node g 8 (get_value KF32 "gain_r") (VF 0) = Ok (VF 1056964608)
  | None => False
  end.
Proof. vm_compute. split; reflexivity. Qed.
Example C32_example_spec : attr_after c32_history 7 KF32 "gain_r" = Some (TGrade, VF 1073741824).
Proof. vm_compute. reflexivity. Qed.
Example C32_example_has : has_attr TGrade KF32 "gain_r" /\ ~ has_attr TGrade KI32 "gain_r".
Proof. split; [now apply is_attr_spec|]. intro H. apply is_attr_spec in H. discriminate H. Qed.

(* ------------------------------ C33 ------------------------------ *)

(** Reading what the node does not have (or not with this kind). *)
Theorem C33_unknown_read : forall n k name, ~ has_attr (nd_type n) k name ->
  get_value k name n = zero_value k.
Proof. exact get_lacks. Qed.
Print Assumptions C33_unknown_read.

(** Writing it changes nothing about the node. *)
Theorem C33_unknown_write : forall n w, ~ has_attr (nd_type n) (w_kind w) (w_name w) -> node_write n w = n.
Proof. exact write_lacks. Qed.
Print Assumptions C33_unknown_write.

(** In a graph such a write changes no node and no connection (it does mark the
    graph as modified). *)
Theorem C33_unknown_write_graph :
  forall (D : Type) p (x : externals D) (g g' : graph node stream) id i n w,
  find_index g id = Some i -> nth_error (g_nodes g) i = Some n ->
  ~ has_attr (nd_type n) (w_kind w) (w_name w) -> write_node (node_ops p x) g id w = Ok g' ->
  g_nodes g' = g_nodes g /\ g_graph g' = g_graph g /\ g_ids g' = g_ids g.
Proof. intros D. exact unknown_write_graph. Qed.
Print Assumptions C33_unknown_write_graph.

(** Calls that name an id that is not in the graph change nothing at all. *)
Theorem C33_unknown_node :
  forall (D : Type) p (x : externals D) srt (g : graph node stream) id,
  node_exists g id = false ->
  (forall w, write_node (node_ops p x) g id w = Ok g) /\
  (forall k name, read_node g id (get_value k name) (zero_value k) = Ok (zero_value k)) /\
  remove_node g id = (g, false) /\
  (forall slot, disconnect_input g id slot = g) /\
  (forall other slot, connect g id other slot = Ok g /\ connect g other id slot = Ok g) /\
  (forall fuel frames c, exists g',
     execute (node_ops p x) srt fuel g id frames c = Some (Ok (g', c, ExError)) /\
     g_nodes g' = g_nodes g /\ g_ids g' = g_ids g /\ g_graph g' = g_graph g /\ g_state g' = g_state g).
Proof. intros D. exact unknown_node. Qed.
Print Assumptions C33_unknown_node.

Example C33_example :
  get_value KI32 "no such attribute" (create_node TCrop 3) = VI 0
  /\ node_write (create_node TCrop 3) (WF32 "reformat" 77) = create_node TCrop 3.
Proof. split; [reflexivity|]. apply write_lacks. intro H. apply is_attr_spec in H. discriminate H. Qed.
Example C33_example_node :
  node_exists (graph_new stream_new : graph node stream) 5 = false.
Proof. reflexivity. Qed.

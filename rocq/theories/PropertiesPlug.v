(** C101: disconnecting an input, and nodes used through a single input. *)
From Verif Require Import Machine GraphModel GraphSpec GraphWalk GraphExec GraphHistory GraphHistory2 GraphFacts
  GraphLadder GraphPlay PropertiesGraph PlugSpec PlugProofs.

Definition Dn (d k : Z) : gcall toy Z Z := GDisconnect d k.
Definition Rm (id : Z) : gcall toy Z Z := GRemove id.

(** C101: disconnecting removes the connections to that input which are newer than every connection to
    another input of the node, and changes nothing else; the full claim, that the input is left empty, is
    refuted below. *)
Theorem C101_disconnect_partial : forall N St Ca F W (ops : nodeops N St Ca F W) (g : graph N St) dst slot b,
  wf_graph ops g -> find_index g dst = Some b ->
  let g' := disconnect_input g dst slot in
  (forall m n s, feeds (g_graph g') m n s <->
     feeds (g_graph g) m n s /\ ~ (n = b /\ s = slot /\ in_leading_run (g_graph g) m b slot)) /\
  g_nodes g' = g_nodes g /\ g_ids g' = g_ids g /\ g_output g' = g_output g.
Proof. intros N St Ca F W ops. exact (disconnect_exact ops). Qed.
Print Assumptions C101_disconnect_partial.

(** C101: the graph is marked as needing execution when something was disconnected, and is left exactly as
    it was otherwise. *)
Theorem C101_disconnect_state : forall N St Ca F W (ops : nodeops N St Ca F W) (g : graph N St) dst slot b,
  wf_graph ops g -> find_index g dst = Some b ->
  let g' := disconnect_input g dst slot in
  ((exists m, in_leading_run (g_graph g) m b slot) -> g_state g' = GsDirty) /\
  (~ (exists m, in_leading_run (g_graph g) m b slot) -> g' = g).
Proof. intros N St Ca F W ops. exact (disconnect_state ops). Qed.
Print Assumptions C101_disconnect_state.

(** C101: an unknown id changes nothing. *)
Theorem C101_disconnect_unknown : forall N St (g : graph N St) dst slot,
  find_index g dst = None -> disconnect_input g dst slot = g.
Proof. exact @disconnect_unknown. Qed.
Print Assumptions C101_disconnect_unknown.

(** C101: the input is empty afterwards when its connections are the node's most recent ones. *)
Theorem C101_disconnect_empties : forall N St Ca F W (ops : nodeops N St Ca F W) (g : graph N St) dst slot b newer older,
  wf_graph ops g -> find_index g dst = Some b ->
  filter (fun e => Nat.eqb (e_dst e) b) (sg_edges (g_graph g)) = newer ++ older ->
  (forall e, In e newer -> e_slot e = slot) -> (forall e, In e older -> e_slot e <> slot) ->
  forall m, ~ feeds (g_graph (disconnect_input g dst slot)) m b slot.
Proof. intros N St Ca F W ops. exact (disconnect_empties ops). Qed.
Print Assumptions C101_disconnect_empties.

(** C101 is false in general: the first input of a node with two stays connected. *)
Theorem C101_disconnect_refuted : exists h g c,
  history toy_ops insertion_sort 0 0%nat (h ++ [Dn 40 0]) g c /\ find_index g 40 = Some 2%nat /\
  feeds (g_graph g) 0 2 0.
Proof.
  set (h := [A 10 1; A 20 2; A 40 4; Cn 10 40 0; Cn 20 40 1]).
  exists h. destruct (build (h ++ [Dn 40 0])) as [(g, c)|] eqn:E; [|vm_compute in E; discriminate].
  exists g, c. split; [exact (played_history _ _ _ _ _ _ _ _ E)|].
  vm_compute in E. injection E as <- <-. vm_compute. auto.
Qed.
Print Assumptions C101_disconnect_refuted.

(** C101: a node only ever used through one input has exactly the source its calls say: that of the last
    connection, unless the input was disconnected or either end removed since. *)
Theorem C101_single_input : forall N St Ca F W (ops : nodeops N St Ca F W) srt, keeps_id ops ->
  forall s0 c0 h g c dst k b, history ops srt s0 c0 h g c -> one_input dst k h ->
  find_index g dst = Some b ->
  match plugged ops dst h with
  | None => forall m s, ~ feeds (g_graph g) m b s
  | Some src => exists a, find_index g src = Some a /\ forall m s, feeds (g_graph g) m b s <-> m = a /\ s = k
  end.
Proof. intros N St Ca F W ops srt. exact (plugged_final ops srt). Qed.
Print Assumptions C101_single_input.

Example C101_plugged :
  let h := [A 10 1; A 20 2; A 40 4; Cn 10 40 0; Cn 20 40 0] in
  plugged toy_ops 40 h = Some 20 /\ plugged toy_ops 40 (h ++ [Dn 40 0]) = None /\
  plugged toy_ops 40 (h ++ [Rm 20]) = None /\ plugged toy_ops 40 (h ++ [Rm 10]) = Some 20 /\
  plugged toy_ops 40 (h ++ [Cn 30 40 0]) = Some 20.
Proof. vm_compute. auto. Qed.

Example C101_hypotheses_met :
  let h := [A 10 1; A 20 2; A 40 4; Cn 10 40 0; Cn 20 40 0; Dn 40 0; Cn 10 40 0] in
  exists g c, history toy_ops insertion_sort 0 0%nat h g c /\ one_input 40 0 h /\
  find_index g 40 = Some 2%nat /\ feeds (g_graph g) 0 2 0.
Proof.
  intro h. destruct (build h) as [(g, c)|] eqn:E; [|vm_compute in E; discriminate].
  exists g, c. split; [exact (played_history _ _ _ _ _ _ _ _ E)|].
  vm_compute in E. injection E as <- <-. split; [repeat constructor; intros; reflexivity|]. vm_compute. auto.
Qed.

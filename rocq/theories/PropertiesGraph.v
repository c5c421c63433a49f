(** C22-C31, C52: the node graph. *)
From Coq Require Import Permutation Sorted.
From Verif Require Import Machine GraphModel GraphSpec GraphWalk GraphExec GraphMeaning GraphHistory
  GraphHistory2 GraphCount GraphLadder GraphFacts GraphPlay AloneSpec GraphAlone.

Definition A (id k : Z) : gcall toy Z Z := GAdd (Toy id k NsUninitialized).
Definition Cn (s d k : Z) : gcall toy Z Z := GConnect s d k.
Definition build (h : list (gcall toy Z Z)) := played toy_ops insertion_sort 100 0 0%nat h.

(* ------------------------------- C22 ------------------------------- *)

(** C22: after any history, an id is found iff a node with it was added. *)
Theorem C22_found_iff_added : forall N St Ca F W (ops : nodeops N St Ca F W) srt, keeps_id ops ->
  forall s0 c0 h g c id, history ops srt s0 c0 h g c ->
  (node_exists g id = true <-> In id (added ops h)).
Proof. intros N St Ca F W ops srt. exact (exists_iff_added ops srt). Qed.
Print Assumptions C22_found_iff_added.

(** C22: with distinct ids, the i-th id ever added denotes the i-th node, for ever. *)
Theorem C22_identity : forall N St Ca F W (ops : nodeops N St Ca F W) srt, keeps_id ops ->
  forall s0 c0 h g c i id, history ops srt s0 c0 h g c ->
  NoDup (added ops h) -> nth_error (added ops h) i = Some id ->
  exists n, find_index g id = Some i /\ nth_error (g_nodes g) i = Some n /\ n_id ops n = id.
Proof. intros N St Ca F W ops srt. exact (identity_kept ops srt). Qed.
Print Assumptions C22_identity.

(** C22: an attribute write is seen by that node ... *)
Theorem C22_write_seen : forall N St Ca F W (ops : nodeops N St Ca F W) R (g : graph N St) id w g' (f : N -> R) d,
  write_node ops g id w = Ok g' ->
  read_node g' id f d = read_node g id (fun n => f (n_write ops n w)) d.
Proof. intros N St Ca F W ops R. exact (@write_read_same N St Ca F W ops R). Qed.
Print Assumptions C22_write_seen.

(** ... and by no other. *)
Theorem C22_write_local : forall N St Ca F W (ops : nodeops N St Ca F W) R (g : graph N St) id id' w g' (f : N -> R) d,
  write_node ops g id w = Ok g' -> id' <> id -> read_node g' id' f d = read_node g id' f d.
Proof. intros N St Ca F W ops R. exact (@write_read_other N St Ca F W ops R). Qed.
Print Assumptions C22_write_local.

(** C22: adding, removing, connecting and disconnecting change no node. *)
Theorem C22_structural_calls_keep_nodes : forall N St Ca F W (ops : nodeops N St Ca F W) srt R
  (g : graph N St) c call g' c' (f : N -> R) d id,
  wf_graph ops g -> calls ops srt g c call g' c' ->
  match call with GWrite _ _ | GExecute _ _ => False | _ => True end ->
  In id (g_ids g) -> read_node g' id f d = read_node g id f d.
Proof. intros N St Ca F W ops srt R. exact (@structural_read N St Ca F W ops srt R). Qed.
Print Assumptions C22_structural_calls_keep_nodes.

(** C22: executing leaves every node that is not upstream of the start node
    untouched, and of the others it keeps everything computing keeps. *)
Theorem C22_execute_touches_upstream_only : forall N St Ca F W (ops : nodeops N St Ca F W) srt, sorts srt ->
  forall fuel (g : graph N St) id start frames c g' c' st, wf_graph ops g ->
  find_index g id = Some start -> execute ops srt fuel g id frames c = Some (Ok (g', c', st)) ->
  forall j, ~ reaches (g_graph g) j start -> nth_error (g_nodes g') j = nth_error (g_nodes g) j.
Proof. intros N St Ca F W ops srt. exact (execute_keeps_others ops srt). Qed.
Print Assumptions C22_execute_touches_upstream_only.

Theorem C22_execute_keeps_attributes : forall N St Ca F W (ops : nodeops N St Ca F W) srt K (key : N -> K),
  (forall n fr mode ins out c n' st out' c',
     n_compute ops n fr mode ins out c = Ok (n', st, out', c') -> key n' = key n) ->
  forall fuel (g : graph N St) id frames c g' c' st,
  execute ops srt fuel g id frames c = Some (Ok (g', c', st)) ->
  map key (g_nodes g') = map key (g_nodes g).
Proof. intros N St Ca F W ops srt K. exact (@execute_keys N St Ca F W ops srt K). Qed.
Print Assumptions C22_execute_keeps_attributes.

(** C22: without removals adding and connecting always work. *)
Theorem C22_add_never_panics : forall N St Ca F W (ops : nodeops N St Ca F W) srt, keeps_id ops ->
  forall s0 c0 h g c n, history ops srt s0 c0 h g c -> no_removal h ->
  exists g', add_node ops g n = Ok (g', length (added ops h)).
Proof. intros N St Ca F W ops srt. exact (add_never_panics ops srt). Qed.
Print Assumptions C22_add_never_panics.

Theorem C22_connect_never_panics : forall N St Ca F W (ops : nodeops N St Ca F W) srt, keeps_id ops ->
  forall s0 c0 h g c src dst slot, history ops srt s0 c0 h g c -> no_removal h ->
  exists g', connect g src dst slot = Ok g'.
Proof. intros N St Ca F W ops srt. exact (connect_never_panics ops srt). Qed.
Print Assumptions C22_connect_never_panics.

(** Every state reached by calls is well formed: the hypothesis [wf_graph] used
    below always holds. *)
Theorem C22_reachable_well_formed : forall N St Ca F W (ops : nodeops N St Ca F W) srt, keeps_id ops ->
  forall s0 c0 h g c, history ops srt s0 c0 h g c -> wf_graph ops g.
Proof. intros N St Ca F W ops srt. exact (history_wf_graph ops srt). Qed.
Print Assumptions C22_reachable_well_formed.

Definition h22 : list (gcall toy Z Z) :=
  [A 10 1; A 20 2; Cn 10 20 0; GWrite 20 7; A 30 3; GExecute 20 [5]].

Example C22_hypotheses_met : exists g c, history toy_ops insertion_sort 0 0%nat h22 g c /\
  keeps_id toy_ops /\ NoDup (added toy_ops h22) /\ no_removal h22 /\
  nth_error (added toy_ops h22) 1 = Some 20 /\
  read_node g 20 (fun n => (t_const n, t_status n)) (0, NsNonExistent) = Ok (7, NsValid) /\
  read_node g 30 (fun n => (t_const n, t_status n)) (0, NsNonExistent) = Ok (3, NsUninitialized) /\
  read_node g 99 (fun n => (t_const n, t_status n)) (0, NsNonExistent) = Ok (0, NsNonExistent) /\
  g_output g = 5 + 7 + (5 + 1).
Proof.
  destruct (build h22) as [(g, c)|] eqn:E; [|vm_compute in E; discriminate].
  exists g, c. split; [exact (played_history _ _ _ _ _ _ _ _ E)|].
  vm_compute in E. injection E as <- <-.
  split; [exact toy_keeps_id|]. split.
  { vm_compute. repeat constructor; cbn; intuition discriminate. }
  split. { intros id H. cbn in H. intuition discriminate. }
  vm_compute. repeat split.
Qed.

(** Distinct ids are needed: a second node with the same id can never be reached. *)
Theorem C22_duplicate_id_refuted : exists h g c,
  history toy_ops insertion_sort 0 0%nat h g c /\
  nth_error (added toy_ops h) 1 = Some 10 /\ find_index g 10 = Some O /\
  read_node g 10 t_const 0 = Ok 9 /\ nth_error (map t_const (g_nodes g)) 1 = Some 2.
Proof.
  exists [A 10 1; A 10 2; GWrite 10 9].
  destruct (build [A 10 1; A 10 2; GWrite 10 9]) as [(g, c)|] eqn:E; [|vm_compute in E; discriminate].
  exists g, c. split; [exact (played_history _ _ _ _ _ _ _ _ E)|].
  vm_compute in E. injection E as <- <-. vm_compute. repeat split.
Qed.
Print Assumptions C22_duplicate_id_refuted.

(* ------------------------------- C23 ------------------------------- *)

(** C23, full claim: after [remove_node] returns true the node does not exist
    and nodes can still be added.  False in every case: *)
Theorem C23_removed_node_still_exists : forall N St (g : graph N St) id g',
  remove_node g id = (g', true) -> node_exists g' id = true.
Proof. exact @remove_keeps_id. Qed.
Print Assumptions C23_removed_node_still_exists.

(** ... once a node has been removed every later [add_node] panics, whatever
    happens in between. *)
Theorem C23_adding_after_removal_panics : forall N St Ca F W (ops : nodeops N St Ca F W) srt, keeps_id ops ->
  forall s0 c0 h1 id h2 g c,
  history ops srt s0 c0 (h1 ++ GRemove id :: h2) g c -> In id (added ops h1) ->
  forall n, add_node ops g n = Panic.
Proof. intros N St Ca F W ops srt. exact (remove_breaks_adding ops srt). Qed.
Print Assumptions C23_adding_after_removal_panics.

(** ... and the removed node is still found, but connecting it panics. *)
Theorem C23_connecting_removed_panics : forall N St Ca F W (ops : nodeops N St Ca F W),
  forall (g : graph N St) src dst slot a b, wf_graph ops g ->
  find_index g src = Some a -> find_index g dst = Some b ->
  sg_live (g_graph g) a = false \/ sg_live (g_graph g) b = false ->
  connect g src dst slot = Panic.
Proof. intros N St Ca F W ops. exact (connect_removed_panics ops). Qed.
Print Assumptions C23_connecting_removed_panics.

Theorem C23_removed_node_vacant : forall N St Ca F W (ops : nodeops N St Ca F W),
  forall (g : graph N St) id g' i, wf_graph ops g -> find_index g id = Some i ->
  remove_node g id = (g', true) -> find_index g' id = Some i /\ sg_live (g_graph g') i = false.
Proof. intros N St Ca F W ops. exact (removed_vacant ops). Qed.
Print Assumptions C23_removed_node_vacant.

(** ... and executing it aborts, unless a node created after it is still there:
    then it is computed as before, without inputs. *)
Theorem C23_executing_removed : forall N St Ca F W (ops : nodeops N St Ca F W) srt, sorts srt ->
  forall (g : graph N St) id g' i, wf_graph ops g -> find_index g id = Some i -> remove_node g id = (g', true) ->
  ((forall j, sg_live (g_graph g') j = true -> (j < i)%nat) ->
     forall fuel frames c, execute ops srt fuel g' id frames c = Some Panic) /\
  ((exists j, (i < j)%nat /\ sg_live (g_graph g') j = true) ->
     forall n fr c fuel, nth_error (g_nodes g) i = Some n -> (forall h, n_validate ops n mode_all h [] = Ok []) ->
       execute ops srt (S (S fuel)) g' id [fr] c = alone ops g' i n fr c).
Proof. intros N St Ca F W ops srt. exact (execute_gone ops srt). Qed.
Print Assumptions C23_executing_removed.

(** Three nodes; the middle one and then the last one are removed. *)
Example C23_executing_removed_example : exists g c g1 g2,
  history toy_ops insertion_sort 0 0%nat [A 10 1; A 20 2; A 30 3; Cn 10 20 0] g c /\ wf_graph toy_ops g /\
  find_index g 20 = Some 1%nat /\ remove_node g 20 = (g1, true) /\ sg_live (g_graph g1) 2 = true /\
  (exists g', execute toy_ops insertion_sort 9 g1 20 [0] c = Some (Ok (g', 1%nat, ExSuccess)) /\ g_output g' = 2) /\
  remove_node g1 30 = (g2, true) /\ (forall j, sg_live (g_graph g2) j = true -> (j < 2)%nat) /\
  execute toy_ops insertion_sort 9 g2 30 [0] c = Some Panic /\ execute toy_ops insertion_sort 9 g2 20 [0] c = Some Panic.
Proof.
  destruct (build [A 10 1; A 20 2; A 30 3; Cn 10 20 0]) as [(g, c)|] eqn:E; [|vm_compute in E; discriminate].
  pose proof (played_history _ _ _ _ _ _ _ _ E) as H.
  exists g, c, (fst (remove_node g 20)), (fst (remove_node (fst (remove_node g 20)) 30)). split; [exact H|].
  split; [exact (proj1 (history_wf _ _ toy_keeps_id _ _ _ _ _ H))|].
  vm_compute in E. injection E as <- <-. split; [reflexivity|]. split; [reflexivity|]. split; [reflexivity|].
  split; [eexists; split; vm_compute; reflexivity|]. split; [reflexivity|].
  split; [intros [|[|[|[|j]]]] J; vm_compute in J; try discriminate J; lia|]. split; vm_compute; reflexivity.
Qed.

Theorem C23_remove_refuted : exists h g c g',
  history toy_ops insertion_sort 0 0%nat h g c /\ remove_node g 10 = (g', true) /\
  node_exists g' 10 = true /\ add_node toy_ops g' (Toy 30 3 NsUninitialized) = Panic /\
  connect g' 10 20 0 = Panic.
Proof.
  exists [A 10 1; A 20 2; Cn 10 20 0].
  destruct (build [A 10 1; A 20 2; Cn 10 20 0]) as [(g, c)|] eqn:E; [|vm_compute in E; discriminate].
  exists g, c, (fst (remove_node g 10)). split; [exact (played_history _ _ _ _ _ _ _ _ E)|].
  vm_compute in E. injection E as <- <-. vm_compute. repeat split.
Qed.
Print Assumptions C23_remove_refuted.

(** C23, what does hold: removal drops exactly the connections of that node.
    Missing: the node is neither forgotten nor is its place reusable. *)
Theorem C23_connections_removed_partial : forall N St Ca F W (ops : nodeops N St Ca F W),
  forall (g : graph N St) id g' i, wf_graph ops g ->
  find_index g id = Some i -> remove_node g id = (g', true) ->
  forall m n s, feeds (g_graph g') m n s <-> feeds (g_graph g) m n s /\ m <> i /\ n <> i.
Proof. intros N St Ca F W ops. exact (remove_edges_only ops). Qed.
Print Assumptions C23_connections_removed_partial.

(* ------------------------------- C24 ------------------------------- *)

(** C24: what [connect] does to the inputs, for every graph.  The new source
    feeds the slot and only that slot of the target; other targets and other
    slots of other sources are unchanged; an earlier source of the slot is
    dropped iff its edge is in the leading run of that slot.
    Missing from the full claim: exclusivity of the slot (next theorems). *)
Theorem C24_connect_partial : forall N St Ca F W (ops : nodeops N St Ca F W),
  forall (g : graph N St) src dst slot a b, wf_graph ops g ->
  find_index g src = Some a -> find_index g dst = Some b ->
  sg_live (g_graph g) a = true -> sg_live (g_graph g) b = true ->
  exists g', connect g src dst slot = Ok g' /\
    feeds (g_graph g') a b slot /\
    (forall m n s, n <> b -> (feeds (g_graph g') m n s <-> feeds (g_graph g) m n s)) /\
    (forall m s, m <> a -> s <> slot -> (feeds (g_graph g') m b s <-> feeds (g_graph g) m b s)) /\
    (forall m, m <> a -> (feeds (g_graph g') m b slot <->
       feeds (g_graph g) m b slot /\ ~ in_leading_run (g_graph g) m b slot)) /\
    (forall s, feeds (g_graph g') a b s -> s = slot) /\
    g_state g' = GsDirty.
Proof. intros N St Ca F W ops. exact (connect_spec ops). Qed.
Print Assumptions C24_connect_partial.

(** C24: the slot is exclusive when its edges are the target's most recent ones. *)
Theorem C24_exclusive_if_most_recent : forall N St Ca F W (ops : nodeops N St Ca F W),
  forall (g : graph N St) src dst slot a b newer older g', wf_graph ops g ->
  find_index g src = Some a -> find_index g dst = Some b ->
  sg_live (g_graph g) a = true -> sg_live (g_graph g) b = true ->
  filter (fun e => Nat.eqb (e_dst e) b) (sg_edges (g_graph g)) = newer ++ older ->
  (forall e, In e newer -> e_slot e = slot) -> (forall e, In e older -> e_slot e <> slot) ->
  connect g src dst slot = Ok g' ->
  forall m, feeds (g_graph g') m b slot -> m = a.
Proof. intros N St Ca F W ops. exact (connect_exclusive ops). Qed.
Print Assumptions C24_exclusive_if_most_recent.

Example C24_hypotheses_met : exists h g c,
  history toy_ops insertion_sort 0 0%nat h g c /\
  find_index g 30 = Some 2%nat /\ find_index g 40 = Some 3%nat /\
  sg_live (g_graph g) 2 = true /\ sg_live (g_graph g) 3 = true /\
  filter (fun e => Nat.eqb (e_dst e) 3) (sg_edges (g_graph g)) = [Edge 1 3 1] ++ [Edge 0 3 0].
Proof.
  exists [A 10 1; A 20 2; A 30 3; A 40 4; Cn 10 40 0; Cn 20 40 1].
  destruct (build [A 10 1; A 20 2; A 30 3; A 40 4; Cn 10 40 0; Cn 20 40 1]) as [(g, c)|] eqn:E; [|vm_compute in E; discriminate].
  exists g, c. split; [exact (played_history _ _ _ _ _ _ _ _ E)|].
  vm_compute in E. injection E as <- <-. vm_compute. repeat split.
Qed.

(** C24 is false in general: re-connecting an older slot leaves two sources. *)
Theorem C24_slot_exclusive_refuted : exists h g c,
  history toy_ops insertion_sort 0 0%nat h g c /\ no_removal h /\
  feeds (g_graph g) 0 3 0 /\ feeds (g_graph g) 2 3 0.
Proof.
  set (h := [A 10 1; A 20 2; A 30 3; A 40 4; Cn 10 40 0; Cn 20 40 1; Cn 30 40 0]).
  exists h. destruct (build h) as [(g, c)|] eqn:E; [|vm_compute in E; discriminate].
  exists g, c. split; [exact (played_history _ _ _ _ _ _ _ _ E)|].
  vm_compute in E. injection E as <- <-. split; [intros id H; cbn in H; intuition discriminate|].
  vm_compute. auto.
Qed.
Print Assumptions C24_slot_exclusive_refuted.

(** The same node cannot feed two slots: connecting it again moves it, so a
    different slot loses its source. *)
Theorem C24_other_slot_kept_refuted : exists h g g' c,
  history toy_ops insertion_sort 0 0%nat h g c /\ feeds (g_graph g) 0 1 0 /\
  connect g 10 20 1 = Ok g' /\ forall m, ~ feeds (g_graph g') m 1 0.
Proof.
  set (h := [A 10 1; A 20 2; Cn 10 20 0]).
  exists h. destruct (build h) as [(g, c)|] eqn:E; [|vm_compute in E; discriminate].
  pose proof (played_history _ _ _ _ _ _ _ _ E) as H. vm_compute in E. injection E as <- <-.
  do 3 eexists. split; [exact H|]. split; [vm_compute; auto|]. split; [vm_compute; reflexivity|].
  intros m X. vm_compute in X. destruct X as [X|[]]. discriminate.
Qed.
Print Assumptions C24_other_slot_kept_refuted.

(* ------------------------------- C25 ------------------------------- *)

(** C25: the inputs handed to a node are its distinct sources in slot order. *)
Theorem C25_inputs_in_slot_order : forall srt, sorts srt -> forall sg n,
  wf_stable sg -> sg_live sg n = true ->
  exists l, direct_upstream srt sg n = Ok l /\ inputs_in_slot_order sg n l.
Proof. exact inputs_delivered. Qed.
Print Assumptions C25_inputs_in_slot_order.

(** C25: that determines the list when no two sources share a slot. *)
Theorem C25_input_list_determined : forall sg n l l', wf_stable sg ->
  (forall a b s, feeds sg a n s -> feeds sg b n s -> a = b) ->
  inputs_in_slot_order sg n l -> inputs_in_slot_order sg n l' -> l = l'.
Proof. exact sorted_unique. Qed.
Print Assumptions C25_input_list_determined.

Theorem C25_insertion_sort_sorts : sorts insertion_sort.
Proof. exact insertion_sorts. Qed.
Print Assumptions C25_insertion_sort_sorts.

Example C25_hypotheses_met : exists h g c,
  history toy_ops insertion_sort 0 0%nat h g c /\ sg_live (g_graph g) 3 = true /\
  direct_upstream insertion_sort (g_graph g) 3 = Ok [1; 2; 0]%nat /\
  feeds (g_graph g) 1 3 0 /\ feeds (g_graph g) 2 3 1 /\ feeds (g_graph g) 0 3 2.
Proof.
  set (h := [A 10 1; A 20 2; A 30 3; A 40 4; Cn 10 40 2; Cn 20 40 0; Cn 30 40 1]).
  exists h. destruct (build h) as [(g, c)|] eqn:E; [|vm_compute in E; discriminate].
  exists g, c. split; [exact (played_history _ _ _ _ _ _ _ _ E)|].
  vm_compute in E. injection E as <- <-. vm_compute. intuition.
Qed.

(* ------------------------------- C26 ------------------------------- *)

(** C26: the traversal stops after at most [node_bound + 1] iterations on every
    graph, cyclic or not; it yields each upstream node once, nearest first, with
    its shortest distance. *)
Theorem C26_traversal : forall srt, sorts srt -> forall sg start fuel,
  wf_stable sg -> sg_live sg start = true -> (node_bound sg < fuel)%nat ->
  exists w l, walker_new sg start = Ok w /\ walk_all fuel srt sg w = Some (Ok l) /\
    NoDup (map fst l) /\ StronglySorted (fun a b => (snd a <= snd b)%nat) l /\
    (forall m, In m (map fst l) <-> reaches sg m start) /\
    (forall m d, In (m, d) l <-> is_dist sg start m d).
Proof. exact walk_visits. Qed.
Print Assumptions C26_traversal.

Example C26_hypotheses_met : exists h g c w,
  history toy_ops insertion_sort 0 0%nat h g c /\ sg_live (g_graph g) 0 = true /\
  chain (g_graph g) 1 1 /\ walker_new (g_graph g) 0 = Ok w /\
  walk_all 9 insertion_sort (g_graph g) w = Some (Ok [(0, 0); (1, 1); (3, 1); (2, 2)]%nat).
Proof.
  set (h := [A 10 1; A 20 2; A 30 3; A 40 4; A 50 5; Cn 20 10 0; Cn 40 10 1; Cn 30 20 0; Cn 20 30 0]).
  exists h. destruct (build h) as [(g, c)|] eqn:E; [|vm_compute in E; discriminate].
  exists g, c. eexists. split; [exact (played_history _ _ _ _ _ _ _ _ E)|].
  vm_compute in E. injection E as <- <-. split; [reflexivity|]. split.
  { apply chain_more with (n := 2%nat); [exists 0; vm_compute; auto|discriminate|].
    apply chain_one; [exists 0; vm_compute; auto|discriminate]. }
  split; [vm_compute; reflexivity|]. vm_compute. reflexivity.
Qed.

(* ------------------------------- C27 ------------------------------- *)

(** C27, full claim: executing any acyclic graph does not panic.  False: *)
Definition h27 (s1 s2 : Z) : list (gcall toy Z Z) :=
  [A 10 1; A 20 2; A 30 3; Cn 10 30 s1; Cn 20 30 s2; Cn 10 20 0].

Lemma h27_acyclic : forall s1 s2 g c, build (h27 s1 s2) = Some (g, c) -> 0 <= s1 < 2 -> 0 <= s2 < 2 ->
  forall n, ~ chain (g_graph g) n n.
Proof.
  intros s1 s2 g c E H1 H2.
  assert (X : forall m n, link (g_graph g) m n -> (m < n)%nat).
  { intros m n (s & L).
    assert (C1 : s1 = 0 \/ s1 = 1) by lia. assert (C2 : s2 = 0 \/ s2 = 1) by lia.
    destruct C1 as [-> | ->], C2 as [-> | ->]; vm_compute in E; injection E as <- _; cbn in L;
      repeat (destruct L as [L|L]; [injection L; lia|]); destruct L. }
  assert (Y : forall m n, chain (g_graph g) m n -> (m < n)%nat).
  { intros m n C. induction C as [m n L _|m n p L _ C IH]; [now apply X|]. apply X in L. lia. }
  intros n C. apply Y in C. lia.
Qed.

(** The output and its second input both use node 10: if the direct connection
    has the lower slot execution panics; with the slots swapped it works. *)
Theorem C27_acyclic_no_crash_refuted : exists g c,
  history toy_ops insertion_sort 0 0%nat (h27 0 1) g c /\ (forall n, ~ chain (g_graph g) n n) /\
  execute toy_ops insertion_sort 100 g 30 [0] c = Some Panic.
Proof.
  destruct (build (h27 0 1)) as [(g, c)|] eqn:E; [|vm_compute in E; discriminate].
  exists g, c. split; [exact (played_history _ _ _ _ _ _ _ _ E)|].
  split; [apply (h27_acyclic 0 1 g c E); lia|].
  vm_compute in E. injection E as <- <-. vm_compute. reflexivity.
Qed.
Print Assumptions C27_acyclic_no_crash_refuted.

Theorem C27_same_graph_other_slots : exists g c g' c',
  history toy_ops insertion_sort 0 0%nat (h27 1 0) g c /\ (forall n, ~ chain (g_graph g) n n) /\
  execute toy_ops insertion_sort 100 g 30 [0] c = Some (Ok (g', c', ExSuccess)).
Proof.
  destruct (build (h27 1 0)) as [(g, c)|] eqn:E; [|vm_compute in E; discriminate].
  do 4 eexists. split; [exact (played_history _ _ _ _ _ _ _ _ E)|].
  split; [apply (h27_acyclic 1 0 g c E); lia|].
  vm_compute in E. injection E as <- <-. vm_compute. reflexivity.
Qed.
Print Assumptions C27_same_graph_other_slots.

(** C27, exactly when: with nodes that do not panic themselves, execution panics
    iff the traversal visits some node before a node it feeds. *)
Theorem C27_panics_iff_partial : forall N St Ca F W (ops : nodeops N St Ca F W) srt, sorts srt ->
  forall (g : graph N St) id start frames c, total_ops ops -> wf_graph ops g ->
  find_index g id = Some start -> sg_live (g_graph g) start = true -> frames <> [] ->
  exists l, all_upstream srt (g_graph g) start = Ok l /\
    ((exists fuel, execute ops srt fuel g id frames c = Some Panic) <->
     exists l1 m l2 n l3, map fst l = l1 ++ m :: l2 ++ n :: l3 /\ link (g_graph g) m n).
Proof. intros N St Ca F W ops srt. exact (panics_iff ops srt). Qed.
Print Assumptions C27_panics_iff_partial.

(** C27: it always panics when a node feeds something further away than itself ... *)
Theorem C27_shortcut_panics : forall N St Ca F W (ops : nodeops N St Ca F W) srt, sorts srt ->
  forall (g : graph N St) id start frames c m n dm dn, wf_graph ops g ->
  find_index g id = Some start -> sg_live (g_graph g) start = true -> frames <> [] ->
  link (g_graph g) m n -> is_dist (g_graph g) start m dm -> is_dist (g_graph g) start n dn ->
  (dm < dn)%nat -> forall fuel, execute ops srt fuel g id frames c = Some Panic.
Proof. intros N St Ca F W ops srt. exact (shortcut_panics ops srt). Qed.
Print Assumptions C27_shortcut_panics.

(** ... and never on trees and graphs made of levels. *)
Theorem C27_level_graphs_do_not_panic : forall N St Ca F W (ops : nodeops N St Ca F W) srt, sorts srt ->
  forall (g : graph N St) id start frames c, total_ops ops -> wf_graph ops g ->
  find_index g id = Some start -> sg_live (g_graph g) start = true ->
  graded (g_graph g) start \/ tree (g_graph g) start ->
  exists fuel0 r, forall fuel, (fuel0 <= fuel)%nat ->
    execute ops srt fuel g id frames c = Some (Ok r).
Proof. intros N St Ca F W ops srt. exact (good_order_no_panic ops srt). Qed.
Print Assumptions C27_level_graphs_do_not_panic.

Example C27_hypotheses_met : total_ops sum_ops /\ wf_graph sum_ops (ladder 3) /\
  find_index (ladder 3) 0 = Some O /\ sg_live (g_graph (ladder 3)) 0 = true /\
  graded (g_graph (ladder 3)) 0.
Proof.
  split; [exact sum_total|]. split; [apply ladder_wf_graph|]. split; [reflexivity|]. split; [reflexivity|].
  apply ladder_graded.
Qed.

(* ------------------------------- C28 ------------------------------- *)

(** C28: on a graph of levels, with operations that ignore the requested mode,
    the output is the recursive meaning of the graph for the last frame. *)
Theorem C28_level_graph_meaning : forall N St Ca F W (ops : nodeops N St Ca F W) srt, sorts srt ->
  forall K (key : N -> K) val sem cinv, pure_ops ops key val sem cinv ->
  forall (g : graph N St) id start frames fr0 c, wf_graph ops g -> cinv c ->
  find_index g id = Some start -> sg_live (g_graph g) start = true ->
  graded (g_graph g) start ->
  (forall k fr m m' vs, sem k fr m vs = sem k fr m' vs) ->
  exists inputs fuel0 g' c', (forall n, inputs_in_slot_order (g_graph g) n (inputs n)) /\
    (forall fuel, (fuel0 <= fuel)%nat ->
      execute ops srt fuel g id (frames ++ [fr0]) c = Some (Ok (g', c', ExSuccess))) /\
    map key (g_nodes g') = map key (g_nodes g) /\ cinv c' /\
    means val sem inputs (map key (g_nodes g)) fr0 start mode_all (g_output g').
Proof. intros N St Ca F W ops srt HS K. exact (execute_denotes_graded ops srt HS). Qed.
Print Assumptions C28_level_graph_meaning.

(** C28: on a tree also for operations that do depend on the mode. *)
Theorem C28_tree_meaning : forall N St Ca F W (ops : nodeops N St Ca F W) srt, sorts srt ->
  forall K (key : N -> K) val sem cinv, pure_ops ops key val sem cinv ->
  forall (g : graph N St) id start frames fr0 c, wf_graph ops g -> cinv c ->
  find_index g id = Some start -> sg_live (g_graph g) start = true ->
  tree (g_graph g) start ->
  exists inputs fuel0 g' c', (forall n, inputs_in_slot_order (g_graph g) n (inputs n)) /\
    (forall fuel, (fuel0 <= fuel)%nat ->
      execute ops srt fuel g id (frames ++ [fr0]) c = Some (Ok (g', c', ExSuccess))) /\
    map key (g_nodes g') = map key (g_nodes g) /\ cinv c' /\
    means val sem inputs (map key (g_nodes g)) fr0 start mode_all (g_output g').
Proof. intros N St Ca F W ops srt HS K. exact (execute_denotes_tree ops srt HS). Qed.
Print Assumptions C28_tree_meaning.

(** C28: the recursive meaning is unique, so it determines the output. *)
Theorem C28_meaning_unique : forall St F K val (sem : K -> F -> Z -> list St -> St) inputs keys fr i mode v v',
  means val sem inputs keys fr i mode v -> means val sem inputs keys fr i mode v' -> v = v'.
Proof.
  intros St F K val sem inputs keys fr i mode v v' H.
  exact (proj1 (means_fun val sem inputs keys fr) i mode v H v').
Qed.
Print Assumptions C28_meaning_unique.

(** A level graph whose two top nodes share both inputs; input position matters. *)
Example C28_hypotheses_met : exists c' g',
  pure_ops sum_ops t_const (fun _ mode ks => map (fun _ => mode) ks)
    (fun k fr _ vs => k + fr + toy_sum 1 vs) (fun _ => True) /\
  wf_graph sum_ops (ladder 2) /\ graded (g_graph (ladder 2)) 0 /\
  execute sum_ops insertion_sort 100 (ladder 2) 0 [7; 4] 0%nat = Some (Ok (g', c', ExSuccess)) /\
  g_output g' = 5 + 11 * (5 + 11 * 5).
Proof.
  do 2 eexists. split; [exact sum_pure|]. split; [apply ladder_wf_graph|]. split; [apply ladder_graded|].
  split; [vm_compute; reflexivity|]. reflexivity.
Qed.

(** Without mode independence or a tree the claim fails: a shared node is
    computed once per path and the last mode wins for everyone. *)
Definition mode_ops : nodeops toy Z nat Z Z := {|
  n_id := t_id;
  n_hash := fun n fr hs => t_const n;
  n_validate := fun n mode _ ins => Ok (map (fun _ => if t_const n =? 1 then 0 else mode) ins);
  n_compute := fun n fr mode ins _ c =>
    Ok (Toy (t_id n) (t_const n) NsValid, NsValid, mode + toy_sum 1 ins, S c);
  n_write := fun n w => Toy (t_id n) w (t_status n)
|}.

Theorem C28_shared_mode_refuted : exists h g c g' c' v,
  let val := fun k mode (ks : list Z) => map (fun _ => if k =? 1 then 0 else mode) ks in
  let sem := fun (k : Z) (fr mode : Z) vs => mode + toy_sum 1 vs in
  let inputs := inputs_of insertion_sort (g_graph g) in
  pure_ops mode_ops t_const val sem (fun _ => True) /\
  history mode_ops insertion_sort 0 0%nat h g c /\ graded (g_graph g) 3 /\
  execute mode_ops insertion_sort 100 g 40 [0] c = Some (Ok (g', c', ExSuccess)) /\
  means val sem inputs (map t_const (g_nodes g)) 0 3%nat mode_all v /\ v <> g_output g'.
Proof.
  (* 10 feeds 20 and 30, which both feed 40; 20 asks for mode 0 *)
  set (h := [A 10 9; A 20 1; A 30 2; A 40 3; Cn 10 20 0; Cn 10 30 0; Cn 20 40 0; Cn 30 40 1]).
  exists h. destruct (played mode_ops insertion_sort 100 0 0%nat h) as [(g, c)|] eqn:E; [|vm_compute in E; discriminate].
  pose proof (played_history _ _ _ _ _ _ _ _ E) as H. exists g, c.
  vm_compute in E. injection E as <- <-.
  do 3 eexists. split; [|split; [exact H|split; [|split; [vm_compute; reflexivity|split]]]].
  - constructor; intros; cbn; [now rewrite map_map|apply map_length|].
    do 3 eexists. split; [reflexivity|]. cbn. auto.
  - exists (fun i => match i with 3 => 0 | 1 => 1 | 2 => 1 | _ => 2 end)%nat.
    intros m n _ (s & L) _. vm_compute in L.
    repeat (destruct L as [L|L]; [injection L as <- <- _; reflexivity|]). destruct L.
  - eapply means_node with (iks := [1; 2]); [vm_compute; reflexivity|vm_compute; repeat constructor|].
    vm_compute. repeat (eapply means_cons || eapply means_nil).
    + eapply means_node with (iks := [9]); [vm_compute; reflexivity|vm_compute; repeat constructor|].
      vm_compute. repeat (eapply means_cons || eapply means_nil).
      eapply means_node with (iks := []); [vm_compute; reflexivity|vm_compute; repeat constructor|].
      vm_compute. constructor.
    + eapply means_node with (iks := [9]); [vm_compute; reflexivity|vm_compute; repeat constructor|].
      vm_compute. repeat (eapply means_cons || eapply means_nil).
      eapply means_node with (iks := []); [vm_compute; reflexivity|vm_compute; repeat constructor|].
      vm_compute. constructor.
  - vm_compute. discriminate.
Qed.
Print Assumptions C28_shared_mode_refuted.

(* ------------------------------- C29 ------------------------------- *)

(** C29: [execute] returns or panics on every graph; it never runs for ever. *)
Theorem C29_execute_terminates : forall N St Ca F W (ops : nodeops N St Ca F W) srt, sorts srt ->
  forall (g : graph N St) id frames c, wf_graph ops g ->
  exists fuel0 r, forall fuel, (fuel0 <= fuel)%nat -> execute ops srt fuel g id frames c = Some r.
Proof. intros N St Ca F W ops srt. exact (always_finishes ops srt). Qed.
Print Assumptions C29_execute_terminates.

(** C29: a reachable cycle is detected, before any iteration of the validation
    loop (zero fuel suffices). *)
Theorem C29_cycle_detected : forall N St Ca F W (ops : nodeops N St Ca F W) srt, sorts srt ->
  forall (g : graph N St) id start frames c n, wf_graph ops g ->
  find_index g id = Some start -> sg_live (g_graph g) start = true -> frames <> [] ->
  reaches (g_graph g) n start -> chain (g_graph g) n n ->
  forall fuel, execute ops srt fuel g id frames c = Some Panic.
Proof. intros N St Ca F W ops srt. exact (cycle_panics ops srt). Qed.
Print Assumptions C29_cycle_detected.

Example C29_hypotheses_met : exists h g c,
  history toy_ops insertion_sort 0 0%nat h g c /\ find_index g 10 = Some O /\
  sg_live (g_graph g) 0 = true /\ reaches (g_graph g) 1 0 /\ chain (g_graph g) 1 1.
Proof.
  set (h := [A 10 1; A 20 2; A 30 3; Cn 20 10 0; Cn 30 20 0; Cn 20 30 0]).
  exists h. destruct (build h) as [(g, c)|] eqn:E; [|vm_compute in E; discriminate].
  exists g, c. split; [exact (played_history _ _ _ _ _ _ _ _ E)|].
  vm_compute in E. injection E as <- <-. split; [reflexivity|]. split; [reflexivity|]. split.
  - exists 1%nat. eapply up_step; [apply up_here|]. exists 0. vm_compute. auto.
  - apply chain_more with (n := 2%nat); [exists 0; vm_compute; auto|discriminate|].
    apply chain_one; [exists 0; vm_compute; auto|discriminate].
Qed.

(* ------------------------------- C30 ------------------------------- *)

(** C30: one call.  [effective] says that the call edits the graph. *)
Theorem C30_state_step : forall N St Ca F W (ops : nodeops N St Ca F W) srt (g : graph N St) c call g' c',
  wf_graph ops g -> calls ops srt g c call g' c' ->
  (effective g call g' -> g_state g' = GsDirty) /\
  (~ effective g call g' -> (forall id fs, call <> GExecute id fs) -> g_state g' = g_state g) /\
  ((forall id fs, call <> GExecute id fs) -> g_status g' = g_status g).
Proof. intros N St Ca F W ops srt. exact (state_step ops srt). Qed.
Print Assumptions C30_state_step.

(** C30: [execute] reports its status, sets Clean iff it succeeded, and fails on
    an unknown node; no other call changes the status. *)
Theorem C30_execute_status : forall N St Ca F W (ops : nodeops N St Ca F W) srt, keeps_id ops ->
  forall (g : graph N St) c call g' c', wf_graph ops g -> calls ops srt g c call g' c' ->
  match call with
  | GExecute id fs =>
      exists fuel st, execute ops srt fuel g id fs c = Some (Ok (g', c', st)) /\ g_status g' = st /\
        g_state g' = (if match st with ExSuccess => true | _ => false end then GsClean else g_state g) /\
        (~ In id (g_ids g) -> st = ExError)
  | _ => g_status g' = g_status g
  end.
Proof. intros N St Ca F W ops srt. exact (status_is_last_execute ops srt). Qed.
Print Assumptions C30_execute_status.

(** C30: Uninitialized exactly until the first node is added. *)
Theorem C30_uninitialized_iff_empty : forall N St Ca F W (ops : nodeops N St Ca F W) srt, keeps_id ops ->
  forall s0 c0 h g c, history ops srt s0 c0 h g c ->
  (g_state g = GsUninitialized <-> added ops h = []).
Proof. intros N St Ca F W ops srt. exact (uninitialized_iff ops srt). Qed.
Print Assumptions C30_uninitialized_iff_empty.

(** C30: a Clean graph was executed successfully, and since then neither its
    connections, its ids nor any attribute was edited. *)
Theorem C30_clean_is_up_to_date : forall N St Ca F W (ops : nodeops N St Ca F W) srt, keeps_id ops ->
  forall s0 c0 h g c, history ops srt s0 c0 h g c -> g_state g = GsClean ->
  exists h1 id fs h2 g1 c1 fuel g2 c2, h = h1 ++ GExecute id fs :: h2 /\
    history ops srt s0 c0 h1 g1 c1 /\
    execute ops srt fuel g1 id fs c1 = Some (Ok (g2, c2, ExSuccess)) /\
    sg_edges (g_graph g) = sg_edges (g_graph g1) /\ g_ids g = g_ids g1 /\
    (forall id' w, In id' (g_ids g1) -> ~ In (GWrite id' w) h2).
Proof. intros N St Ca F W ops srt. exact (clean_history ops srt). Qed.
Print Assumptions C30_clean_is_up_to_date.

Example C30_hypotheses_met : exists g c g1 c1 g2 c2,
  history toy_ops insertion_sort 0 0%nat h22 g c /\ g_state g = GsClean /\ g_status g = ExSuccess /\
  history toy_ops insertion_sort 0 0%nat (h22 ++ [GWrite 10 4]) g1 c1 /\
  g_state g1 = GsDirty /\ g_status g1 = ExSuccess /\
  history toy_ops insertion_sort 0 0%nat (h22 ++ [GExecute 20 [-1]]) g2 c2 /\
  g_state g2 = GsClean /\ g_status g2 = ExError.
Proof.
  destruct (build h22) as [(g, c)|] eqn:E; [|vm_compute in E; discriminate].
  destruct (build (h22 ++ [GWrite 10 4])) as [(g1, c1)|] eqn:E1; [|vm_compute in E1; discriminate].
  destruct (build (h22 ++ [GExecute 20 [-1]])) as [(g2, c2)|] eqn:E2; [|vm_compute in E2; discriminate].
  exists g, c, g1, c1, g2, c2.
  pose proof (played_history _ _ _ _ _ _ _ _ E) as H. pose proof (played_history _ _ _ _ _ _ _ _ E1) as H1.
  pose proof (played_history _ _ _ _ _ _ _ _ E2) as H2.
  vm_compute in E, E1, E2. injection E as <- <-. injection E1 as <- <-. injection E2 as <- <-.
  split; [exact H|]. split; [reflexivity|]. split; [reflexivity|]. split; [exact H1|]. split; [reflexivity|].
  split; [reflexivity|]. split; [exact H2|]. split; reflexivity.
Qed.

(* ------------------------------- C31 ------------------------------- *)

(** C31: frames after a failing one are not computed. *)
Theorem C31_stops_at_first_failure : forall N St Ca F W (ops : nodeops N St Ca F W) srt,
  forall fuel (g : graph N St) id fs1 fs2 c g' c' st,
  execute ops srt fuel g id fs1 c = Some (Ok (g', c', st)) -> st <> ExSuccess ->
  execute ops srt fuel g id (fs1 ++ fs2) c = Some (Ok (g', c', st)).
Proof. intros N St Ca F W ops srt. exact (stops_at_first_failure ops srt). Qed.
Print Assumptions C31_stops_at_first_failure.

(** C31: success means success on every frame. *)
Theorem C31_success_covers_prefixes : forall N St Ca F W (ops : nodeops N St Ca F W) srt,
  forall fuel (g : graph N St) id fs1 fs2 c g' c',
  execute ops srt fuel g id (fs1 ++ fs2) c = Some (Ok (g', c', ExSuccess)) ->
  exists g1 c1, execute ops srt fuel g id fs1 c = Some (Ok (g1, c1, ExSuccess)).
Proof. intros N St Ca F W ops srt. exact (success_covers_prefixes ops srt). Qed.
Print Assumptions C31_success_covers_prefixes.

(** C31: a failing execution keeps structure, ids, node identities and state. *)
Theorem C31_failure_keeps_state : forall N St Ca F W (ops : nodeops N St Ca F W) srt, keeps_id ops ->
  forall fuel (g : graph N St) id frames c g' c' st,
  execute ops srt fuel g id frames c = Some (Ok (g', c', st)) ->
  g_graph g' = g_graph g /\ g_ids g' = g_ids g /\ length (g_nodes g') = length (g_nodes g) /\
  map (n_id ops) (g_nodes g') = map (n_id ops) (g_nodes g) /\
  g_status g' = st /\ g_state g' = (match st with ExSuccess => GsClean | _ => g_state g end).
Proof. intros N St Ca F W ops srt. exact (execute_result ops srt). Qed.
Print Assumptions C31_failure_keeps_state.

Example C31_hypotheses_met : exists g c g' c' g'' c'',
  history toy_ops insertion_sort 0 0%nat (h27 1 0) g c /\
  execute toy_ops insertion_sort 100 g 30 [3; -1] c = Some (Ok (g', c', ExError)) /\
  execute toy_ops insertion_sort 100 g 30 [3] c = Some (Ok (g'', c'', ExSuccess)).
Proof.
  destruct (build (h27 1 0)) as [(g, c)|] eqn:E; [|vm_compute in E; discriminate].
  exists g, c. pose proof (played_history _ _ _ _ _ _ _ _ E) as H. vm_compute in E. injection E as <- <-.
  do 4 eexists. split; [exact H|]. split; vm_compute; reflexivity.
Qed.

(* ------------------------------- C52 ------------------------------- *)

(** C52, full claim: each upstream node is computed once per frame.  False:
    a graph with 2k+2 nodes can need 2^(k+1) - 1 computations. *)
Theorem C52_exponential_refuted : forall srt k, sorts srt ->
  exists (g : graph toy Z) fuel g' c', wf_graph sum_ops g /\ counting_ops sum_ops (fun c => c) /\
    length (g_nodes g) = (2 * k + 2)%nat /\
    execute sum_ops srt fuel g 0 [0] 0%nat = Some (Ok (g', c', ExSuccess)) /\
    S c' = (2 ^ S k)%nat.
Proof.
  intros srt k HS. destruct (ladder_exponential srt k HS) as (fuel & g' & c' & H1 & H2).
  exists (ladder k), fuel, g', c'. split; [apply ladder_wf_graph|]. split; [exact sum_counting|].
  split; [|split; assumption]. unfold ladder. cbn [g_nodes]. now rewrite map_length, seq_length.
Qed.
Print Assumptions C52_exponential_refuted.

(** C52: on trees it holds.  Missing: graphs with shared inputs. *)
Theorem C52_trees_compute_once_partial : forall N St Ca F W (ops : nodeops N St Ca F W) srt, sorts srt ->
  forall (g : graph N St) id start frames c cnt, total_ops ops ->
  counting_ops ops cnt -> wf_graph ops g -> find_index g id = Some start ->
  sg_live (g_graph g) start = true -> tree (g_graph g) start ->
  exists fuel0 g' c' L, (forall fuel, (fuel0 <= fuel)%nat ->
      execute ops srt fuel g id frames c = Some (Ok (g', c', ExSuccess))) /\
    NoDup L /\ (forall x, In x L <-> reaches (g_graph g) x start) /\
    cnt c' = (cnt c + length frames * length L)%nat.
Proof. intros N St Ca F W ops srt. exact (tree_computes_once ops srt). Qed.
Print Assumptions C52_trees_compute_once_partial.

Example C52_hypotheses_met : exists h g c g' c',
  history sum_ops insertion_sort 0 0%nat h g c /\ find_index g 30 = Some 2%nat /\
  sg_live (g_graph g) 2 = true /\ tree (g_graph g) 2 /\
  execute sum_ops insertion_sort 100 g 30 [0; 1] 0%nat = Some (Ok (g', c', ExSuccess)) /\ c' = 6%nat.
Proof.
  set (h := [A 10 1; A 20 2; A 30 3; Cn 10 30 0; Cn 20 30 1]).
  exists h. destruct (played sum_ops insertion_sort 100 0 0%nat h) as [(g, c)|] eqn:E; [|vm_compute in E; discriminate].
  exists g, c. pose proof (played_history _ _ _ _ _ _ _ _ E) as H. vm_compute in E. injection E as <- <-.
  do 2 eexists. split; [exact H|]. split; [reflexivity|]. split; [reflexivity|]. split.
  - split.
    + intros m n n' _ _ (s & L) (s' & L') _ _. vm_compute in L, L'.
      destruct L as [L|[L|[]]], L' as [L'|[L'|[]]]; congruence.
    + intros n _ (s & L). vm_compute in L. destruct L as [L|[L|[]]]; discriminate.
  - split; [vm_compute; reflexivity|reflexivity].
Qed.

(** Executing a graph of two connected nodes, one frame. *)
From Coq Require Import Permutation Sorted.
From Verif Require Import Machine GraphModel GraphSpec.

Lemma sorts_nil srt : sorts srt -> srt [] = [].
Proof. intro H. destruct (H []) as [P _]. apply Permutation_sym in P. now apply Permutation_nil in P. Qed.
Lemma sorts_one srt e : sorts srt -> srt [e] = [e].
Proof.
  intro H. destruct (H [e]) as [P _]. apply Permutation_sym in P. now apply Permutation_length_1_inv in P.
Qed.

Section Pair.
Context {N St Ca F W : Type}.
Variable ops : nodeops N St Ca F W.
Variable srt : edge_sort.
Hypothesis HS : sorts srt.

(** [a] feeds input [slot] of [b]. *)
Definition pair_graph (a b : N) (slot : Z) (out : St) (s : graph_state) (e : exec_status) : graph N St :=
  Graph [a; b] [n_id ops a; n_id ops b] (Stable [true; true] [] [Edge 0 1 slot]) out s e.

Notation sg slot := (Stable [true; true] [] [Edge 0 1 slot]).

Lemma pair_direct_0 slot : direct_upstream srt (sg slot) 0 = Ok [].
Proof.
  unfold direct_upstream, walker_new, walk_fuel. cbn -[walker_next].
  unfold walker_next at 1. cbn [w_stack w_disc sg_incoming sg_live sg_nodes nth sg_edges filter e_dst Nat.eqb].
  rewrite (sorts_nil srt HS). reflexivity.
Qed.
Lemma pair_direct_1 slot : direct_upstream srt (sg slot) 1 = Ok [0%nat].
Proof.
  unfold direct_upstream, walker_new, walk_fuel. cbn -[walker_next].
  unfold walker_next at 1. cbn [w_stack w_disc sg_incoming sg_live sg_nodes nth sg_edges filter e_dst Nat.eqb].
  rewrite (sorts_one srt _ HS). cbn -[walker_next].
  unfold walker_next at 1. cbn [w_stack w_disc sg_incoming sg_live sg_nodes nth sg_edges filter e_dst Nat.eqb].
  rewrite (sorts_nil srt HS). reflexivity.
Qed.
Lemma pair_upstream slot : all_upstream srt (sg slot) 1 = Ok [(1, 0); (0, 1)]%nat.
Proof.
  unfold all_upstream, walker_new, walk_fuel. cbn -[walker_next].
  unfold walker_next at 1. cbn [w_stack w_disc sg_incoming sg_live sg_nodes nth sg_edges filter e_dst Nat.eqb].
  rewrite (sorts_one srt _ HS). cbn -[walker_next].
  unfold walker_next at 1. cbn [w_stack w_disc sg_incoming sg_live sg_nodes nth sg_edges filter e_dst Nat.eqb].
  rewrite (sorts_nil srt HS). reflexivity.
Qed.

(** The source is computed first, asked for the mode the target's validation
    chose, then the target. *)
Theorem execute_pair fuel a b slot out s e fr c m a' sta sa c1 b' stb sb c2 :
  n_id ops a <> n_id ops b ->
  (forall h, n_validate ops b mode_all h [a] = Ok [m]) ->
  (forall h, n_validate ops a m h [] = Ok []) ->
  n_compute ops a fr m [] out c = Ok (a', sta, sa, c1) ->
  sta = NsValid \/ sta = NsWarning ->
  n_compute ops b fr mode_all [sa] sa c1 = Ok (b', stb, sb, c2) ->
  stb = NsValid \/ stb = NsWarning ->
  execute ops srt (3 + fuel) (pair_graph a b slot out s e) (n_id ops b) [fr] c =
  Some (Ok (Graph [a'; b'] [n_id ops a; n_id ops b] (sg slot) sb GsClean ExSuccess, c2, ExSuccess)).
Proof.
  intros NE VB VA CA SA CB SB.
  unfold execute, pair_graph, find_index. cbn [g_ids position].
  replace (n_id ops a =? n_id ops b) with false by (symmetry; now apply Z.eqb_neq).
  rewrite Z.eqb_refl. cbn [g_graph]. rewrite pair_upstream. cbn [map fst execute_frames execute_frame].
  unfold execute_frame. cbn [rev app hash_phase]. unfold get_node at 1. cbn [g_nodes nth_error bind].
  unfold input_hashes at 1. cbn [g_graph]. rewrite pair_direct_0. cbn [bind lookup_all].
  cbn [hash_phase]. unfold get_node at 1. cbn [g_nodes nth_error bind].
  unfold input_hashes at 1. cbn [g_graph]. rewrite pair_direct_1. cbn [bind lookup_all lookup Nat.eqb].
  cbn [hash_phase bind].
  cbn [Nat.add validate_loop g_graph]. rewrite pair_direct_1. cbn [bind get_nodes]. unfold get_node at 1 2.
  cbn [g_nodes nth_error bind lookup Nat.eqb]. rewrite VB. cbn [bind combine rev app].
  cbn [validate_loop g_graph]. rewrite pair_direct_0. cbn [bind get_nodes]. unfold get_node at 1.
  cbn [g_nodes nth_error bind lookup Nat.eqb]. rewrite VA. cbn [bind combine rev app validate_loop].
  cbn [rev app compute_phase]. unfold input_streams at 1. cbn [g_graph]. rewrite pair_direct_0.
  cbn [bind lookup_all]. unfold compute_node_output at 1, get_node at 1. cbn [g_nodes nth_error bind g_output].
  rewrite CA. cbn [bind].
  assert (SA' : forall (A : Type) (u v w : A),
    match sta with NsValid | NsWarning => u | NsUninitialized => v | NsError | NsNonExistent => w end = u)
    by (intros; destruct SA as [-> | ->]; reflexivity).
  rewrite SA'. cbn [bind]. unfold with_output, with_nodes. cbn [g_nodes g_ids g_graph g_output g_state g_status set_nth].
  unfold input_streams. cbn [g_graph]. rewrite pair_direct_1. cbn [bind lookup_all lookup Nat.eqb].
  unfold compute_node_output, get_node. cbn [g_nodes nth_error bind g_output]. rewrite CB. cbn [bind].
  assert (SB' : forall (A : Type) (u v w : A),
    match stb with NsValid | NsWarning => u | NsUninitialized => v | NsError | NsNonExistent => w end = u)
    by (intros; destruct SB as [-> | ->]; reflexivity).
  rewrite SB'. cbn [bind]. reflexivity.
Qed.
End Pair.

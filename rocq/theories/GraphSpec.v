(** Specification vocabulary for graphs: links, distances, well-formedness,
    call histories and the recursive meaning of a graph.  Uses only the data
    types of the model, none of its algorithms. *)
From Coq Require Import Permutation Sorted.
From Verif Require Import Machine GraphModel.

(** [m] feeds input [s] of [n]. *)
Definition feeds (g : stable) (m n : nat) (s : Z) : Prop := In (Edge m n s) (sg_edges g).
Definition link (g : stable) (m n : nat) : Prop := exists s, feeds g m n s.

(** [up g start k m]: walking [k] links upstream from [start] leads to [m]. *)
Inductive up (g : stable) (start : nat) : nat -> nat -> Prop :=
| up_here : up g start 0 start
| up_step : forall k n m, up g start k n -> link g m n -> up g start (S k) m.

Definition reaches (g : stable) (m start : nat) : Prop := exists k, up g start k m.

(** Shortest distance. *)
Definition is_dist (g : stable) (start m k : nat) : Prop :=
  up g start k m /\ forall j, up g start j m -> (k <= j)%nat.

(** What petgraph guarantees of its own structure (preserved by every call, see
    [reachable_wf]). *)
Record wf_stable (g : stable) : Prop := {
  ws_free_vacant : forall i, In i (sg_free g) <-> (i < length (sg_nodes g))%nat /\ sg_live g i = false;
  ws_ends_live : forall e, In e (sg_edges g) -> sg_live g (e_src e) = true /\ sg_live g (e_dst e) = true;
  ws_simple : NoDup (map (fun e => (e_src e, e_dst e)) (sg_edges g))
}.

(** Any sorting function: no assumption about equal keys. *)
Definition slot_le (a b : edge) : Prop := e_slot a <= e_slot b.
Definition sorts (srt : edge_sort) : Prop :=
  forall l, Permutation (srt l) l /\ Sorted slot_le (srt l).

(** [l] is the list of inputs of [n]: its distinct sources in slot order. *)
Definition inputs_in_slot_order (g : stable) (n : nat) (l : list nat) : Prop :=
  NoDup l /\
  (forall m, In m l <-> link g m n /\ m <> n) /\
  (forall l1 a l2 b l3, l = l1 ++ a :: l2 ++ b :: l3 ->
     forall sa sb, feeds g a n sa -> feeds g b n sb -> sa <= sb).

(** Every input is exactly one level further from the output. *)
Definition graded (g : stable) (start : nat) : Prop :=
  exists lvl : nat -> nat, forall m n,
    reaches g n start -> link g m n -> m <> n -> lvl m = S (lvl n).

(** No node feeds two places, and the output feeds nothing it depends on. *)
Definition tree (g : stable) (start : nat) : Prop :=
  (forall m n n', reaches g n start -> reaches g n' start ->
     link g m n -> link g m n' -> m <> n -> m <> n' -> n = n') /\
  (forall n, reaches g n start -> link g start n -> n = start).

(** A cycle through at least two nodes: along links between distinct nodes. *)
Inductive chain (g : stable) : nat -> nat -> Prop :=
| chain_one : forall m n, link g m n -> m <> n -> chain g m n
| chain_more : forall m n p, link g m n -> m <> n -> chain g n p -> chain g m p.

Definition acyclic_above (g : stable) (start : nat) : Prop :=
  forall n, reaches g n start -> ~ chain g n n.

(** The edge [m -> b] of this slot is newer than every edge into [b] with
    another slot. *)
Definition in_leading_run (g : stable) (m b : nat) (slot : Z) : Prop :=
  exists newer older,
    filter (fun e => Nat.eqb (e_dst e) b) (sg_edges g) = newer ++ Edge m b slot :: older /\
    forall e, In e newer -> e_slot e = slot.

Section Histories.
Context {N St Ca F W : Type}.
Variable ops : nodeops N St Ca F W.
Variable srt : edge_sort.

(** The public calls that change a graph. *)
Inductive gcall :=
| GAdd (n : N)
| GRemove (id : Z)
| GConnect (src dst slot : Z)
| GDisconnect (dst slot : Z)
| GWrite (id : Z) (w : W)
| GExecute (id : Z) (frames : list F).

(** [calls g c call g' c']: the call returns normally. *)
Definition calls (g : graph N St) (c : Ca) (call : gcall) (g' : graph N St) (c' : Ca) : Prop :=
  match call with
  | GAdd n => c' = c /\ exists i, add_node ops g n = Ok (g', i)
  | GRemove id => c' = c /\ g' = fst (remove_node g id)
  | GConnect s d k => c' = c /\ connect g s d k = Ok g'
  | GDisconnect d k => c' = c /\ g' = disconnect_input g d k
  | GWrite id w => c' = c /\ write_node ops g id w = Ok g'
  | GExecute id fs =>
      exists fuel st, execute ops srt fuel g id fs c = Some (Ok (g', c', st))
  end.

(** States reached by finite histories of calls that returned normally. *)
Inductive history (s0 : St) (c0 : Ca) : list gcall -> graph N St -> Ca -> Prop :=
| h_new : history s0 c0 [] (graph_new s0) c0
| h_call : forall h g c call g' c',
    history s0 c0 h g c -> calls g c call g' c' -> history s0 c0 (h ++ [call]) g' c'.

(** A node's id never changes (node.rs: [id] is only assigned on creation). *)
Definition keeps_id : Prop :=
  (forall n w, n_id ops (n_write ops n w) = n_id ops n) /\
  (forall n fr mode ins out c n' st out' c',
     n_compute ops n fr mode ins out c = Ok (n', st, out', c') -> n_id ops n' = n_id ops n).

Record wf_graph (g : graph N St) : Prop := {
  wg_stable : wf_stable (g_graph g);
  wg_ids : g_ids g = map (n_id ops) (g_nodes g);
  wg_len : length (sg_nodes (g_graph g)) = length (g_nodes g)
}.

(** The ids in order of creation. *)
Fixpoint added (h : list gcall) : list Z :=
  match h with
  | [] => []
  | GAdd n :: t => n_id ops n :: added t
  | _ :: t => added t
  end.

Definition no_removal (h : list gcall) : Prop := forall id, ~ In (GRemove id) h.

End Histories.
Arguments gcall : clear implicits.

(** The call changed the graph. *)
Definition effective {N St F W : Type} (g : graph N St) (call : gcall N F W) (g' : graph N St) : Prop :=
  match call with
  | GAdd _ => True
  | GRemove id => snd (remove_node g id) = true
  | GConnect s d _ => In s (g_ids g) /\ In d (g_ids g)
  | GDisconnect _ _ => sg_edges (g_graph g') <> sg_edges (g_graph g)
  | GWrite id _ => In id (g_ids g)
  | GExecute _ _ => False
  end.

(** Nodes that never panic themselves and answer for every input. *)
Definition total_ops {N St Ca F W} (ops : nodeops N St Ca F W) : Prop :=
  (forall n mode h ins, exists modes, n_validate ops n mode h ins = Ok modes /\ length modes = length ins) /\
  (forall n fr mode ins out c, exists r, n_compute ops n fr mode ins out c = Ok r).

(** Every computation succeeds and is counted in the cache. *)
Definition counting_ops {N St Ca F W} (ops : nodeops N St Ca F W) (cnt : Ca -> nat) : Prop :=
  forall n fr mode ins out c n' st out' c', n_compute ops n fr mode ins out c = Ok (n', st, out', c') ->
    (st = NsValid \/ st = NsWarning) /\ cnt c' = S (cnt c).

(** The nodes of the graph unfolded into a tree below [i]: one entry per path. *)
Inductive unfolds (inputs : nat -> list nat) : nat -> list nat -> Prop :=
| unfolds_node : forall i L, unfolds_all inputs (inputs i) L -> unfolds inputs i (i :: L)
with unfolds_all (inputs : nat -> list nat) : list nat -> list nat -> Prop :=
| unfolds_nil : unfolds_all inputs [] []
| unfolds_cons : forall i is L Ls, unfolds inputs i L -> unfolds_all inputs is Ls ->
    unfolds_all inputs (i :: is) (L ++ Ls).

(** Behaviour of nodes as a function of an immutable part [key] of the node
    (type and attributes), for all cache contents satisfying an invariant.  The
    node's status field and the previous output must not matter. *)
Record pure_ops {N St Ca F W K : Type} (ops : nodeops N St Ca F W)
    (key : N -> K) (val : K -> Z -> list K -> list Z) (sem : K -> F -> Z -> list St -> St)
    (cinv : Ca -> Prop) : Prop := {
  po_val : forall n mode h ins,
    n_validate ops n mode h ins = Ok (val (key n) mode (map key ins));
  po_len : forall k mode ks, length (val k mode ks) = length ks;
  po_sem : forall n fr mode ins out c, cinv c ->
    exists n' st c', n_compute ops n fr mode ins out c = Ok (n', st, sem (key n) fr mode ins, c') /\
      (st = NsValid \/ st = NsWarning) /\ key n' = key n /\ cinv c'
}.

(** The recursive meaning of node [i] asked for [mode]: its operation applied to
    the meanings of its inputs, each asked for the mode its validator chose.
    [inputs] gives the input list of each node. *)
Section Meaning.
Context {St F K : Type}.
Variables (val : K -> Z -> list K -> list Z) (sem : K -> F -> Z -> list St -> St).
Variables (inputs : nat -> list nat) (keys : list K) (fr : F).

Inductive means : nat -> Z -> St -> Prop :=
| means_node : forall i mode k iks vs,
    nth_error keys i = Some k ->
    Forall2 (fun j kj => nth_error keys j = Some kj) (inputs i) iks ->
    means_all (inputs i) (val k mode iks) vs ->
    means i mode (sem k fr mode vs)
with means_all : list nat -> list Z -> list St -> Prop :=
| means_nil : means_all [] [] []
| means_cons : forall i is mode modes v vs,
    means i mode v -> means_all is modes vs -> means_all (i :: is) (mode :: modes) (v :: vs).

(** [asked i mode]: some path from [start] asks node [i] for [mode]. *)
Inductive asked (start : nat) (mode0 : Z) : nat -> Z -> Prop :=
| asked_start : asked start mode0 start mode0
| asked_input : forall i mode k iks j m,
    asked start mode0 i mode ->
    nth_error keys i = Some k ->
    Forall2 (fun j kj => nth_error keys j = Some kj) (inputs i) iks ->
    In (j, m) (combine (inputs i) (val k mode iks)) ->
    asked start mode0 j m.

(** Nodes asked for different modes along different paths do not care. *)
Definition modes_agree (start : nat) (mode0 : Z) : Prop :=
  forall i m m' k, asked start mode0 i m -> asked start mode0 i m' ->
    nth_error keys i = Some k -> forall vs, sem k fr m vs = sem k fr m' vs.
End Meaning.

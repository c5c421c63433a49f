(** Model of src/graph.rs and src/graphiter.rs, over the parts of petgraph
    0.5.1's [StableGraph] that they use.

    What a node does (hash, validation, compute, attribute writes) is the
    parameter [ops]; the graph code treats it as opaque.  Logging, timing and
    debug strings are left out.  Node indexes are [nat]; u32 depth counters do
    not overflow (that would need 2^32 nodes). *)
From Verif Require Import Machine.

(** cxxbridge.rs 182-204 (GraphState, ExecuteStatus) and NodeStatus. *)
Inductive graph_state := GsUninitialized | GsDirty | GsClean.
Inductive exec_status := ExUninitialized | ExSuccess | ExError.
Inductive node_status := NsError | NsValid | NsWarning | NsNonExistent | NsUninitialized.
(** data.rs: ErrorCode. *)
Inductive error_code := EcFailure | EcInvalid | EcUninitialized.

(* ------------------------------------------------------------------ *)
(** * petgraph StableGraph *)

(** A directed edge with its u8 weight (the input slot of the target). *)
Record edge := Edge { e_src : nat; e_dst : nat; e_slot : Z }.

(** [sg_nodes]: one flag per index ever used, [true] = occupied.
    [sg_free]: vacant indexes, most recently freed first.
    [sg_edges]: all edges, most recently added first.  petgraph links a new edge
    at the head of both endpoint lists and unlinks without reordering, so the
    iteration order of a node's edges is the order of this list. *)
Record stable := Stable { sg_nodes : list bool; sg_free : list nat; sg_edges : list edge }.

Definition sg_empty : stable := Stable [] [] [].

Definition sg_live (g : stable) (i : nat) : bool := nth i (sg_nodes g) false.

Fixpoint set_nth {A} (l : list A) (i : nat) (a : A) : list A :=
  match l, i with
  | [], _ => []
  | _ :: t, O => a :: t
  | h :: t, S i' => h :: set_nth t i' a
  end.

(** [StableGraph::add_node]: a vacant index is reused first. *)
Definition sg_add_node (g : stable) : stable * nat :=
  match sg_free g with
  | i :: rest => (Stable (set_nth (sg_nodes g) i true) rest (sg_edges g), i)
  | [] => (Stable (sg_nodes g ++ [true]) [] (sg_edges g), length (sg_nodes g))
  end.

(** [StableGraph::remove_node]: incident edges go too; [false] if vacant. *)
Definition sg_remove_node (g : stable) (i : nat) : stable * bool :=
  if sg_live g i then
    (Stable (set_nth (sg_nodes g) i false) (i :: sg_free g)
       (filter (fun e => negb (Nat.eqb (e_src e) i) && negb (Nat.eqb (e_dst e) i)) (sg_edges g)),
     true)
  else (g, false).

(** [edges_directed(i, Incoming)]: nothing for a vacant index. *)
Definition sg_incoming (g : stable) (i : nat) : list edge :=
  if sg_live g i then filter (fun e => Nat.eqb (e_dst e) i) (sg_edges g) else [].

Definition is_edge (a b : nat) (e : edge) : bool := Nat.eqb (e_src e) a && Nat.eqb (e_dst e) b.

(** [find_edge(a, b)] followed by [remove_edge]: the most recent a -> b edge. *)
Fixpoint remove_first_edge (a b : nat) (l : list edge) : option (list edge) :=
  match l with
  | [] => None
  | e :: t =>
      if is_edge a b e then Some t
      else match remove_first_edge a b t with Some t' => Some (e :: t') | None => None end
  end.

(** [update_edge]: overwrite the weight of the existing a -> b edge in place. *)
Fixpoint overwrite_edge (a b : nat) (w : Z) (l : list edge) : option (list edge) :=
  match l with
  | [] => None
  | e :: t =>
      if is_edge a b e then Some (Edge a b w :: t)
      else match overwrite_edge a b w t with Some t' => Some (e :: t') | None => None end
  end.

(** [update_edge(a, b, w)]; [add_edge] panics if an endpoint is not a node. *)
Definition sg_update_edge (g : stable) (a b : nat) (w : Z) : Res stable :=
  match (if sg_live g a then overwrite_edge a b w (sg_edges g) else None) with
  | Some l => Ok (Stable (sg_nodes g) (sg_free g) l)
  | None =>
      if sg_live g a && sg_live g b
      then Ok (Stable (sg_nodes g) (sg_free g) (Edge a b w :: sg_edges g))
      else Panic
  end.

(** [node_bound]: last occupied index plus one (capacity of a visit map). *)
Fixpoint node_bound_from (i : nat) (l : list bool) : nat :=
  match l with
  | [] => O
  | b :: t => let r := node_bound_from (S i) t in
              if b then Nat.max (S i) r else r
  end.
Definition node_bound (g : stable) : nat := node_bound_from 0 (sg_nodes g).

(* ------------------------------------------------------------------ *)
(** * graphiter.rs *)

(** [sort_unstable_by_key] of the incoming edges by slot.  Nothing is assumed
    about its treatment of equal keys: the sort is a parameter of the model and
    theorems hold for every function that permutes and sorts. *)
Definition edge_sort := list edge -> list edge.

(** Insertion sort, what the standard library runs on at most 20 elements; used
    to evaluate the model in examples. *)
Fixpoint insert_edge (e : edge) (l : list edge) : list edge :=
  match l with
  | [] => [e]
  | h :: t => if e_slot e <? e_slot h then e :: l else h :: insert_edge e t
  end.
Definition insertion_sort : edge_sort :=
  fun l => fold_left (fun acc e => insert_edge e acc) l [].

(** graphiter.rs 30-34 [UpstreamEvalSearch].  [w_disc] lists the set bits. *)
Record walker := Walker { w_stack : list (nat * nat); w_disc : list nat }.

Definition memn (x : nat) (l : list nat) : bool := existsb (Nat.eqb x) l.

(** graphiter.rs 41-50 [new]; setting a bit beyond the map's capacity panics. *)
Definition walker_new (g : stable) (start : nat) : Res walker :=
  if Nat.ltb start (node_bound g) then Ok (Walker [(start, O)] [start]) else Panic.

(** graphiter.rs 66-71: the loop over the sorted edges. *)
Fixpoint push_sources (bound : nat) (depth : nat) (es : list edge) (w : walker) : Res walker :=
  match es with
  | [] => Ok w
  | e :: t =>
      if Nat.ltb (e_src e) bound then
        if memn (e_src e) (w_disc w) then push_sources bound depth t w
        else push_sources bound depth t
               (Walker (w_stack w ++ [(e_src e, S depth)]) (e_src e :: w_disc w))
      else Panic
  end.

(** graphiter.rs 54-76 [next]. *)
Definition walker_next (srt : edge_sort) (g : stable) (w : walker)
  : Res (option ((nat * nat) * walker)) :=
  match w_stack w with
  | [] => Ok None
  | (n, d) :: rest =>
      let* w' := push_sources (node_bound g) d (srt (sg_incoming g n)) (Walker rest (w_disc w)) in
      Ok (Some ((n, d), w'))
  end.

(** [while let Some(..) = walker.next(..)]: [None] = still running after [fuel]
    iterations.  Collects all (node, depth) pairs. *)
Fixpoint walk_all (fuel : nat) (srt : edge_sort) (g : stable) (w : walker)
  : option (Res (list (nat * nat))) :=
  match fuel with
  | O => None
  | S f =>
      match walker_next srt g w with
      | Panic => Some Panic
      | Ok None => Some (Ok [])
      | Ok (Some (nd, w')) =>
          match walk_all f srt g w' with
          | None => None
          | Some Panic => Some Panic
          | Some (Ok l) => Some (Ok (nd :: l))
          end
      end
  end.

(** graph.rs 349-364, the loop of [find_direct_upstream_nodes]. *)
Fixpoint walk_direct (fuel : nat) (srt : edge_sort) (g : stable) (w : walker)
  : option (Res (list nat)) :=
  match fuel with
  | O => None
  | S f =>
      match walker_next srt g w with
      | Panic => Some Panic
      | Ok None => Some (Ok [])
      | Ok (Some ((n, d), w')) =>
          if Nat.eqb d 0 then walk_direct f srt g w'
          else if Nat.ltb 1 d then Some (Ok [])
          else match walk_direct f srt g w' with
               | None => None
               | Some Panic => Some Panic
               | Some (Ok l) => Some (Ok (n :: l))
               end
      end
  end.

(** Enough iterations for any walk: every index is pushed at most once
    (the proofs show that [None] never occurs). *)
Definition walk_fuel (g : stable) : nat := S (S (node_bound g)).

(** graph.rs 336-345 [find_all_upstream_nodes] (with the depths kept). *)
Definition all_upstream (srt : edge_sort) (g : stable) (start : nat) : Res (list (nat * nat)) :=
  let* w := walker_new g start in
  match walk_all (walk_fuel g) srt g w with Some r => r | None => Panic end.

(** graph.rs 349-364 [find_direct_upstream_nodes]. *)
Definition direct_upstream (srt : edge_sort) (g : stable) (start : nat) : Res (list nat) :=
  let* w := walker_new g start in
  match walk_direct (walk_fuel g) srt g w with Some r => r | None => Panic end.

(* ------------------------------------------------------------------ *)
(** * graph.rs *)

Section Graph.
(** Types of nodes, streams, the image cache, frame values and attribute
    writes: opaque to the graph. *)
Context {N St C F W : Type}.

(** The node interface of node.rs 59-134 that graph.rs calls.
    [n_hash]: node.rs 81-88; [n_validate]: node.rs 90-106 (may panic: viewer);
    [n_compute]: node.rs 108-134, which also updates the node's status field and
    may change the graph's output stream and the cache; [n_write]: the
    set_attr_* family, node.rs 147-199. *)
Record nodeops := NodeOps {
  n_id : N -> Z;
  n_hash : N -> F -> list Z -> Z;
  n_validate : N -> Z -> Z -> list N -> Res (list Z);
  n_compute : N -> F -> Z -> list St -> St -> C -> Res (N * node_status * St * C);
  n_write : N -> W -> N
}.

Variable ops : nodeops.
Variable srt : edge_sort.

(** graph.rs 57-65 [GraphImpl]. *)
Record graph := Graph {
  g_nodes : list N;
  g_ids : list Z;
  g_graph : stable;
  g_output : St;
  g_state : graph_state;
  g_status : exec_status
}.

(** graph.rs 68-83 [new]; [s0] is the initial output stream. *)
Definition graph_new (s0 : St) : graph :=
  Graph [] [] sg_empty s0 GsUninitialized ExUninitialized.

Definition with_state (g : graph) (s : graph_state) : graph :=
  Graph (g_nodes g) (g_ids g) (g_graph g) (g_output g) s (g_status g).
Definition with_status (g : graph) (s : exec_status) : graph :=
  Graph (g_nodes g) (g_ids g) (g_graph g) (g_output g) (g_state g) s.
Definition with_graph (g : graph) (sg : stable) : graph :=
  Graph (g_nodes g) (g_ids g) sg (g_output g) (g_state g) (g_status g).
Definition with_nodes (g : graph) (l : list N) : graph :=
  Graph l (g_ids g) (g_graph g) (g_output g) (g_state g) (g_status g).
Definition with_output (g : graph) (s : St) : graph :=
  Graph (g_nodes g) (g_ids g) (g_graph g) s (g_state g) (g_status g).

(** graph.rs 250-258 [find_node_index_from_id]: first position of the id. *)
Fixpoint position (id : Z) (l : list Z) : option nat :=
  match l with
  | [] => None
  | h :: t => if h =? id then Some O
              else match position id t with Some i => Some (S i) | None => None end
  end.
Definition find_index (g : graph) (id : Z) : option nat := position id (g_ids g).

(** graph.rs 96-107 [add_node]; the assert is active in every profile. *)
Definition add_node (g : graph) (n : N) : Res (graph * nat) :=
  let nodes_index := length (g_nodes g) in
  let '(sg, index) := sg_add_node (g_graph g) in
  if Nat.eqb index nodes_index
  then Ok (Graph (g_nodes g ++ [n]) (g_ids g ++ [n_id ops n]) sg (g_output g) GsDirty (g_status g),
           index)
  else Panic.

(** graph.rs 110-128 [remove_node]. *)
Definition remove_node (g : graph) (id : Z) : graph * bool :=
  match find_index g id with
  | None => (g, false)
  | Some i =>
      let '(sg, removed) := sg_remove_node (g_graph g) i in
      if removed then (with_state (with_graph g sg) GsDirty, true) else (g, false)
  end.

(** graph.rs 239-247 [node_exists]. *)
Definition node_exists (g : graph) (id : Z) : bool :=
  match find_index g id with Some _ => true | None => false end.

(** graph.rs 130-214: reading an attribute, the type or the status of a node is
    [read] applied to the node found, [dflt] if the id is unknown.  Indexing
    [self.nodes] beyond its length would panic. *)
Definition read_node {A} (g : graph) (id : Z) (read : N -> A) (dflt : A) : Res A :=
  match find_index g id with
  | None => Ok dflt
  | Some i => match nth_error (g_nodes g) i with Some n => Ok (read n) | None => Panic end
  end.

(** graph.rs 151-214 [set_node_attr_*]: the graph becomes dirty even if the node
    has no such attribute. *)
Definition write_node (g : graph) (id : Z) (w : W) : Res graph :=
  match find_index g id with
  | None => Ok g
  | Some i =>
      match nth_error (g_nodes g) i with
      | Some n => Ok (with_state (with_nodes g (set_nth (g_nodes g) i (n_write ops n w))) GsDirty)
      | None => Panic
      end
  end.

Fixpoint take_while {A} (f : A -> bool) (l : list A) : list A :=
  match l with
  | [] => []
  | h :: t => if f h then h :: take_while f t else []
  end.

(** graph.rs 284-296: remove each collected edge again by its end points. *)
Definition remove_edges (g : graph) (es : list edge) : graph :=
  fold_left (fun g e =>
    let sg := g_graph g in
    match (if sg_live sg (e_src e) then remove_first_edge (e_src e) (e_dst e) (sg_edges sg)
           else None) with
    | Some l => with_state (with_graph g (Stable (sg_nodes sg) (sg_free sg) l)) GsDirty
    | None => g
    end) es g.

(** graph.rs 265-297 [disconnect_input]. *)
Definition disconnect_input (g : graph) (dst : Z) (slot : Z) : graph :=
  match find_index g dst with
  | None => g
  | Some i =>
      remove_edges g (take_while (fun e => e_slot e =? slot) (sg_incoming (g_graph g) i))
  end.

(** graph.rs 308-332 [connect]. *)
Definition connect (g : graph) (src dst : Z) (slot : Z) : Res graph :=
  match find_index g src with
  | None => Ok g
  | Some a =>
      match find_index g dst with
      | None => Ok g
      | Some b =>
          let g1 := disconnect_input g dst slot in
          let* sg := sg_update_edge (g_graph g1) a b slot in
          Ok (with_state (with_graph g1 sg) GsDirty)
      end
  end.

(* ---------------------------- execution ---------------------------- *)

(** FxHashMap<GraphIdx, _>: association list, latest binding first. *)
Fixpoint lookup {A} (i : nat) (l : list (nat * A)) : option A :=
  match l with
  | [] => None
  | (j, a) :: t => if Nat.eqb i j then Some a else lookup i t
  end.

Definition get_node (g : graph) (i : nat) : Res N :=
  match nth_error (g_nodes g) i with Some n => Ok n | None => Panic end.

(** The lookup loops of graph.rs 378-387 and 402-411: a missing parent panics. *)
Fixpoint lookup_all {A} (ms : list nat) (m : list (nat * A)) : Res (list A) :=
  match ms with
  | [] => Ok []
  | i :: t =>
      match lookup i m with
      | Some a => let* r := lookup_all t m in Ok (a :: r)
      | None => Panic
      end
  end.

(** graph.rs 392-412 [compute_node_input_hash_values]. *)
Definition input_hashes (g : graph) (i : nat) (hc : list (nat * Z)) : Res (list Z) :=
  let* ms := direct_upstream srt (g_graph g) i in lookup_all ms hc.

(** graph.rs 486-497: the hash loop, over the reversed node list. *)
Fixpoint hash_phase (g : graph) (frame : F) (order : list nat) (hc : list (nat * Z))
  : Res (list (nat * Z)) :=
  match order with
  | [] => Ok hc
  | i :: t =>
      let* n := get_node g i in
      let* hs := input_hashes g i hc in
      hash_phase g frame t ((i, n_hash ops n frame hs) :: hc)
  end.

Fixpoint get_nodes (g : graph) (is : list nat) : Res (list N) :=
  match is with
  | [] => Ok []
  | i :: t => let* n := get_node g i in let* r := get_nodes g t in Ok (n :: r)
  end.

(** data.rs NodeComputeMode::ALL. *)
Definition mode_all : Z := 15.

(** graph.rs 506-527: the validation loop.  [fuel] bounds the iterations,
    [None] = still running.  [validated] is in push order. *)
Fixpoint validate_loop (fuel : nat) (g : graph) (hc : list (nat * Z))
    (stack : list (nat * Z)) (validated : list (nat * Z)) : option (Res (list (nat * Z))) :=
  match fuel with
  | O => None
  | S f =>
      match stack with
      | [] => Some (Ok validated)
      | (i, mode) :: rest =>
          match
            (let* ms := direct_upstream srt (g_graph g) i in
             let* ins := get_nodes g ms in
             let* n := get_node g i in
             match lookup i hc with
             | None => Panic
             | Some h =>
                 let* modes := n_validate ops n mode h ins in
                 Ok (combine ms modes)
             end)
          with
          | Panic => Some Panic
          | Ok new => validate_loop f g hc (rev new ++ rest) (validated ++ new)
          end
      end
  end.

(** graph.rs 368-388 [compute_node_input_stream_data]. *)
Definition input_streams (g : graph) (i : nat) (sc : list (nat * St)) : Res (list St) :=
  let* ms := direct_upstream srt (g_graph g) i in lookup_all ms sc.

(** graph.rs 415-470 [compute_node_output]. *)
Definition compute_node_output (g : graph) (inputs : list St) (i : nat) (frame : F) (mode : Z)
    (c : C) (sc : list (nat * St)) : Res (graph * C * list (nat * St) * option error_code) :=
  let* n := get_node g i in
  let* (n', st, out, c') := n_compute ops n frame mode inputs (g_output g) c in
  let g' := with_output (with_nodes g (set_nth (g_nodes g) i n')) out in
  match st with
  | NsValid | NsWarning => Ok (g', c', (i, out) :: sc, None)
  | NsUninitialized => Ok (g', c', sc, Some EcUninitialized)
  | NsError | NsNonExistent => Ok (g', c', sc, Some EcFailure)
  end.

(** graph.rs 530-544: the compute loop, over the reversed validated list. *)
Fixpoint compute_phase (g : graph) (frame : F) (todo : list (nat * Z)) (c : C)
    (sc : list (nat * St)) : Res (graph * C * option error_code) :=
  match todo with
  | [] => Ok (g, c, None)
  | (i, mode) :: t =>
      let* ins := input_streams g i sc in
      let* (g', c', sc', e) := compute_node_output g ins i frame mode c sc in
      match e with
      | Some e => Ok (g', c', Some e)
      | None => compute_phase g' frame t c' sc'
      end
  end.

(** graph.rs 472-548 [execute_frame]. *)
Definition execute_frame (fuel : nat) (g : graph) (order : list nat) (frame : F) (c : C)
  : option (Res (graph * C * option error_code)) :=
  match hash_phase g frame (rev order) [] with
  | Panic => Some Panic
  | Ok hc =>
      match order with
      | [] => Some Panic
      | start :: _ =>
          match validate_loop fuel g hc [(start, mode_all)] [(start, mode_all)] with
          | None => None
          | Some Panic => Some Panic
          | Some (Ok validated) => Some (compute_phase g frame (rev validated) c [])
          end
      end
  end.

(** graph.rs 583-599: the frame loop; [inl] = all frames done. *)
Fixpoint execute_frames (fuel : nat) (g : graph) (order : list nat) (frames : list F) (c : C)
  : option (Res (graph * C * option error_code)) :=
  match frames with
  | [] => Some (Ok (g, c, None))
  | frame :: t =>
      match execute_frame fuel g order frame c with
      | None => None
      | Some Panic => Some Panic
      | Some (Ok (g', c', Some e)) => Some (Ok (g', c', Some e))
      | Some (Ok (g', c', None)) => execute_frames fuel g' order t c'
      end
  end.

(** graph.rs 588-598: error code to status. *)
Definition status_of_error (e : error_code) : exec_status :=
  match e with
  | EcFailure | EcInvalid => ExError
  | EcUninitialized => ExUninitialized
  end.

(** graph.rs 561-610 [execute]. *)
Definition execute (fuel : nat) (g : graph) (start_id : Z) (frames : list F) (c : C)
  : option (Res (graph * C * exec_status)) :=
  match find_index g start_id with
  | None => Some (Ok (with_status g ExError, c, ExError))
  | Some start =>
      match all_upstream srt (g_graph g) start with
      | Panic => Some Panic
      | Ok nds =>
          match execute_frames fuel g (map fst nds) frames c with
          | None => None
          | Some Panic => Some Panic
          | Some (Ok (g', c', Some e)) =>
              Some (Ok (with_status g' (status_of_error e), c', status_of_error e))
          | Some (Ok (g', c', None)) =>
              Some (Ok (with_status (with_state g' GsClean) ExSuccess, c', ExSuccess))
          end
      end
  end.

End Graph.

Arguments nodeops : clear implicits.
Arguments graph : clear implicits.

(** Model of the C++ classes a client works with: Node (src/node.cpp 28-54),
    Graph (src/graph.cpp 31-165) and Cache (src/cache.cpp 29-60), and of the
    functions that make lookup tables (src/colorlutimage.cpp 36-73).  A node as the
    client holds it is a type and an id; the graph and the cache are boxes
    around the Rust values. *)
From Coq Require Import String Floats.SpecFloat.
From Verif Require Import Machine CacheModel AttrModel StreamModel GraphModel NodeModel FxModel LutModel FrameModel.

(** node.cpp 36-42, 48-54 *)
Record handle := Handle { hd_type : node_type; hd_id : Z }.
(** node.cpp 28-34: [Node()] *)
Definition no_handle : handle := Handle TNull 0.

(** The three ways of naming a new node, graph.cpp 44-65: by an id drawn by the
    operating system (the drawn number is given), by a name, by an id. *)
Inductive creation := ByChance (drawn : Z) | ByName (name : list Z) | ById (id : Z).
Definition creation_id (how : creation) : Z :=
  match how with ByChance n => n | ByName name => generate_id_from_name name | ById id => id end.

Section Client.
Context {D : Type}.
Variable p : profile.
Variable x : externals D.
Variable srt : edge_sort.
Notation ops := (node_ops p x).

(** A client has graphs and caches, called by numbers.  [None] is a cache whose
    box has been moved out ([std::move], cache.cpp 33-35) and not put back. *)
Record client := Client {
  cl_graphs : nat -> graph node stream;
  cl_caches : nat -> option (cache shared);
  cl_disk : D
}.

(** graph.cpp 31-34 and cache.cpp 29-31: a new cache has no room. *)
Definition client_new (d : D) : client :=
  Client (fun _ => graph_new stream_new) (fun _ => Some (with_capacity 0)) d.

Definition put {A} (f : nat -> A) (i : nat) (a : A) : nat -> A := fun j => if Nat.eqb j i then a else f j.
Definition with_graph_at (cl : client) (i : nat) (g : graph node stream) : client :=
  Client (put (cl_graphs cl) i g) (cl_caches cl) (cl_disk cl).

(** The calls; the first number is the graph (or cache) they are made on.
    Not listed: data_debug_string, and get_box/set_box, which are for the
    library's own use. *)
Inductive ccall :=
| CCreate (i : nat) (t : node_type) (how : creation)
| CDelete (i : nat) (n : handle)
| CExists (i : nat) (n : handle)
| CAttrExists (i : nat) (n : handle) (name : string)
| CGetI32 (i : nat) (n : handle) (name : string)
| CGetF32 (i : nat) (n : handle) (name : string)
| CGetStr (i : nat) (n : handle) (name : string)
| CSet (i : nat) (n : handle) (w : awrite)
| CStatus (i : nat) (n : handle)
| CConnect (i : nat) (src dst : handle) (slot : Z)
| CDisconnect (i : nat) (dst : handle) (slot : Z)
| CExecuteWhole (i : nat) (n : handle) (frames : list Z) (k : nat)
| CExecute (i : nat) (n : handle) (frames : list spec_float) (k : nat)
| CState (i : nat)
| CExecStatus (i : nat)
| COutput (i : nat)
| CCount (k : nat)
| CUsed (k : nat)
| CCapacity (k : nat)
| CSetCapacity (k : nat) (value : Z)
| CTransformTable (from to : list Z) (n : Z) (k : nat)
| COpsTable (s : stream) (n nc : Z) (k : nat).

Inductive reply :=
| RNode (n : handle)
| RBool (b : bool)
| RNumber (z : Z)
| RBytes (l : list Z)
| RStatus (s : exec_status)
| RState (s : graph_state)
| RStream (s : stream)
| RTable (t : shared)
| RVoid.

(** What comes back of the calls: [None] is "not in so many steps" (see
    GraphModel [execute]).  Using a cache whose box is gone is undefined
    behaviour in C++, taken as a crash. *)
Definition gives {A} (r : Res A) (f : A -> client * reply) : option (Res (client * reply)) :=
  Some (match r with Ok a => Ok (f a) | Panic => Panic end).

(** graph.cpp 146-155: the cache is moved out, used and put back. *)
Definition execute_call (fuel : nat) (cl : client) (i : nat) (n : handle) (frames : list spec_float) (k : nat)
  : option (Res (client * reply)) :=
  match cl_caches cl k with
  | None => Some Panic
  | Some c =>
      match execute ops srt fuel (cl_graphs cl i) (hd_id n) frames (World c (cl_disk cl)) with
      | None => None
      | Some Panic => Some Panic
      | Some (Ok (g, w, st)) =>
          Some (Ok (Client (put (cl_graphs cl) i g) (put (cl_caches cl) k (Some (w_cache w))) (w_disk w), RStatus st))
      end
  end.

Definition of_cache (cl : client) (k : nat) (f : cache shared -> Z) : option (Res (client * reply)) :=
  match cl_caches cl k with None => Some Panic | Some c => Some (Ok (cl, RNumber (f c))) end.

(** colorlutimage.cpp 36-73: the cache is moved out, used and put back.  The
    stream of [COpsTable] is one the client got from [COutput]; it is moved out
    and put back too, and not changed. *)
Definition table_call (cl : client) (k : nat) (f : cache shared -> Res (shared * cache shared)) : option (Res (client * reply)) :=
  match cl_caches cl k with
  | None => Some Panic
  | Some c => gives (f c) (fun r => (Client (cl_graphs cl) (put (cl_caches cl) k (Some (snd r))) (cl_disk cl), RTable (fst r)))
  end.

Definition client_call (fuel : nat) (cl : client) (call : ccall) : option (Res (client * reply)) :=
  match call with
  | CCreate i t how =>                                                    (* graph.cpp 44-65 *)
      gives (add_node ops (cl_graphs cl i) (create_node t (creation_id how)))
        (fun r => (with_graph_at cl i (fst r), RNode (Handle t (creation_id how))))
  | CDelete i n =>                                                        (* graph.cpp 67-74 *)
      gives (Ok (remove_node (cl_graphs cl i) (hd_id n))) (fun r => (with_graph_at cl i (fst r), RBool (snd r)))
  | CExists i n =>                                                        (* graph.cpp 116-119 *)
      gives (Ok tt) (fun _ => (cl, RBool (node_exists (cl_graphs cl i) (hd_id n))))
  | CAttrExists i n name =>                                               (* graph.cpp 76-79 *)
      gives (read_node (cl_graphs cl i) (hd_id n) (fun m => node_attr_exists m name) false) (fun b => (cl, RBool b))
  | CGetF32 i n name =>                                                   (* graph.cpp 81-84 *)
      gives (read_node (cl_graphs cl i) (hd_id n) (fun m => node_get_f32 m name) 0) (fun z => (cl, RNumber z))
  | CGetI32 i n name =>                                                   (* graph.cpp 86-89 *)
      gives (read_node (cl_graphs cl i) (hd_id n) (fun m => node_get_i32 m name) 0) (fun z => (cl, RNumber z))
  | CGetStr i n name =>                                                   (* graph.cpp 91-94 *)
      gives (read_node (cl_graphs cl i) (hd_id n) (fun m => node_get_str m name) []) (fun l => (cl, RBytes l))
  | CSet i n w =>                                                         (* graph.cpp 96-109 *)
      gives (write_node ops (cl_graphs cl i) (hd_id n) w) (fun g => (with_graph_at cl i g, RVoid))
  | CStatus i n =>                                                        (* graph.cpp 111-114 *)
      gives (read_node (cl_graphs cl i) (hd_id n) nd_status (status_code NsNonExistent)) (fun z => (cl, RNumber z))
  | CDisconnect i dst slot =>                                             (* graph.cpp 121-124 *)
      gives (Ok (disconnect_input (cl_graphs cl i) (hd_id dst) slot)) (fun g => (with_graph_at cl i g, RVoid))
  | CConnect i src dst slot =>                                            (* graph.cpp 126-130 *)
      gives (connect (cl_graphs cl i) (hd_id src) (hd_id dst) slot) (fun g => (with_graph_at cl i g, RVoid))
  | CExecuteWhole i n frames k => execute_call fuel cl i n (map f64_of_Z frames) k    (* graph.cpp 132-144 *)
  | CExecute i n frames k => execute_call fuel cl i n frames k
  | CState i => Some (Ok (cl, RState (g_state (cl_graphs cl i))))         (* graph.cpp 36-38 *)
  | CExecStatus i => Some (Ok (cl, RStatus (g_status (cl_graphs cl i))))  (* graph.cpp 40-42 *)
  | COutput i => Some (Ok (cl, RStream (g_output (cl_graphs cl i))))      (* graph.cpp 162-165 *)
  | CCount k => of_cache cl k len                                         (* cache.cpp 41-43 *)
  | CUsed k => of_cache cl k used                                         (* cache.cpp 45-47 *)
  | CCapacity k => of_cache cl k capacity                                 (* cache.cpp 49-51 *)
  | CSetCapacity k value =>                                               (* cache.cpp 53-55 *)
      match cl_caches cl k with
      | None => Some Panic
      | Some c => gives (set_capacity image_bytes p c value)
          (fun c' => (Client (cl_graphs cl) (put (cl_caches cl) k (Some c')) (cl_disk cl), RVoid))
      end
  | CTransformTable from to n k => table_call cl k (get_transform_lut p x from to n)   (* colorlutimage.cpp 36-50 *)
  | COpsTable s n nc k => table_call cl k (get_ops_lut p x s n nc)                     (* colorlutimage.cpp 52-73 *)
  end.
End Client.
Arguments client : clear implicits.

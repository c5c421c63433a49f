(** What a client's caches and graphs go through, in terms of the client's calls. *)
From Coq Require Import String Floats.SpecFloat.
From Verif Require Import Machine CacheModel AttrModel StreamModel GraphModel NodeModel ClientModel ClientSpec.

(** What executing or asking for a table does to a cache: look a key up; if there is no picture, make
    one and hand it in under that key.  Operations and what they returned. *)
Inductive lookups {V} : list (op V) -> list (out V) -> Prop :=
| l_none : lookups [] []
| l_found k v ops outs : lookups ops outs -> lookups (Get k :: ops) (OGet (Some v) :: outs)
| l_made k v ops outs : lookups ops outs -> lookups (Get k :: Insert k v :: ops) (OGet None :: OUnit :: outs).

(** The operations on cache [k] that belong to a client's past: setting its
    capacity, and the lookups of the executions and tables it was lent to. *)
Inductive cache_past (k : nat) : list (ccall * reply) -> list (op shared) -> list (out shared) -> Prop :=
| cp_new : cache_past k [] [] []
| cp_other h call r ops outs : cache_past k h ops outs ->
    match call with CSetCapacity j _ | CExecute _ _ _ j | CExecuteWhole _ _ _ j | CTransformTable _ _ _ j | COpsTable _ _ _ j => j <> k | _ => True end ->
    cache_past k (h ++ [(call, r)]) ops outs
| cp_capacity h n r ops outs : cache_past k h ops outs ->
    cache_past k (h ++ [(CSetCapacity k n, r)]) (ops ++ [SetCapacity n]) (outs ++ [OUnit])
| cp_lent h call r ops outs ops' outs' : cache_past k h ops outs -> lookups ops' outs' ->
    match call with CExecute _ _ _ j | CExecuteWhole _ _ _ j | CTransformTable _ _ _ j | COpsTable _ _ _ j => j = k | _ => False end ->
    cache_past k (h ++ [(call, r)]) (ops ++ ops') (outs ++ outs').

(** The capacity last given to cache [k]. *)
Definition last_capacity (k : nat) (h : list (ccall * reply)) : Z :=
  fold_left (fun cap c => match fst c with CSetCapacity j n => if Nat.eqb j k then n else cap | _ => cap end) h 0.
(** The answer of the last execution on graph [i]. *)
Definition last_status (i : nat) (h : list (ccall * reply)) : exec_status :=
  fold_left (fun s c =>
    match c with
    | (CExecute j _ _ _, RStatus t) | (CExecuteWhole j _ _ _, RStatus t) => if Nat.eqb j i then t else s
    | _ => s
    end) h ExUninitialized.

(** Calls that only ask, about graph [i] or about cache [k]. *)
Definition about_graph (i : nat) (q : ccall) : Prop :=
  match q with
  | CExists j _ | CAttrExists j _ _ | CGetI32 j _ _ | CGetF32 j _ _ | CGetStr j _ _ | CStatus j _
  | CState j | CExecStatus j | COutput j => j = i
  | _ => False
  end.
Definition about_cache (k : nat) (q : ccall) : Prop :=
  match q with CCount j | CUsed j | CCapacity j => j = k | _ => False end.
(** Calls that may change graph [i], its output, or cache [k]. *)
Definition touches_graph (i : nat) (c : ccall) : Prop :=
  match c with
  | CCreate j _ _ | CDelete j _ | CSet j _ _ | CConnect j _ _ _ | CDisconnect j _ _ | CExecuteWhole j _ _ _ | CExecute j _ _ _ => j = i
  | _ => False
  end.
Definition executes (i : nat) (c : ccall) : Prop :=
  match c with CExecuteWhole j _ _ _ | CExecute j _ _ _ => j = i | _ => False end.
Definition touches_cache (k : nat) (c : ccall) : Prop :=
  match c with CSetCapacity j _ | CExecuteWhole _ _ _ j | CExecute _ _ _ j | CTransformTable _ _ _ j | COpsTable _ _ _ j => j = k | _ => False end.
(** What a call does to the state a graph reports: [h] is the past before the
    call, [r] its answer. *)
Definition next_state (i : nat) (h : list (ccall * reply)) (call : ccall) (r : reply) (s s' : graph_state) : Prop :=
  match call with
  | CCreate j _ _ => if Nat.eqb j i then s' = GsDirty else s' = s
  | CDelete j _ => if Nat.eqb j i && match r with RBool true => true | _ => false end then s' = GsDirty else s' = s
  | CSet j n _ =>
      match first_created i (hd_id n) h with
      | Some _ => if Nat.eqb j i then s' = GsDirty else s' = s
      | None => s' = s
      end
  | CConnect j a b _ =>
      match first_created i (hd_id a) h, first_created i (hd_id b) h with
      | Some _, Some _ => if Nat.eqb j i then s' = GsDirty else s' = s
      | _, _ => s' = s
      end
  | CDisconnect j n _ =>
      match first_created i (hd_id n) h with
      | Some _ => if Nat.eqb j i then s' = GsDirty \/ s' = s else s' = s
      | None => s' = s
      end
  | CExecuteWhole j _ _ _ | CExecute j _ _ _ =>
      if Nat.eqb j i && match r with RStatus ExSuccess => true | _ => false end then s' = GsClean else s' = s
  | _ => s' = s
  end.

(** Nothing on graph [i] that makes it dirty for certain: creating a node,
    setting an attribute, connecting or deleting, under ids in use. *)
Definition leaves_clean (i : nat) (h : list (ccall * reply)) (e : ccall * reply) : Prop :=
  match e with
  | (CCreate j _ _, _) => j <> i
  | (CSet j n _, _) => j = i -> first_created i (hd_id n) h = None
  | (CConnect j a b _, _) => j = i -> first_created i (hd_id a) h = None \/ first_created i (hd_id b) h = None
  | (CDelete j _, r) => j = i -> r = RBool false
  | _ => True
  end.

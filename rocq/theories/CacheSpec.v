(** Specification vocabulary for the image cache, stated on call histories
    and observable results, independently of how the cache works. *)
From Verif Require Import Machine CacheModel.

Section Spec.
Context {V : Type}.
Variable size : V -> Z.

(** Total bytes of a list of (key, image) pairs. *)
Fixpoint total_bytes (l : list (Z * V)) : Z :=
  match l with
  | [] => 0
  | (_, v) :: t => size v + total_bytes t
  end.

(** Bytes ever handed to [insert] in a history. *)
Fixpoint inserted_bytes (ops : list (op V)) : Z :=
  match ops with
  | [] => 0
  | Insert _ v :: t => size v + inserted_bytes t
  | _ :: t => inserted_bytes t
  end.

(** The arguments are what the Rust types allow: sizes and byte counts are
    usize values. *)
Definition op_wf (o : op V) : Prop :=
  match o with
  | Insert _ v => 0 <= size v
  | EvictBytes n => 0 <= n < two64
  | SetCapacity n => 0 <= n < two64
  | _ => True
  end.

(** A history that fits in memory: its inserted bytes can be counted in a usize. *)
Definition history_wf (ops : list (op V)) : Prop :=
  Forall op_wf ops /\ inserted_bytes ops < two64.

(** The capacity in force after a history, seen from the caller. *)
Fixpoint capacity_after (cap : Z) (ops : list (op V)) : Z :=
  match ops with
  | [] => cap
  | SetCapacity n :: t => capacity_after n t
  | _ :: t => capacity_after cap t
  end.

(** No inserted image is larger than the capacity in force at that moment
    (an insert into a zero-capacity cache is ignored, so any size will do). *)
Fixpoint no_oversized (cap : Z) (ops : list (op V)) : Prop :=
  match ops with
  | [] => True
  | Insert _ v :: t => (size v <= cap \/ cap = 0) /\ no_oversized cap t
  | SetCapacity n :: t => no_oversized n t
  | _ :: t => no_oversized cap t
  end.

(** The image most recently accepted under key [k]: the last [Insert k v] made
    while the capacity was not zero. *)
Fixpoint last_accepted (cap : Z) (k : Z) (acc : option V) (ops : list (op V))
  : option V :=
  match ops with
  | [] => acc
  | Insert k' v :: t =>
      if (k' =? k) && negb (cap =? 0) then last_accepted cap k (Some v) t
      else last_accepted cap k acc t
  | SetCapacity n :: t => last_accepted n k acc t
  | _ :: t => last_accepted cap k acc t
  end.

(** Keys in order of last use (oldest first): an accepted insert and a
    successful lookup are uses. *)
Definition touch (k : Z) (l : list Z) : list Z :=
  filter (fun k' => negb (k' =? k)) l ++ [k].

Fixpoint recency (cap : Z) (acc : list Z) (ops : list (op V)) (outs : list (out V))
  : list Z :=
  match ops, outs with
  | Insert k _ :: t, _ :: u =>
      recency cap (if cap =? 0 then acc else touch k acc) t u
  | Get k :: t, OGet (Some _) :: u => recency cap (touch k acc) t u
  | SetCapacity n :: t, _ :: u => recency n acc t u
  | _ :: t, _ :: u => recency cap acc t u
  | _, _ => acc
  end.

(** Number of lookups in a history. *)
Fixpoint count_gets (ops : list (op V)) : Z :=
  match ops with
  | [] => 0
  | Get _ :: t => 1 + count_gets t
  | _ :: t => count_gets t
  end.

(** The get-miss-then-insert discipline: whenever the history inserts a key, a
    lookup of that key at that moment would have missed. *)
Fixpoint insert_after_miss (p : profile) (c : cache V) (ops : list (op V)) : Prop :=
  match ops with
  | [] => True
  | o :: t =>
      match o with
      | Insert k _ => snd (get c k) = None
      | _ => True
      end /\
      match step size p c o with
      | Ok (c', _) => insert_after_miss p c' t
      | Panic => True
      end
  end.

(** Images displaced by a re-insertion of their own key, along a run: what a
    lookup just before an accepted insert returns once the insert has made
    room (an image evicted by the insert itself is not displaced by it). *)
Definition displaced_by (p : profile) (c : cache V) (o : op V) : list (Z * V) :=
  match o with
  | Insert k v =>
      if capacity c =? 0 then []
      else
        match step size p c (Insert k v) with
        | Panic => []
        | Ok (c', _) =>
            (* entries evicted by the call, read off the eviction counter *)
            let ev := Z.to_nat (evictions c' - evictions c) in
            filter (fun e => fst e =? k) (skipn ev (lru c))
        end
  | _ => []
  end.

Fixpoint displaced (p : profile) (c : cache V) (ops : list (op V)) : list (Z * V) :=
  match ops with
  | [] => []
  | o :: t =>
      displaced_by p c o ++
      match step size p c o with
      | Ok (c', _) => displaced p c' t
      | Panic => []
      end
  end.

(** Accepted inserts of a history. *)
Fixpoint accepted_inserts (cap : Z) (ops : list (op V)) : Z :=
  match ops with
  | [] => 0
  | Insert _ _ :: t => (if cap =? 0 then 0 else 1) + accepted_inserts cap t
  | SetCapacity n :: t => accepted_inserts n t
  | _ :: t => accepted_inserts cap t
  end.

End Spec.

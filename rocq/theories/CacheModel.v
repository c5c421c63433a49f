(** Model of the LRU image cache, /repo/src/cache.rs.

    A cached image is an abstract value of type [V]; only its byte size
    ([CachedImage::size_bytes], cache.rs:39-43) is looked at by the cache.
    Simplification: the diagnostic counters (hits, misses, inserts,
    evictions) are unbounded integers; logging is omitted. *)
From Verif Require Import Machine.

Section Cache.
Context {V : Type}.
Variable size : V -> Z.

(** ** linked_hash_map::LinkedHashMap as used by cache.rs.
    The list is the iteration order, least recently used entry first. *)
Notation entry := (Z * V)%type.

Definition lhm_remove (k : Z) (l : list entry) : list entry :=
  filter (fun e => negb (fst e =? k)) l.

Fixpoint lhm_find (k : Z) (l : list entry) : option V :=
  match l with
  | [] => None
  | (k', v) :: t => if k' =? k then Some v else lhm_find k t
  end.

(** [insert]: an existing key gets the new value and moves to the back. *)
Definition lhm_insert (k : Z) (v : V) (l : list entry) : list entry :=
  lhm_remove k l ++ [(k, v)].

(** [get_refresh]: a present key moves to the back. *)
Definition lhm_get_refresh (k : Z) (l : list entry) : option V * list entry :=
  match lhm_find k l with
  | Some v => (Some v, lhm_remove k l ++ [(k, v)])
  | None => (None, l)
  end.

(** struct CacheImpl, cache.rs:48-61. *)
Record cache : Type := mkCache {
  lru : list entry;
  capacity : Z;
  used : Z;
  hits : Z;
  misses : Z;
  inserts : Z;
  evictions : Z
}.

(** [CacheImpl::with_capacity], cache.rs:71-89. *)
Definition with_capacity (cap : Z) : cache := mkCache [] cap 0 0 0 0 0.

(** [CacheImpl::len], cache.rs:92-96. *)
Definition len (c : cache) : Z := Z.of_nat (length (lru c)).

(** [CacheImpl::evict], cache.rs:208-228; the boolean is [success]. *)
Definition evict (p : profile) (c : cache) : Res (cache * bool) :=
  match lru c with
  | [] => Ok (c, false)
  | (_, v) :: rest =>
      let* u := sub_u64 p (used c) (size v) in
      Ok (mkCache rest (capacity c) u (hits c) (misses c) (inserts c)
                  (evictions c + 1), true)
  end.

(** The loops [while cond && len > 0 { self.evict(); }] of
    [evict_bytes] (cache.rs:195-197) and [evict_all] (cache.rs:203-205).
    Each round removes the front entry, so the loop is structural in the
    number of entries [n]; [goon] is the loop condition on used_bytes. *)
Fixpoint evict_while (p : profile) (goon : Z -> bool) (n : nat) (c : cache)
  : Res cache :=
  match n with
  | O => Ok c
  | S n' =>
      if goon (used c) then
        let* r := evict p c in
        evict_while p goon n' (fst r)
      else Ok c
  end.

(** [CacheImpl::evict_all], cache.rs:200-206. *)
Definition evict_all (p : profile) (c : cache) : Res cache :=
  evict_while p (fun _ => true) (length (lru c)) c.

(** [CacheImpl::evict_bytes], cache.rs:168-198. *)
Definition evict_bytes (p : profile) (c : cache) (n_bytes : Z) : Res cache :=
  if len c =? 0 then Ok c
  else if used c =? 0 then Ok c
  else if capacity c =? 0 then evict_all p c
  else
    let* requested :=
      (if used c <? n_bytes then Ok 0 else sub_u64 p (used c) n_bytes) in
    evict_while p (fun u => requested <=? u) (length (lru c)) c.

(** [CacheImpl::set_capacity_bytes], cache.rs:117-123. *)
Definition set_capacity (p : profile) (c : cache) (value : Z) : Res cache :=
  let* c1 :=
    (if value <? used c then
       let* free := sub_u64 p (used c) value in evict_bytes p c free
     else Ok c) in
  Ok (mkCache (lru c1) value (used c1) (hits c1) (misses c1) (inserts c1)
              (evictions c1)).

(** [CacheImpl::insert], cache.rs:127-147. *)
Definition insert (p : profile) (c : cache) (k : Z) (v : V) : Res cache :=
  if capacity c =? 0 then Ok c
  else
    let value_bytes := size v in
    let* expected := add_u64 p (used c) value_bytes in
    let* c1 :=
      (if capacity c <=? expected then
         let* require_used := sub_u64 p (capacity c) value_bytes in
         let* free := sub_u64 p (used c) require_used in
         evict_bytes p c free
       else Ok c) in
    let* u := add_u64 p (used c1) value_bytes in
    Ok (mkCache (lhm_insert k v (lru c1)) (capacity c1) u (hits c1) (misses c1)
                (inserts c1 + 1) (evictions c1)).

(** [CacheImpl::get], cache.rs:150-163. *)
Definition get (c : cache) (k : Z) : cache * option V :=
  match lhm_get_refresh k (lru c) with
  | (Some v, l) =>
      (mkCache l (capacity c) (used c) (hits c + 1) (misses c) (inserts c)
               (evictions c), Some v)
  | (None, l) =>
      (mkCache l (capacity c) (used c) (hits c) (misses c + 1) (inserts c)
               (evictions c), None)
  end.

(** ** The public calls as operations of a state machine. *)
Inductive op : Type :=
| Insert (k : Z) (v : V)
| Get (k : Z)
| EvictOne
| EvictAll
| EvictBytes (n : Z)
| SetCapacity (n : Z).

(** What the caller observes: [get] returns an option, the others nothing
    of interest (evict's boolean is kept). *)
Inductive out : Type :=
| OUnit
| OGet (r : option V)
| OEvict (b : bool).

Definition step (p : profile) (c : cache) (o : op) : Res (cache * out) :=
  match o with
  | Insert k v => let* c1 := insert p c k v in Ok (c1, OUnit)
  | Get k => let (c1, r) := get c k in Ok (c1, OGet r)
  | EvictOne => let* r := evict p c in Ok (fst r, OEvict (snd r))
  | EvictAll => let* c1 := evict_all p c in Ok (c1, OUnit)
  | EvictBytes n => let* c1 := evict_bytes p c n in Ok (c1, OUnit)
  | SetCapacity n => let* c1 := set_capacity p c n in Ok (c1, OUnit)
  end.

Fixpoint run (p : profile) (c : cache) (ops : list op) : Res (cache * list out) :=
  match ops with
  | [] => Ok (c, [])
  | o :: ops' =>
      let* r := step p c o in
      let* r' := run p (fst r) ops' in
      Ok (fst r', snd r :: snd r')
  end.

End Cache.

Arguments cache : clear implicits.
Arguments op : clear implicits.
Arguments out : clear implicits.

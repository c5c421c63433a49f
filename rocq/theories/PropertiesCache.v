(** Property theorems C01-C08, C51: the image cache (/repo/src/cache.rs). *)
From Coq Require Import Permutation.
From Verif Require Import Machine CacheModel CacheSpec CacheProofs.

(** A small history used by the examples: images are their own byte size. *)
Definition ex_size (v : Z) : Z := v.
Definition ex_ops : list (op Z) :=
  [Insert 1 40; Insert 2 30; Get 1; Insert 3 50; Get 2; SetCapacity 60; Insert 1 20; Get 3].

(** C01. *)
Theorem C01_cache_byte_budget :
  forall (V : Type) (size : V -> Z) (p : profile) (cap : Z) (ops : list (op V)),
    0 <= cap < two64 -> history_wf size ops -> no_oversized size cap ops ->
    exists c outs,
      run size p (with_capacity cap) ops = Ok (c, outs) /\
      capacity c = capacity_after cap ops /\
      total_bytes size (lru c) <= capacity c.
Proof. exact @budget_final. Qed.
Print Assumptions C01_cache_byte_budget.

Example C01_hypotheses_met :
  0 <= 100 < two64 /\ history_wf ex_size ex_ops /\ no_oversized ex_size 100 ex_ops /\
  exists c outs, run ex_size Debug (with_capacity 100) ex_ops = Ok (c, outs) /\
                 lru c = [(1, 20)] /\ evictions c = 3.
Proof.
  unfold two64. split; [lia|]. split.
  - split; [|vm_compute; reflexivity]. unfold ex_ops. repeat (apply Forall_cons; [cbn; unfold ex_size, two64; try lia; exact I|]). apply Forall_nil.
  - split; [cbn; unfold ex_size; lia|]. eexists. eexists. split; [vm_compute; reflexivity|]. split; reflexivity.
Qed.

(** C02. *)
Theorem C02_used_bytes_exact :
  forall (V : Type) (size : V -> Z) (p : profile) (cap : Z) (ops : list (op V)) c outs,
    0 <= cap < two64 -> history_wf size ops ->
    run size p (with_capacity cap) ops = Ok (c, outs) ->
    insert_after_miss size p (with_capacity cap) ops ->
    used c = total_bytes size (lru c).
Proof. exact @exact_final. Qed.
Print Assumptions C02_used_bytes_exact.

Theorem C02_used_bytes_never_low :
  forall (V : Type) (size : V -> Z) (p : profile) (cap : Z) (ops : list (op V)) c outs,
    0 <= cap < two64 -> history_wf size ops ->
    run size p (with_capacity cap) ops = Ok (c, outs) ->
    total_bytes size (lru c) <= used c < two64.
Proof. exact @lower_final. Qed.
Print Assumptions C02_used_bytes_never_low.

(** How far off the report is: exactly the images displaced by re-insertion. *)
Theorem C02_used_bytes_overcount :
  forall (V : Type) (size : V -> Z) (p : profile) (cap : Z) (ops : list (op V)) c outs,
    0 <= cap < two64 -> history_wf size ops ->
    run size p (with_capacity cap) ops = Ok (c, outs) ->
    used c = total_bytes size (lru c)
             + total_bytes size (displaced size p (with_capacity cap) ops).
Proof. exact @accounting_final. Qed.
Print Assumptions C02_used_bytes_overcount.

Example C02_hypotheses_met :
  insert_after_miss ex_size Release (with_capacity 100) [Insert 1 40; Get 1; Insert 2 30; Insert 3 45; Get 1] /\
  exists c outs, run ex_size Release (with_capacity 100) [Insert 1 40; Get 1; Insert 2 30; Insert 3 45; Get 1]
                 = Ok (c, outs) /\ used c = 75 /\ lru c = [(2, 30); (3, 45)].
Proof. split; [vm_compute; tauto|]. eexists. eexists. split; [vm_compute; reflexivity|]. split; reflexivity. Qed.

(** Without the discipline the report is wrong: re-inserting key 1 charges it twice,
    and the phantom bytes survive even when the cache is empty. *)
Theorem C02_reinsert_refuted :
  exists (cap : Z) (ops : list (op Z)) c outs,
    0 <= cap < two64 /\ history_wf ex_size ops /\ no_oversized ex_size cap ops /\
    run ex_size Release (with_capacity cap) ops = Ok (c, outs) /\
    lru c = [] /\ used c = 40.
Proof.
  exists 100, [Insert 1 40; Insert 1 40; EvictAll].
  eexists. eexists. split; [unfold two64; lia|]. split.
  - split; [|vm_compute; reflexivity].
    repeat (apply Forall_cons; [cbn; unfold ex_size; try lia; exact I|]). apply Forall_nil.
  - split; [cbn; unfold ex_size; lia|]. split; [vm_compute; reflexivity|]. split; reflexivity.
Qed.
Print Assumptions C02_reinsert_refuted.

(** C03. *)
Theorem C03_get_returns_last_inserted :
  forall (V : Type) (size : V -> Z) (p : profile) (cap : Z) (ops : list (op V)) c outs k v,
    0 <= cap < two64 -> history_wf size ops ->
    run size p (with_capacity cap) ops = Ok (c, outs) ->
    snd (get c k) = Some v -> last_accepted cap k None ops = Some v.
Proof. exact @lookup_final. Qed.
Print Assumptions C03_get_returns_last_inserted.

Theorem C03_get_after_insert :
  forall (V : Type) (size : V -> Z) (p : profile) (c c1 : cache V) k v,
    capacity c <> 0 -> insert size p c k v = Ok c1 -> snd (get c1 k) = Some v.
Proof. exact @insert_then_get. Qed.
Print Assumptions C03_get_after_insert.

Theorem C03_get_retains :
  forall (V : Type) (size : V -> Z) (p : profile) (cap : Z) (ops : list (op V)) c outs k,
    0 <= cap < two64 -> history_wf size ops ->
    run size p (with_capacity cap) ops = Ok (c, outs) ->
    Permutation (lru (fst (get c k))) (lru c).
Proof. exact @get_retains_final. Qed.
Print Assumptions C03_get_retains.

Example C03_hypotheses_met :
  exists c outs, run ex_size Debug (with_capacity 100) [Insert 1 40; Insert 2 30; Insert 1 10] = Ok (c, outs) /\
    snd (get c 1) = Some 10 /\ snd (get c 2) = Some 30 /\ snd (get c 3) = None.
Proof. eexists. eexists. split; [vm_compute; reflexivity|]. repeat split. Qed.

(** C04. *)
Theorem C04_retained_are_most_recently_used :
  forall (V : Type) (size : V -> Z) (p : profile) (cap : Z) (ops : list (op V)) c outs,
    0 <= cap < two64 -> history_wf size ops ->
    run size p (with_capacity cap) ops = Ok (c, outs) ->
    NoDup (map fst (lru c)) /\
    exists older, recency cap [] ops outs = older ++ map fst (lru c).
Proof. exact @recency_final. Qed.
Print Assumptions C04_retained_are_most_recently_used.

(** Key 1 was looked up after key 2 was inserted, so key 2 is the one to go. *)
Example C04_hypotheses_met :
  exists c outs, run ex_size Debug (with_capacity 100) [Insert 1 40; Insert 2 30; Get 1; Insert 3 50] = Ok (c, outs) /\
    recency 100 [] [Insert 1 40; Insert 2 30; Get 1; Insert 3 50] outs = [2; 1; 3] /\
    map fst (lru c) = [1; 3].
Proof. eexists. eexists. split; [vm_compute; reflexivity|]. split; reflexivity. Qed.

(** C05: false; debug builds crash, release builds exceed the budget, always. *)
Theorem C05_oversized_debug_panics :
  forall (V : Type) (size : V -> Z) (cap : Z) (ops : list (op V)) c outs k v,
    0 <= cap < two64 -> history_wf size ops ->
    run size Debug (with_capacity cap) ops = Ok (c, outs) ->
    0 < capacity c < size v -> insert size Debug c k v = Panic.
Proof. exact @oversized_debug_final. Qed.
Print Assumptions C05_oversized_debug_panics.

Theorem C05_oversized_release_exceeds_budget :
  forall (V : Type) (size : V -> Z) (cap : Z) (ops : list (op V)) c outs k v,
    0 <= cap < two64 -> history_wf size (ops ++ [Insert k v]) ->
    run size Release (with_capacity cap) ops = Ok (c, outs) ->
    0 < capacity c < size v ->
    exists c', insert size Release c k v = Ok c' /\
      capacity c' = capacity c /\ total_bytes size (lru c') = size v.
Proof. exact @oversized_release_final. Qed.
Print Assumptions C05_oversized_release_exceeds_budget.

Theorem C05_oversized_refuted :
  exists (c : cache Z) k v,
    run ex_size Debug (with_capacity 100) [Insert 7 60] = Ok (c, [OUnit]) /\
    insert ex_size Debug c k v = Panic /\
    exists c', insert ex_size Release c k v = Ok c' /\
      capacity c' < total_bytes ex_size (lru c') /\ snd (get c' 7) = None.
Proof.
  eexists. exists 8, 101. split; [vm_compute; reflexivity|]. split; [vm_compute; reflexivity|].
  eexists. split; [vm_compute; reflexivity|]. split; reflexivity.
Qed.
Print Assumptions C05_oversized_refuted.

(** C06: only the guarded part holds: the test is [>=], so an image that fits exactly
    still evicts. *)
Theorem C06_minimal_eviction_partial :
  forall (V : Type) (size : V -> Z) (p : profile) (cap : Z) (ops : list (op V)) c outs k v,
    0 <= cap < two64 -> history_wf size (ops ++ [Insert k v]) ->
    run size p (with_capacity cap) ops = Ok (c, outs) ->
    0 < capacity c -> size v <= capacity c ->
    exists evicted kept c',
      lru c = evicted ++ kept /\
      insert size p c k v = Ok c' /\
      lru c' = filter (fun e => negb (fst e =? k)) kept ++ [(k, v)] /\
      (used c + size v < capacity c -> evicted = []) /\
      (forall pre e post, evicted = pre ++ e :: post ->
         capacity c <= used c - total_bytes size pre + size v).
Proof. exact @minimal_final. Qed.
Print Assumptions C06_minimal_eviction_partial.

Theorem C06_exact_fit_refuted :
  exists (ops : list (op Z)) c outs c',
    run ex_size Release (with_capacity 100) ops = Ok (c, outs) /\
    used c = total_bytes ex_size (lru c) /\
    total_bytes ex_size (lru c) + 40 = capacity c /\
    insert ex_size Release c 3 40 = Ok c' /\
    snd (get c 1) = Some 30 /\ snd (get c' 1) = None.
Proof.
  exists [Insert 1 30; Insert 2 30]. eexists. eexists. eexists.
  split; [vm_compute; reflexivity|]. split; [reflexivity|]. split; [reflexivity|].
  split; [vm_compute; reflexivity|]. split; reflexivity.
Qed.
Print Assumptions C06_exact_fit_refuted.

(** C07. *)
Theorem C07_shrink_takes_effect :
  forall (V : Type) (size : V -> Z) (p : profile) (cap : Z) (ops : list (op V)) c outs n c',
    0 <= cap < two64 -> history_wf size ops -> 0 <= n < two64 ->
    run size p (with_capacity cap) ops = Ok (c, outs) ->
    set_capacity size p c n = Ok c' ->
    capacity c' = n /\ total_bytes size (lru c') <= n.
Proof. exact @shrink_final. Qed.
Print Assumptions C07_shrink_takes_effect.

Theorem C07_shrink_never_panics :
  forall (V : Type) (size : V -> Z) (p : profile) (cap : Z) (ops : list (op V)) c outs n,
    0 <= cap < two64 -> history_wf size ops -> 0 <= n < two64 ->
    run size p (with_capacity cap) ops = Ok (c, outs) ->
    exists c', set_capacity size p c n = Ok c'.
Proof. exact @shrink_no_panic. Qed.
Print Assumptions C07_shrink_never_panics.

Theorem C07_zero_capacity_stores_nothing :
  forall (V : Type) (size : V -> Z) (p : profile) (ops : list (op V)) c outs,
    (forall n, ~ In (SetCapacity n) ops) ->
    run size p (with_capacity 0) ops = Ok (c, outs) -> lru c = [].
Proof. exact @zero_capacity_final. Qed.
Print Assumptions C07_zero_capacity_stores_nothing.

Example C07_hypotheses_met :
  exists c outs c', run ex_size Debug (with_capacity 100) [Insert 1 40; Insert 2 30; Get 1] = Ok (c, outs) /\
    set_capacity ex_size Debug c 45 = Ok c' /\ lru c' = [(1, 40)].
Proof. eexists. eexists. eexists. split; [vm_compute; reflexivity|]. split; vm_compute; reflexivity. Qed.

(** C08. *)
Theorem C08_counters :
  forall (V : Type) (size : V -> Z) (p : profile) (cap : Z) (ops : list (op V)) c outs,
    0 <= cap < two64 -> history_wf size ops ->
    run size p (with_capacity cap) ops = Ok (c, outs) ->
    hits c + misses c = count_gets ops /\
    inserts c = accepted_inserts cap ops /\
    len c = accepted_inserts cap ops
            - Z.of_nat (length (displaced size p (with_capacity cap) ops)) - evictions c.
Proof. exact @counters_final. Qed.
Print Assumptions C08_counters.

Example C08_hypotheses_met :
  exists c outs, run ex_size Debug (with_capacity 100) (ex_ops ++ [Insert 1 5]) = Ok (c, outs) /\
    count_gets (ex_ops ++ [Insert 1 5]) = 3 /\
    length (displaced ex_size Debug (with_capacity 100) (ex_ops ++ [Insert 1 5])) = 1%nat /\
    accepted_inserts 100 (ex_ops ++ [Insert 1 5]) = 5 /\ len c = 1.
Proof. eexists. eexists. split; [vm_compute; reflexivity|]. repeat split. Qed.

(** C51: release builds give the answers of debug builds wherever those do not crash. *)
Theorem C51_release_agrees_with_debug :
  forall (V : Type) (size : V -> Z) (ops : list (op V)) (c : cache V) r,
    run size Debug c ops = Ok r -> run size Release c ops = Ok r.
Proof. exact @refines_run. Qed.
Print Assumptions C51_release_agrees_with_debug.

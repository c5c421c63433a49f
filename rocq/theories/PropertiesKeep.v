(** C100: explicit evictions, and what the image cache keeps. *)
From Verif Require Import Machine CacheModel CacheSpec CacheProofs PropertiesCache KeepSpec KeepProofs.

(** [evict] removes the image used longest ago (the first of [lru], C04) and
    says whether there was one; it never crashes. *)
Theorem C100_evict_one :
  forall (V : Type) (size : V -> Z) (p : profile) (cap : Z) (ops : list (op V)) c outs,
    0 <= cap < two64 -> history_wf size ops -> run size p (with_capacity cap) ops = Ok (c, outs) ->
    exists c' b, step size p c EvictOne = Ok (c', OEvict b) /\ capacity c' = capacity c /\
      ((lru c = [] /\ b = false /\ c' = c) \/
       (exists e, lru c = e :: lru c' /\ b = true /\ evictions c' = evictions c + 1)).
Proof. exact @evict_one_final. Qed.
Print Assumptions C100_evict_one.

(** [evict_all] removes them all. *)
Theorem C100_evict_all :
  forall (V : Type) (size : V -> Z) (p : profile) (cap : Z) (ops : list (op V)) c outs,
    0 <= cap < two64 -> history_wf size ops -> run size p (with_capacity cap) ops = Ok (c, outs) ->
    exists c', step size p c EvictAll = Ok (c', OUnit) /\ lru c' = [] /\ capacity c' = capacity c /\
      evictions c' = evictions c + len c.
Proof. exact @evict_all_final. Qed.
Print Assumptions C100_evict_all.

(** [evict_bytes n] removes images, those used longest ago first, until more
    than [n] bytes have gone; it asks for more than [n] where [n] would do. *)
Theorem C100_evict_bytes_partial :
  forall (V : Type) (size : V -> Z) (p : profile) (cap : Z) (ops : list (op V)) c outs n,
    0 <= cap < two64 -> history_wf size ops -> run size p (with_capacity cap) ops = Ok (c, outs) -> 0 <= n ->
    exists gone c', step size p c (EvictBytes n) = Ok (c', OUnit) /\ lru c = gone ++ lru c' /\
      capacity c' = capacity c /\ evictions c' = evictions c + Z.of_nat (length gone) /\
      (lru c' = [] \/ n < total_bytes size gone \/ total_bytes size (lru c) = 0) /\
      (forall before e after, gone = before ++ e :: after -> total_bytes size before <= n).
Proof. exact @evict_bytes_final. Qed.
Print Assumptions C100_evict_bytes_partial.

Example C100_evictions_met :
  exists c outs, run ex_size Debug (with_capacity 100) [Insert 1 40; Insert 2 30; Get 1; Insert 3 10] = Ok (c, outs) /\
    lru c = [(2, 30); (1, 40); (3, 10)] /\
    (exists c', step ex_size Debug c (EvictBytes 35) = Ok (c', OUnit) /\ lru c' = [(3, 10)]) /\
    (exists c', step ex_size Debug c EvictOne = Ok (c', OEvict true) /\ lru c' = [(1, 40); (3, 10)]).
Proof.
  eexists. eexists. split; [vm_compute; reflexivity|]. split; [reflexivity|].
  split; eexists; (split; [vm_compute; reflexivity|reflexivity]).
Qed.

(** Asked for the 30 bytes of its oldest image, the cache drops two; asked for
    none, it drops one. *)
Theorem C100_evict_bytes_refuted :
  exists c outs, run ex_size Release (with_capacity 100) [Insert 1 30; Insert 2 40] = Ok (c, outs) /\
    (exists c', step ex_size Release c (EvictBytes 30) = Ok (c', OUnit) /\ lru c' = []) /\
    (exists c', step ex_size Release c (EvictBytes 0) = Ok (c', OUnit) /\ lru c' = [(2, 40)]).
Proof.
  eexists. eexists. split; [vm_compute; reflexivity|].
  split; eexists; (split; [vm_compute; reflexivity|reflexivity]).
Qed.
Print Assumptions C100_evict_bytes_refuted.

(** As long as everything ever inserted fits, nothing is evicted and every
    lookup finds the image last inserted under its key. *)
Theorem C100_keeps_what_fits :
  forall (V : Type) (size : V -> Z) (p : profile) (cap : Z) (ops : list (op V)),
    0 <= cap < two64 -> Forall (op_wf size) ops -> only_uses ops -> inserted_bytes size ops < cap ->
    exists c outs, run size p (with_capacity cap) ops = Ok (c, outs) /\ evictions c = 0 /\
      forall k, answers c k = last_accepted cap k None ops.
Proof. exact @keeps_final. Qed.
Print Assumptions C100_keeps_what_fits.
Example C100_keeps_met : let ops := [Insert 1 40; Insert 2 30; Get 1; Insert 1 29; Get 7] in
  Forall (op_wf ex_size) ops /\ only_uses ops /\ inserted_bytes ex_size ops < 100 /\
  last_accepted 100 1 None ops = Some 29 /\ last_accepted 100 7 None ops = None.
Proof.
  cbn zeta. split; [repeat (apply Forall_cons; [cbn; unfold ex_size; try lia; exact I|]); apply Forall_nil|].
  split; [repeat (apply Forall_cons; [exact I|]); apply Forall_nil|]. split; [vm_compute; reflexivity|]. split; reflexivity.
Qed.
(** Filled to the last byte it evicts ([C06_exact_fit_refuted]). *)

(** Hits are the lookups answered with an image, misses the others. *)
Theorem C100_hits :
  forall (V : Type) (size : V -> Z) (p : profile) (cap : Z) (ops : list (op V)) c outs,
    run size p (with_capacity cap) ops = Ok (c, outs) ->
    hits c = how_many found outs /\ misses c = how_many not_found outs.
Proof. exact @hits_final. Qed.
Print Assumptions C100_hits.
Example C100_hits_met : exists c outs, run ex_size Debug (with_capacity 100) ex_ops = Ok (c, outs) /\
  hits c = 1 /\ misses c = 2 /\ how_many found outs = 1.
Proof. eexists. eexists. split; [vm_compute; reflexivity|]. split; [|split]; reflexivity. Qed.

(** C112: the cache's report about itself. *)
From Coq Require Import Reals Floats.SpecFloat.
From Verif Require Import Machine CacheModel CacheSpec CacheProofs FrameSpec ReportModel ReportReal PropertiesCache.

(** The counts are those of the history of the cache. *)
Theorem C112_counts : forall (V : Type) (size : V -> Z) p cap (ops : list (op V)) c outs,
  0 <= cap < two64 -> history_wf size ops -> run size p (with_capacity cap) ops = Ok (c, outs) ->
  r_hits (cache_report c) + r_misses (cache_report c) = count_gets ops /\
  r_inserts (cache_report c) = accepted_inserts cap ops /\
  r_count (cache_report c) = accepted_inserts cap ops
    - Z.of_nat (length (displaced size p (with_capacity cap) ops)) - r_evictions (cache_report c).
Proof. exact @counters_final. Qed.
Print Assumptions C112_counts.

(** The gigabytes are exact. *)
Theorem C112_sizes : forall V (c : cache V), 0 <= capacity c < 2 ^ 53 -> 0 <= used c < 2 ^ 53 ->
  is_fraction (r_capacity (cache_report c)) (capacity c) (2 ^ 30) /\ is_fraction (r_used (cache_report c)) (used c) (2 ^ 30).
Proof. intros V c H K. exact (conj (gigabytes_exact _ H) (gigabytes_exact _ K)). Qed.
Print Assumptions C112_sizes.

(** The hit ratio compares hits with misses: 100% says that half of the lookups
    were answered, and whenever there were more hits than misses it is over
    100%. The insert ratio compares inserts with evictions in the same way. *)
Theorem C112_ratio_partial : forall V (c : cache V), 0 <= hits c < 2 ^ 53 -> 0 < misses c < 2 ^ 53 ->
  let r := R64 (r_hit_ratio (cache_report c)) in
  ((r < 100)%R <-> hits c < misses c) /\ (r = 100%R <-> hits c = misses c) /\ ((100 < r)%R <-> misses c < hits c).
Proof. intros V c. exact (ratio_order (hits c) (misses c)). Qed.
Print Assumptions C112_ratio_partial.

Theorem C112_insert_ratio_partial : forall V (c : cache V), 0 <= inserts c < 2 ^ 53 -> 0 < evictions c < 2 ^ 53 ->
  let r := R64 (r_insert_ratio (cache_report c)) in
  ((r < 100)%R <-> inserts c < evictions c) /\ (r = 100%R <-> inserts c = evictions c) /\ ((100 < r)%R <-> evictions c < inserts c).
Proof. intros V c. exact (ratio_order (inserts c) (evictions c)). Qed.
Print Assumptions C112_insert_ratio_partial.

(** It overstates the share of lookups that were answered, whenever one was. *)
Theorem C112_overstated : forall V (c : cache V), 0 < hits c < 2 ^ 53 -> 0 < misses c < 2 ^ 52 - 1 ->
  (100 * (IZR (hits c) / IZR (hits c + misses c)) < R64 (r_hit_ratio (cache_report c)))%R.
Proof. exact @report_overstated. Qed.
Print Assumptions C112_overstated.

(** Without a miss it is not a number of percent. *)
Theorem C112_no_misses : forall V (c : cache V), misses c = 0 ->
  (hits c = 0 -> r_hit_ratio (cache_report c) = S754_nan) /\
  (0 < hits c < 2 ^ 53 -> r_hit_ratio (cache_report c) = S754_infinity false).
Proof. exact @report_no_misses. Qed.
Print Assumptions C112_no_misses.

(** Four lookups of which three were answered are reported as 300%. *)
Definition four_lookups : list (op Z) := [Insert 1 10; Get 1; Get 1; Get 2; Get 1].
Theorem C112_percentage_refuted : exists c outs,
  run ex_size Debug (with_capacity 100) four_lookups = Ok (c, outs) /\ count_gets four_lookups = 4 /\
  hits c = 3 /\ is_fraction (r_hit_ratio (cache_report c)) 300 1 /\ r_insert_ratio (cache_report c) = S754_infinity false.
Proof. eexists _, _. split; [vm_compute; reflexivity|]. repeat split. Qed.
Print Assumptions C112_percentage_refuted.

Example C112_example : exists c outs,
  history_wf ex_size four_lookups /\ run ex_size Debug (with_capacity 100) four_lookups = Ok (c, outs) /\
  0 <= capacity c < 2 ^ 53 /\ 0 <= used c < 2 ^ 53 /\ used c = 10 /\ 0 < hits c < 2 ^ 53 /\ 0 < misses c < 2 ^ 52 - 1 /\
  r_count (cache_report c) = 1.
Proof.
  eexists _, _. split; [repeat constructor; vm_compute; try discriminate; reflexivity|]. split; [vm_compute; reflexivity|].
  vm_compute. repeat split; discriminate.
Qed.

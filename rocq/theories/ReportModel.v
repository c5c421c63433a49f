(** The text the cache gives about itself. *)
From Coq Require Import Floats.SpecFloat.
From Verif Require Import Machine CacheModel FrameModel.

(** The numbers in the text, before they are printed. *)
Record report := Report {
  r_capacity : spec_float;
  r_used : spec_float;
  r_hit_ratio : spec_float;
  r_hits : Z;
  r_misses : Z;
  r_insert_ratio : spec_float;
  r_inserts : Z;
  r_evictions : Z;
  r_count : Z
}.

(** cache.rs 236-237, data.rs 41: [as f64 / BYTES_TO_GIGABYTES as f64]. *)
Definition gigabytes (bytes : Z) : spec_float := SFdiv 53 1024 (f64_of_Z bytes) (f64_of_Z 1073741824).

(** cache.rs 238 and 241: [(a as f64 / b as f64) * 100.0]. *)
Definition ratio (a b : Z) : spec_float := SFmul 53 1024 (SFdiv 53 1024 (f64_of_Z a) (f64_of_Z b)) (f64_of_Z 100).

(** cache.rs 232-247 [CacheImpl::data_debug_string]; the printing of numbers is
    not modelled. *)
Definition cache_report {V} (c : cache V) : report :=
  Report (gigabytes (capacity c)) (gigabytes (used c)) (ratio (hits c) (misses c)) (hits c) (misses c)
    (ratio (inserts c) (evictions c)) (inserts c) (evictions c) (len c).

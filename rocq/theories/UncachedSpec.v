(** A world without an image cache. *)
From Verif Require Import Machine CacheModel NodeModel.

Definition uncached {D} (w : world D) : Prop := capacity (w_cache w) = 0 /\ lru (w_cache w) = [].

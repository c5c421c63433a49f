(** Model of ids made from names: src/hashutils.rs 30-38, exported by
    cxxbridge.rs 895-896.  [generate_random_id] (hashutils.rs 40-45) asks the
    operating system and is not modelled.  The hasher is that of the crate
    rustc-hash 1.1.0 (Cargo.toml 17) on a 64-bit little-endian machine. *)
From Verif Require Import Machine.

Definition u64 : Z := 2 ^ 64.
(** rustc-hash lib.rs: SEED of the 64-bit hasher, 0x517cc1b727220a95. *)
Definition fx_seed : Z := 5871781006564002453.
Definition rotate_left_5 (h : Z) : Z := (h * 32) mod u64 + h / 2 ^ 59.
(** rustc-hash lib.rs [add_to_hash]. *)
Definition add_to_hash (h i : Z) : Z := (Z.lxor (rotate_left_5 h) i * fx_seed) mod u64.

(** [u64::from_ne_bytes] and its smaller relatives. *)
Fixpoint from_bytes (l : list Z) : Z :=
  match l with [] => 0 | b :: t => b + 256 * from_bytes t end.

(** rustc-hash lib.rs [write], the last seven bytes at most: four, two, one. *)
Definition fx_tail (h : Z) (l : list Z) : Z :=
  let '(h, l) := if (4 <=? length l)%nat then (add_to_hash h (from_bytes (firstn 4 l)), skipn 4 l) else (h, l) in
  let '(h, l) := if (2 <=? length l)%nat then (add_to_hash h (from_bytes (firstn 2 l)), skipn 2 l) else (h, l) in
  match l with b :: _ => add_to_hash h b | [] => h end.

(** rustc-hash lib.rs [write]: eight bytes at a time. *)
Fixpoint fx_write (h : Z) (l : list Z) : Z :=
  match l with
  | b0 :: b1 :: b2 :: b3 :: b4 :: b5 :: b6 :: b7 :: t =>
      fx_write (add_to_hash h (from_bytes [b0; b1; b2; b3; b4; b5; b6; b7])) t
  | _ => fx_tail h l
  end.

(** hashutils.rs 30-38: [str] hashes its UTF-8 bytes and then the byte 255. *)
Definition generate_id_from_name (name : list Z) : Z := add_to_hash (fx_write 0 name) 255.

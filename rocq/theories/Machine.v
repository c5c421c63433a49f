(** Machine-level conventions shared by all model files: panics, build
    profiles and fixed-width integer arithmetic. *)
From Coq Require Export ZArith List Bool Lia.
Export ListNotations.
Global Open Scope Z_scope.

(** A computation that may panic.  Rust panics ([panic!], failed [assert!],
    out-of-bounds indexing, overflow in debug builds) become [Panic]. *)
Inductive Res (A : Type) : Type :=
| Ok (a : A)
| Panic.
Arguments Ok {A} a.
Arguments Panic {A}.

Definition bind {A B : Type} (m : Res A) (f : A -> Res B) : Res B :=
  match m with
  | Ok a => f a
  | Panic => Panic
  end.

Notation "'let*' x ':=' m 'in' f" :=
  (bind m (fun x => f)) (at level 200, x pattern, m at level 100, f at level 200).

(** Cargo.toml [profile.release]: overflow-checks = false, panic = "abort";
    the dev profile keeps Rust's default overflow checks. *)
Inductive profile : Type := Debug | Release.

Definition two64 : Z := 2 ^ 64.
Definition two32 : Z := 2 ^ 32.
Definition two31 : Z := 2 ^ 31.

Definition in_u64 (z : Z) : bool := (0 <=? z) && (z <? two64).
Definition in_i32 (z : Z) : bool := (- two31 <=? z) && (z <? two31).

(** Wrap to u64 / i32 (two's complement). *)
Definition wrap_u64 (z : Z) : Z := z mod two64.
Definition wrap_i32 (z : Z) : Z := (z + two31) mod two32 - two31.

(** usize / u64 arithmetic: overflow panics in debug, wraps in release. *)
Definition u64_of (p : profile) (z : Z) : Res Z :=
  if in_u64 z then Ok z
  else match p with Debug => Panic | Release => Ok (wrap_u64 z) end.

Definition add_u64 (p : profile) (a b : Z) : Res Z := u64_of p (a + b).
Definition sub_u64 (p : profile) (a b : Z) : Res Z := u64_of p (a - b).
Definition mul_u64 (p : profile) (a b : Z) : Res Z := u64_of p (a * b).

(** i32 arithmetic, same convention. *)
Definition i32_of (p : profile) (z : Z) : Res Z :=
  if in_i32 z then Ok z
  else match p with Debug => Panic | Release => Ok (wrap_i32 z) end.

(** Rust [as usize] of an i32: negative values become huge. *)
Definition i32_as_usize (z : Z) : Z := z mod two64.

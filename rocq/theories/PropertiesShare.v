(** C123: pictures are shared without anyone noticing. *)
From Coq Require Import Lia.
From Verif Require Import Machine ShareModel ShareSpec ShareProofs.

(** Everyone sees what they would see with pictures of their own. *)
Theorem C123_as_owned : forall V (xs : list (action V)) l, owns xs l ->
  exists m, acts xs heap_new = Ok m /\ forall h, shows h m = Ok (has l h).
Proof. exact @shared_as_owned. Qed.
Print Assumptions C123_as_owned.

(** Nothing is used after it was freed, in whatever order things are done. *)
Theorem C123_never_dangling : forall V (xs : list (action V)), exists m, acts xs heap_new = Ok m /\ forall h, shows h m <> Panic.
Proof. exact @never_dangling. Qed.
Print Assumptions C123_never_dangling.

(** There are never more pictures in memory than are held, none when none is held,
    and copying a stream makes no new one. *)
Theorem C123_memory : forall V (xs : list (action V)) l, owns xs l ->
  exists m, acts xs heap_new = Ok m /\ (live m <= in_use l)%nat /\ (live m = 0 <-> in_use l = 0)%nat /\
  (forall h m', act (Copy h) m = Ok m' -> live m' = live m).
Proof. exact @memory_used. Qed.
Print Assumptions C123_memory.

(** Who holds the only picture changes it where it is. *)
Theorem C123_in_place : forall V (xs : list (action V)) l h f, owns xs l -> (exists v, has l h = Some v) -> (forall k, k <> h -> has l k = None) ->
  exists m m', acts xs heap_new = Ok m /\ act (Write h f) m = Ok m' /\ length (cells m') = length (cells m) /\ live m' = live m.
Proof. exact @alone_in_place. Qed.
Print Assumptions C123_in_place.

(** A picture is read (0), shown to a client (1) and kept in the cache (2); the
    reader's stream is changed, the cache lets go, and the client takes over a new
    picture (3). *)
Definition story : list (action Z) := [Make 5; Copy 0; Copy 0; Write 0 Z.succ; Drop 2; Make 9; Take 1 3].
Example C123_example : owns story [Some 6; Some 9; None; None] /\ (exists m, acts story heap_new = Ok m /\ live m = 2%nat) /\
  (exists m, acts (firstn 3 story) heap_new = Ok m /\ live m = 1%nat).
Proof.
  split; [|split; eexists; split; vm_compute; reflexivity]. unfold story.
  assert (O1 : owns ([] ++ [Make 5]) ([] ++ [Some 5])) by exact (ow_make _ _ _ ow_none).
  assert (O2 : owns (([] ++ [Make 5]) ++ [Copy 0]) (([] ++ [Some 5]) ++ [Some 5])) by exact (ow_copy _ _ 0 5 O1 eq_refl).
  assert (O3 := ow_copy _ _ 0 5 O2 eq_refl).
  assert (O4 := ow_write _ _ [Some 6; Some 5; Some 5] 0 5 Z.succ O3 eq_refl eq_refl eq_refl ltac:(intros [|[|[|i]]] N; [congruence|reflexivity..])).
  assert (O5 := ow_drop _ _ [Some 6; Some 5; None] 2 5 O4 eq_refl eq_refl eq_refl ltac:(intros [|[|[|i]]] N; try reflexivity; congruence)).
  assert (O6 := ow_make _ _ 9 O5).
  exact (ow_take _ _ [Some 6; Some 9; None; None] 1 3 5 9 O6 ltac:(discriminate) eq_refl eq_refl eq_refl eq_refl eq_refl
    ltac:(intros [|[|[|[|i]]]] N K; try reflexivity; congruence)).
Qed.
(** The conditions for changing in place are met by a reader alone. *)
Example C123_in_place_example : owns [Make 5; Copy 0; Drop 0] [None; Some 5] /\ (exists v, has [None; Some 5] 1 = Some v) /\ (forall k, k <> 1%nat -> has [None; Some 5] k = None) /\
  exists m, acts [Make 5; Copy 0; Drop 0; Write 1 Z.succ] heap_new = Ok m /\ shows 1 m = Ok (Some 6) /\ length (cells m) = 1%nat.
Proof.
  split; [|split; [exists 5; reflexivity|split; [intros [|[|[|k]]] N; try reflexivity; congruence|eexists; split; [vm_compute; reflexivity|split; reflexivity]]]].
  assert (O1 : owns ([] ++ [Make 5]) ([] ++ [Some 5])) by exact (ow_make _ _ _ ow_none).
  assert (O2 : owns (([] ++ [Make 5]) ++ [Copy 0]) (([] ++ [Some 5]) ++ [Some 5])) by exact (ow_copy _ _ 0 5 O1 eq_refl).
  exact (ow_drop _ _ [None; Some 5] 0 5 O2 eq_refl eq_refl eq_refl ltac:(intros [|[|i]] N; [congruence|reflexivity..])).
Qed.

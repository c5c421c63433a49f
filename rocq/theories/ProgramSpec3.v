(** When a program has left a composition as it was, read off its calls. *)
From Coq Require String.
Import String.StringSyntax.
From Coq Require Import Floats.SpecFloat.
From Verif Require Import Machine FloatModel PathModel HashModel AttrModel AttrSpec EnumModel StreamModel GraphModel NodeModel ClientModel ProgramSpec.
Local Open Scope string_scope.

(** What is above [id] after [h] reads the same and is connected the same after
    [h']. *)
Definition as_it_was (i : nat) (h h' : list (ccall * reply)) (id : Z) : Prop := forall a, above i h id a ->
  (exists n m, described i h a = Some n /\ described i h' a = Some m /\ nd_type n = nd_type m /\ forall k name, get_value k name n = get_value k name m) /\
  forall src s, connected i h src a s <-> connected i h' src a s.

(** The call is not about graph [i], or does not touch any of the ids [up]:
    questions, executions, caches, lookup tables, new nodes and everything done
    to other nodes. *)
Definition aside (i : nat) (up : Z -> Prop) (call : ccall) : Prop :=
  match call with
  | CSet j m _ => j = i -> ~ up (hd_id m)
  | CConnect j _ b _ | CDisconnect j b _ => j = i -> ~ up (hd_id b)
  | CDelete j n => j = i -> ~ up (hd_id n)
  | _ => True
  end.
Definition all_aside (i : nat) (up : Z -> Prop) (h : list (ccall * reply)) : Prop := forall call r, In (call, r) h -> aside i up call.

(** The files named by readers above [id] are the same. *)
Definition files_as_they_were {D} (x : externals D) (fr : spec_float) (d d' : D) (i : nat) (h : list (ccall * reply)) (id : Z) : Prop :=
  forall a n path, above i h id a -> described i h a = Some n -> nd_type n = TRead ->
  expand_string (x_expand x) (node_get_str n "file_path") (frame_number fr) = Ok path ->
  x_kind x d path = x_kind x d' path /\ x_read x d path empty_image = x_read x d' path empty_image.

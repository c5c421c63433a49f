(** Vocabulary for the thread setting. *)
From Verif Require Import Machine.

Section Library.
Context {L Q A : Type}.
Variable get : L -> option Z.
Variable set : L -> Z -> L.
Variable perform : L -> Q -> L * A.

(** A library with a setting: what is set is found again, zero stands for the
    number of processors, and reading and writing leave it alone. *)
Record has_setting (processors : Z) : Prop := {
  set_found : forall l n, 1 <= n -> get (set l n) = Some n;
  set_zero : forall l, get (set l 0) = Some processors;
  performing : forall l q, get (fst (perform l q)) = get l
}.
End Library.

(** A library that notes the setting every request is performed with. *)
Section Noting.
Context {L Q A : Type}.
Variable get : L -> option Z.
Variable set : L -> Z -> L.
Variable perform : L -> Q -> L * A.
Definition noting_set (l : L * list (option Z)) (n : Z) : L * list (option Z) := (set (fst l) n, snd l).
Definition noting (l : L * list (option Z)) (q : Q) : (L * list (option Z)) * A :=
  let (l', a) := perform (fst l) q in ((l', snd l ++ [get (fst l)])%list, a).
End Noting.

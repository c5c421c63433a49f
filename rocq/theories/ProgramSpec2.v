(** When two C++ programs have set up the same, read off their calls. *)
From Coq Require String.
Import String.StringSyntax.
From Coq Require Import Floats.SpecFloat.
From Verif Require Import Machine FloatModel PathModel HashModel AttrModel AttrSpec EnumModel StreamModel GraphModel NodeModel AlikeSpec ClientModel ProgramSpec.
Local Open Scope string_scope.

(** Following nodes that pass on what they are given leads from [a] to [b]. *)
Inductive passing (i : nat) (h : list (ccall * reply)) : Z -> Z -> Prop :=
| passing_here a : passing i h a a
| passing_on a n k b : described i h a = Some n -> idle n -> fed_by i h a [k] -> passing i h k b -> passing i h a b.

Section Same.
Context {D : Type}.
Variable x : externals D.
(** Two frames, file systems, graphs and pasts. *)
Variables (fr1 fr2 : spec_float) (d1 d2 : D) (i1 i2 : nat) (h1 h2 : list (ccall * reply)).

(** [R] relates ids of the two programs under which, idle nodes aside, nodes of
    the same type whose attributes read the same were created, fed by related ids in the order of
    the inputs. *)
Definition same_setup (R : Z -> Z -> Prop) : Prop := forall a b, R a b ->
  exists a' b' n m, passing i1 h1 a a' /\ passing i2 h2 b b' /\
    described i1 h1 a' = Some n /\ described i2 h2 b' = Some m /\
    nd_type n = nd_type m /\ (forall k name, get_value k name n = get_value k name m) /\ same_file x fr1 fr2 d1 d2 n /\
    forall l, fed_by i1 h1 a' l -> exists l', fed_by i2 h2 b' l' /\ Forall2 R l l'.
End Same.

(** Above [id] no lens is switched on and no reader names a directory. *)
Definition definite {D} (x : externals D) (d : D) (fr : spec_float) (i : nat) (h : list (ccall * reply)) (id : Z) : Prop :=
  forall a n, above i h id a -> described i h a = Some n ->
    (nd_type n = TLens -> node_get_i32 n "enable" <> 1) /\
    (nd_type n = TRead -> node_get_i32 n "enable" <> 0 -> forall path,
       expand_string (x_expand x) (node_get_str n "file_path") (frame_number fr) = Ok path -> x_kind x d path <> OtherEntry).

(** When two C++ programs render the same files, read off their calls. *)
From Coq Require String.
Import String.StringSyntax.
From Coq Require Import Floats.SpecFloat.
From Verif Require Import Machine AttrModel AttrSpec EnumModel StreamModel GraphModel NodeModel WriteSpec ClientModel ProgramSpec ProgramSpec2.
Local Open Scope string_scope.

(** As [same_setup], whatever the files are: idle nodes aside, nodes of the same
    type whose attributes read the same, fed by related ids in the order of the
    inputs. *)
Definition same_build (i1 i2 : nat) (h1 h2 : list (ccall * reply)) (R : Z -> Z -> Prop) : Prop := forall a b, R a b ->
  exists a' b' n m, passing i1 h1 a a' /\ passing i2 h2 b b' /\
    described i1 h1 a' = Some n /\ described i2 h2 b' = Some m /\
    nd_type n = nd_type m /\ (forall k name, get_value k name n = get_value k name m) /\
    forall l, fed_by i1 h1 a' l -> exists l', fed_by i2 h2 b' l' /\ Forall2 R l l'.

(** [id] writes what [src] shows, and nothing above it writes. *)
Definition renders (i : nat) (h : list (ccall * reply)) (id : Z) (n : node) (src : Z) : Prop :=
  writing i h id n src /\ forall a m, above i h id a -> a <> id -> described i h a = Some m -> silent m.

(** Whatever has been written, what the graph shows at these frames is definite. *)
Definition stays_definite {D} (x : externals D) (d : D) (frames : list spec_float) (i : nat) (h : list (ccall * reply)) : Prop :=
  forall d' fr id, after_writes x d d' -> In fr frames -> definite x d' fr i h id.

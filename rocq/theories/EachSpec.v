(** Writers anywhere in a graph. *)
From Coq Require String.
Import String.StringSyntax.
From Coq Require Import Floats.SpecFloat.
From Verif Require Import Machine AttrModel AttrSpec StreamModel GraphModel GraphSpec NodeModel ChainSpec SceneSpec.
Local Open Scope string_scope.

(** Node [i] is the writer [nw], told to write what node [k] shows. *)
Definition writer (g : graph node stream) (i : nat) (nw : node) (k : nat) : Prop :=
  nth_error (g_nodes g) i = Some nw /\ nd_type nw = TWrite /\
  node_get_i32 nw "enable" <> 0 /\ node_get_i32 nw "execute" <> 0 /\ inputs_in_slot_order (g_graph g) i [k].

(** A file to be written: where, what and how. *)
Definition order : Type := list Z * shared * compression.
Definition obey {D} (x : externals D) (d : D) (o : order) : D := let '(path, img, co) := o in fst (x_write x d path img co).

Definition place (o : order) : list Z := fst (fst o).

(** File systems that keep the files written: a file written is there until
    another is written at the same place. *)
Definition keeps_files {D} (x : externals D) (holds : D -> order -> Prop) : Prop :=
  (forall d o, holds (obey x d o) o) /\
  (forall d o o', holds d o -> place o' <> place o -> holds (obey x d o') o).

(** Frame by frame, files are written: only those of the nodes before [start],
    and one or more times that of each writer.  [of] says which file is that of
    a node at a frame. *)
Inductive all_written {D} (x : externals D) (of : spec_float -> nat -> order -> Prop) (g : graph node stream) (start : nat) :
  list spec_float -> D -> D -> Prop :=
| al_nil d : all_written x of g start [] d d
| al_cons fr frs os d d' :
    (forall o, In o os -> exists i, reaches (g_graph g) i start /\ of fr i o) ->
    (forall i nw k, reaches (g_graph g) i start -> writer g i nw k -> exists o, In o os /\ of fr i o) ->
    all_written x of g start frs (fold_left (obey x) os d) d' -> all_written x of g start (fr :: frs) d d'.

(** No two nodes, and no node at two frames, write to the same place. *)
Definition own_places (of : spec_float -> nat -> order -> Prop) (frames : list spec_float) : Prop :=
  forall fr1 fr2 i1 i2 o1 o2, In fr1 frames -> In fr2 frames -> of fr1 i1 o1 -> of fr2 i2 o2 ->
  place o1 = place o2 -> fr1 = fr2 /\ i1 = i2.

Section Each.
Context {D : Type}.
Variable p : profile.
Variable x : externals D.
Variable d0 : D.
Variable g : graph node stream.

(** Node [i] is a writer before [start] and the file is the composition before
    it, at the frame, as found in the file system [d0]. *)
Definition of_writer (fr : spec_float) (i : nat) (o : order) : Prop :=
  let '(path, img, co) := o in
  exists nw k s, writer g i nw k /\ scene p x d0 fr g k s /\ written p x nw fr s path img co.

End Each.

(** Programs that share the frames to be rendered. *)
From Coq Require String.
Import String.StringSyntax.
From Coq Require Import Floats.SpecFloat.
From Verif Require Import Machine CacheModel BBoxModel PathModel AttrModel AttrSpec HashModel HashSpec EnumModel StreamModel GraphModel GraphSpec NodeModel LutSpec SafeSpec TotalSpec SceneSpec EachSpec SoundSpec
  ClientModel ClientSpec2 ProgramSpec ProgramSpec2 ProgramSpec4.
Local Open Scope string_scope.

(** File systems in which files are independent, [same] being an equivalence
    between file systems: the order in which files at different places are written
    does not matter, and writing a file again changes nothing. *)
Definition independent_files {D} (x : externals D) (same : D -> D -> Prop) : Prop :=
  (forall d, same d d) /\ (forall d d', same d d' -> same d' d) /\ (forall d d' d'', same d d' -> same d' d'' -> same d d'') /\
  (forall d d' o, same d d' -> same (obey x d o) (obey x d' o)) /\
  (forall d o o', place o <> place o' -> same (obey x (obey x d o) o') (obey x (obey x d o') o)) /\
  (forall d o, same (obey x (obey x d o) o) (obey x d o)).

(** The writers above [id1] and those above [id2] are the same: the same settings
    and related inputs. *)
Definition same_writers (i1 i2 : nat) (h1 h2 : list (ccall * reply)) (id1 id2 : Z) (R : Z -> Z -> Prop) : Prop :=
  (forall a n src, above i1 h1 id1 a -> writing i1 h1 a n src -> exists b m src', above i2 h2 id2 b /\ writing i2 h2 b m src' /\
     (forall k name, get_value k name n = get_value k name m) /\ R src src') /\
  (forall b m src', above i2 h2 id2 b -> writing i2 h2 b m src' -> exists a n src, above i1 h1 id1 a /\ writing i1 h1 a n src /\
     (forall k name, get_value k name n = get_value k name m) /\ R src src').

(** No two of these writers, and none at two frames, have the same path. *)
Definition own_paths {D} (x : externals D) (frames : list spec_float) (i : nat) (h : list (ccall * reply)) (id : Z) : Prop :=
  forall fr1 fr2 a b n m src1 src2 path, In fr1 frames -> In fr2 frames -> above i h id a -> above i h id b ->
  writing i h a n src1 -> writing i h b m src2 ->
  expand_string (x_expand x) (node_get_str n "file_path") (frame_number fr1) = Ok path ->
  expand_string (x_expand x) (node_get_str m "file_path") (frame_number fr2) = Ok path -> fr1 = fr2 /\ a = b.

Section Farm.
Context {D : Type}.
Variable p : profile.
Variable x : externals D.
(** The files nobody writes, as they are in [d0]. *)
Variable kept : list Z -> bool.
Variable d0 : D.
(** What is to be rendered: what is above node [id0] after these calls. *)
Variable i0 : nat.
Variable h0 : list (ccall * reply).
Variable id0 : Z.

(** A program that has built the same executes it for these frames. *)
Inductive job : list spec_float -> D -> D -> Prop :=
| job_done B ok_disk srt (E : setting D) h cl i n call fuel cl' R frames :
    sources E = kept -> disk0 E = d0 ->
    no_collisions (x_digest x) (SoundSpec.used E) -> (forall l, In l (SoundSpec.used E) -> x_digest x l <> 0) -> keeps_sources x E ->
    roomy B -> sane x B ok_disk -> resampler_works x B -> sorts srt ->
    neat_past p x E srt B ok_disk h cl -> only_builds i h -> all_careful p B i h ->
    described i h (hd_id n) <> None -> all_used i h (hd_id n) ->
    same_build i i0 h h0 R -> same_writers i i0 h h0 (hd_id n) id0 R ->
    runs call i n frames -> tame_call p x E srt cl fuel call -> client_call p x srt fuel cl call = Some (Ok (cl', RStatus ExSuccess)) ->
    job frames (cl_disk cl) (cl_disk cl').

(** Such jobs one after the other, each finding the files the others left. *)
Inductive farm : list spec_float -> D -> D -> Prop :=
| farm_nil d : farm [] d d
| farm_job frames rest d d1 d2 : job frames d d1 -> farm rest d1 d2 -> farm (frames ++ rest) d d2.
End Farm.

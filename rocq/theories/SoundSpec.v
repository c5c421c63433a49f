(** Vocabulary for "what is computed does not depend on the image cache". *)
From Coq Require String.
Import String.StringSyntax.
From Coq Require Import Floats.SpecFloat.
From Verif Require Import Machine CacheModel PathModel AttrModel HashModel HashSpec StreamModel GraphModel GraphSpec
  NodeModel NodeSpec LutModel LutHistory GraphSim.

(** The circumstances of a session: the byte strings its hashers are fed, which
    paths are source images, a file system holding them, and the direction all
    its lens nodes have (their key does not contain it, see C36). *)
Record setting (D : Type) := Setting {
  used : list (list Z);
  sources : list Z -> bool;
  disk0 : D;
  lens_direction : Z
}.
Arguments Setting {D}.
Arguments used {D}.
Arguments sources {D}.
Arguments disk0 {D}.
Arguments lens_direction {D}.

Section Sound.
Context {D : Type}.
Variable p : profile.
Variable x : externals D.
Variable E : setting D.

Local Open Scope string_scope.

(** The source images are as they were. *)
Definition disk_ok (d : D) : Prop := forall path, sources E path = true ->
  x_kind x d path = x_kind x (disk0 E) path /\ x_read x d path empty_image = x_read x (disk0 E) path empty_image.

(** Writing a file that is not a source leaves the sources alone. *)
Definition keeps_sources : Prop := forall d path img co, sources E path = false -> disk_ok d ->
  disk_ok (fst (x_write x d path img co)).

(** The path a read or write node uses. *)
Definition node_path (b : block) (fr : spec_float) : Res (list Z) :=
  expand_string (x_expand x) (b_str b "file_path") (frame_number fr).

(** What the keys cannot express does not vary: reads are of source images,
    writes are not, channels a grade does not process have their default
    attributes, and lenses have the same direction. *)
Definition expressible (t : node_type) (b : block) (fr : spec_float) : Prop :=
  match t with
  | TRead => b_i32 b "enable" = 0 \/
      (b_i32 b "enable" = 1 /\ forall path, node_path b fr = Ok path -> sources E path = true)
  | TWrite => b_i32 b "enable" <> 0 -> b_i32 b "execute" <> 0 ->
      forall path, node_path b fr = Ok path -> sources E path = false
  | TGrade => forall flag suffix,
      In (flag, suffix) [("process_r", "r"); ("process_g", "g"); ("process_b", "b"); ("process_a", "a")] ->
      b_i32 b flag = 0 -> agree_on (channel_attrs suffix) b (default_attrs TGrade)
  | TLens => b_i32 b "direction" = lens_direction E
  | _ => True
  end.

(** A computation within these circumstances: attribute values a Rust struct
    can hold, a key among the hashed byte strings, and, if the node is told to
    use the cache, inputs for which that is harmless (see C37). *)
Definition tame (q : node * spec_float * list stream) : Prop :=
  let '(n, fr, ins) := q in
  let t := nd_type n in let b := nd_attrs n in
  wf_block b /\
  (exists l, cache_hash_bytes p (x_expand x) t b fr (map st_hash ins) = Ok l /\ In l (used E)) /\
  (active t b -> b_i32 b "use_cache" <> 0 -> settled x t b ins) /\
  expressible t b fr.

(** Nothing in the cache and no room for anything. *)
Definition no_cache (d : D) : world D := World (with_capacity 0) d.

Variable srt : edge_sort.
Notation ops := (recording (node_ops p x)).

(** Everything that happens to a set of graphs, the image cache in use and
    the file system: calls on any graph, executions being tame; calls for
    lookup tables; cache calls that insert nothing; changes to files that are
    not sources; going on with another cache, as left by any session. *)
Inductive session : (nat -> graph node stream) -> world D -> Prop :=
| ss_start cap d : disk_ok d -> session (fun _ => graph_new stream_new) (World (with_capacity cap) d)
| ss_call G w i call g' w' log G' : session G w ->
    calls ops srt (G i) (w, []) call g' (w', log) -> Forall tame log ->
    G' i = g' -> (forall j, j <> i -> G' j = G j) -> session G' w'
| ss_table G c d r img c' : session G (World c d) -> (forall l, hashed p x r l -> In l (used E)) ->
    LutHistory.call p x r c = Ok (img, c') -> session G (World c' d)
| ss_cache G c d o c' r : session G (World c d) -> (forall k v, o <> Insert k v) ->
    step image_bytes p c o = Ok (c', r) -> session G (World c' d)
| ss_disk G c d d' : session G (World c d) -> disk_ok d' -> session G (World c d')
| ss_swap G c d G0 c0 d0 : session G (World c d) -> session G0 (World c0 d0) -> session G (World c0 d).
End Sound.

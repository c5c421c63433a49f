(** When a picture depends on what the graph showed before, and when it depends
    on the files. *)
From Coq Require String.
Import String.StringSyntax.
From Coq Require Import Floats.SpecFloat.
From Verif Require Import Machine CacheModel PixelModel PathModel HashModel EnumModel AttrModel StreamModel GraphModel GraphSpec NodeModel ViewSpec.
Local Open Scope string_scope.

(** The same graph, whatever it showed last and however its nodes fared: the
    same node types and settings, ids and connections. *)
Definition same_graph (g h : graph node stream) : Prop :=
  Forall2 (fun n n' => nd_type n = nd_type n' /\ nd_attrs n = nd_attrs n') (g_nodes g) (g_nodes h) /\
  g_ids g = g_ids h /\ g_graph g = g_graph h.

(** The same outcome: what is shown, the cache and the files, the status. *)
Definition same_outcome {D} (r r' : option (Res (graph node stream * world D * exec_status))) : Prop :=
  match r, r' with
  | Some (Ok (g, w, e)), Some (Ok (h, w', e')) => same_graph g h /\ g_output g = g_output h /\ w = w' /\ e = e'
  | Some Panic, Some Panic => True
  | None, None => True
  | _, _ => False
  end.

(** No reader in use names something on disk that is no file, such as a folder. *)
Definition no_folders {D} (x : externals D) (d : D) (fr : spec_float) (g : graph node stream) (start : nat) : Prop :=
  forall i n path, reaches (g_graph g) i start -> nth_error (g_nodes g) i = Some n -> nd_type n = TRead -> node_get_i32 n "enable" = 1 ->
    expand_string (x_expand x) (node_get_str n "file_path") (frame_number fr) = Ok path -> x_kind x d path <> OtherEntry.

(** A viewer that bakes everything, with no viewer before it switched off. *)
Definition bakes_everything (g : graph node stream) (start : nat) : Prop :=
  (exists n, nth_error (g_nodes g) start = Some n /\ nd_type n = TViewer /\ told_to_bake (nd_attrs n) BakeAll) /\
  forall i n, reaches (g_graph g) i start -> nth_error (g_nodes g) i = Some n -> nd_type n = TViewer -> node_get_i32 n "enable" <> 0.

(** The same outcome, except for what is on disk. *)
Definition same_but_files {D} (r r' : option (Res (graph node stream * world D * exec_status))) : Prop :=
  match r, r' with
  | Some (Ok (g, w, e)), Some (Ok (g', w', e')) => g = g' /\ w_cache w = w_cache w' /\ e = e'
  | Some Panic, Some Panic => True
  | None, None => True
  | _, _ => False
  end.

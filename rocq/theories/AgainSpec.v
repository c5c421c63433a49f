(** Which nodes keep their picture in the cache, and what a key may depend on. *)
From Coq Require String.
Import String.StringSyntax.
From Coq Require Import Floats.SpecFloat.
From Verif Require Import Machine CacheModel BBoxModel PixelModel AttrModel HashModel HashSpec PathModel StreamModel GraphModel NodeModel.
Local Open Scope string_scope.

(** The node makes a picture of its own and is asked to keep it. *)
Definition keeps_picture {D} (x : externals D) (t : node_type) (b : block) (fr : spec_float) (mode : Z)
    (ins : list stream) (d : D) : Prop :=
  b_i32 b "use_cache" <> 0 /\
  match t with
  | TRead => b_i32 b "enable" <> 0 /\ Z.testbit mode 0 = true /\
      exists path, expand_string (x_expand x) (b_str b "file_path") (frame_number fr) = Ok path /\ x_kind x d path = RegularFile
  | TCrop | TMerge => b_i32 b "enable" = 1 /\ ins <> []
  | TResample => b_i32 b "enable" = 1 /\ b_i32 b "factor" <> 0 /\ length ins = 1%nat
  | TViewer => b_i32 b "enable" = 1 /\ b_i32 b "bake_option" <> 0
  | _ => False
  end.

(** The stream shows this picture. *)
Definition shows (s : stream) (img : shared) : Prop :=
  st_block s = sh_block img /\ st_data s = sh_data img /\ st_display s = sh_display img.

(** Everything the key of an enabled node is made of, besides type and inputs. *)
Definition key_attributes (t : node_type) (b : block) : list attr :=
  AI32 "enable" :: influences t b ++
  match t with TGrade => [AI32 "clamp_black"; AI32 "clamp_white"; AI32 "premult"] | _ => [] end.

(** No lookup missed, nothing was inserted and nothing evicted. *)
Definition only_hits (c c' : CacheModel.cache shared) : Prop :=
  CacheModel.misses c' = CacheModel.misses c /\ CacheModel.inserts c' = CacheModel.inserts c /\
  CacheModel.evictions c' = CacheModel.evictions c.

(** Every file that a read node is asked for exists, for every frame. *)
Definition files_exist {D} (x : externals D) (g : GraphModel.graph node stream) (frames : list spec_float) (d : D) : Prop :=
  forall n fr path, In n (GraphModel.g_nodes g) -> nd_type n = TRead -> b_i32 (nd_attrs n) "enable" <> 0 -> In fr frames ->
  expand_string (x_expand x) (b_str (nd_attrs n) "file_path") (frame_number fr) = Ok path -> x_kind x d path <> NoEntry.

(** Writing a file leaves what exists a file or a directory as it was. *)
Definition writes_keep_kinds {D} (x : externals D) : Prop :=
  forall d path img co q, x_kind x d q <> NoEntry -> x_kind x (fst (x_write x d path img co)) q = x_kind x d q.

(** What exists in [d] is still there in [d']. *)
Definition still_there {D} (x : externals D) (d d' : D) : Prop :=
  forall q, x_kind x d q <> NoEntry -> x_kind x d' q = x_kind x d q.

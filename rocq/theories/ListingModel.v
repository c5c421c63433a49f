(** The text a graph gives about itself. *)
From Coq Require String.
Import String.StringSyntax.
From Verif Require Import Machine PathModel AttrModel StreamModel GraphModel NodeModel LutModel.
Local Open Scope string_scope.

Section Text.
(** petgraph's drawing of the connections (graph.rs 616-619), and the derived
    printing of a status (graph.rs 624) and of the attributes of a node
    (node.rs 140-142). *)
Variable draw : stable -> list Z.
Variable show_status : Z -> list Z.
Variable show_attrs : node_type -> block -> list Z.

(** graph.rs 227-236 [node_attrs_data_debug_string] *)
Definition attrs_text (g : graph node stream) (id : Z) : Res (list Z) :=
  read_node g id (fun n => show_attrs (nd_type n) (nd_attrs n)) (ascii_bytes "could not find node attrs").

(** graph.rs 622-625: one line. *)
Definition text_line (i id : Z) (status attrs : list Z) : list Z :=
  (ascii_bytes "index=" ++ digits i ++ ascii_bytes " id=" ++ digits id ++ ascii_bytes " status=" ++ status ++
  ascii_bytes " attrs=" ++ attrs ++ [10])%list.

(** graph.rs 620-627: the loop over the ids. *)
Fixpoint text_lines (g : graph node stream) (i : Z) (ids : list Z) : Res (list Z) :=
  match ids with
  | [] => Ok []
  | id :: t =>
      let* st := read_node g id nd_status (status_code NsNonExistent) in
      let* attrs := attrs_text g id in
      let* rest := text_lines g (i + 1) t in
      Ok (text_line i id (show_status st) attrs ++ rest)%list
  end.

(** graph.rs 614-629 [data_debug_string], graph.cpp 157-160 *)
Definition graph_text (g : graph node stream) : Res (list Z) :=
  let* l := text_lines g 0 (g_ids g) in Ok (draw (g_graph g) ++ l)%list.
End Text.

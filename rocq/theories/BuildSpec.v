(** A program's life: everything that is done to its graphs, the image cache
    they share and the file system.  [p] is how the library was built. *)
From Coq Require Import Floats.SpecFloat.
From Verif Require Import Machine PixelModel CacheModel AttrModel StreamModel GraphModel GraphSpec NodeModel LutModel LutHistory.

(** What the program does. *)
Inductive event (D : Type) :=
| OnGraph (i : nat) (call : gcall node spec_float awrite)
| OnTable (r : request)
| OnCache (o : op shared)
| OnDisk (d : D).
Arguments OnGraph {D}. Arguments OnTable {D}. Arguments OnCache {D}. Arguments OnDisk {D}.

Section Life.
Context {D : Type}.
Variable p : profile.
Variable x : externals D.
Variable srt : edge_sort.

(** [life es G w]: the events [es] all came to an end without a crash, and led
    to the graphs [G], and to the cache and files [w]; [outs] are the answers
    of the cache and the tables. *)
Inductive life (cap : Z) (d0 : D) : list (event D) -> list (out shared + shared) -> (nat -> graph node stream) -> world D -> Prop :=
| l_start : life cap d0 [] [] (fun _ => graph_new stream_new) (World (with_capacity cap) d0)
| l_graph es outs G w i call g' w' G' : life cap d0 es outs G w ->
    calls (node_ops p x) srt (G i) w call g' w' -> G' i = g' -> (forall j, j <> i -> G' j = G j) ->
    life cap d0 (es ++ [OnGraph i call]) outs G' w'
| l_table es outs G c d r img c' : life cap d0 es outs G (World c d) ->
    LutHistory.call p x r c = Ok (img, c') -> life cap d0 (es ++ [OnTable r]) (outs ++ [inr img]) G (World c' d)
| l_cache es outs G c d o c' a : life cap d0 es outs G (World c d) ->
    step image_bytes p c o = Ok (c', a) -> life cap d0 (es ++ [OnCache o]) (outs ++ [inl a]) G (World c' d)
| l_disk es outs G c d d' : life cap d0 es outs G (World c d) -> life cap d0 (es ++ [OnDisk d']) outs G (World c d').
End Life.

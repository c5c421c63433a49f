(** Model of how frames reach the nodes: the two [Graph::execute] functions of
    src/graph.cpp 132-155.  A frame is an f64. *)
From Coq Require Import Floats.SpecFloat.
From Verif Require Import Machine FloatModel GraphModel.

(** C++ [static_cast<double>(int32_t)], graph.cpp 138. *)
Definition f64_of_Z (n : Z) : spec_float := binary_normalize 53 1024 n 0 false.

Section Frames.
Context {N St C W : Type}.
Variable ops : nodeops N St C spec_float W.
Variable srt : edge_sort.

(** graph.cpp 132-144: whole frames are converted one by one and passed on.
    (graph.cpp 146-155 only moves the cache out of its owner and back.) *)
Definition execute_whole (fuel : nat) (g : graph N St) (id : Z) (frames : list Z) (c : C)
  : option (Res (graph N St * C * exec_status)) :=
  execute ops srt fuel g id (map f64_of_Z frames) c.
End Frames.

(** Executing a node after its only input. *)
From Verif Require Import Machine GraphModel.

Section Peel.
Context {N St Ca F W : Type}.
Variable ops : nodeops N St Ca F W.

(** Computing node [n], at index [i], once more on a finished execution of its
    only input: it gets that output, both as input and as previous output.
    [old] is the dirty state before the execution. *)
Definition then_node (i : nat) (n : N) (fr : F) (old : graph_state)
    (r : option (Res (graph N St * Ca * exec_status))) : option (Res (graph N St * Ca * exec_status)) :=
  match r with
  | Some (Ok (g, c, ExSuccess)) =>
      match n_compute ops n fr mode_all [g_output g] (g_output g) c with
      | Panic => Some Panic
      | Ok (n', st, out, c') =>
          let g' := Graph (set_nth (g_nodes g) i n') (g_ids g) (g_graph g) out in
          match st with
          | NsValid | NsWarning => Some (Ok (g' GsClean ExSuccess, c', ExSuccess))
          | NsUninitialized => Some (Ok (g' old ExUninitialized, c', ExUninitialized))
          | NsError | NsNonExistent => Some (Ok (g' old ExError, c', ExError))
          end
      end
  | _ => r
  end.
End Peel.

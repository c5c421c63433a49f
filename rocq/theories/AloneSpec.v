(** What executing a node with nothing connected to it gives. *)
From Verif Require Import Machine GraphModel GraphSpec.

(** Node [n], the [i]th, is computed on no inputs; its answer becomes the output
    and the status of the execution. *)
Definition alone {N St Ca F W} (ops : nodeops N St Ca F W) (g : graph N St) (i : nat) (n : N) (fr : F) (c : Ca)
  : option (Res (graph N St * Ca * exec_status)) :=
  match n_compute ops n fr mode_all [] (g_output g) c with
  | Panic => Some Panic
  | Ok (n', st, out, c') =>
      let g' := Graph (set_nth (g_nodes g) i n') (g_ids g) (g_graph g) out in
      match st with
      | NsValid | NsWarning => Some (Ok (g' GsClean ExSuccess, c', ExSuccess))
      | NsUninitialized => Some (Ok (g' (g_state g) ExUninitialized, c', ExUninitialized))
      | NsError | NsNonExistent => Some (Ok (g' (g_state g) ExError, c', ExError))
      end
  end.

(** Clients that keep to the circumstances of a session (see SoundSpec):
    executions and tables that are tame, sources left alone. *)
From Coq Require Import String Floats.SpecFloat.
From Verif Require Import Machine CacheModel AttrModel StreamModel GraphModel GraphSpec GraphSim NodeModel LutHistory FrameModel SoundSpec
  ClientModel ClientSpec.

Section Client.
Context {D : Type}.
Variable p : profile.
Variable x : externals D.
Variable E : setting D.
Variable srt : edge_sort.

(** Everything the execution with cache [k] computes is tame. *)
Definition tame_execution (cl : client D) (fuel i : nat) (n : handle) (frames : list spec_float) (k : nat) : Prop :=
  forall c g' w' log st, cl_caches cl k = Some c ->
  execute (recording (node_ops p x)) srt fuel (cl_graphs cl i) (hd_id n) frames (World c (cl_disk cl), []) = Some (Ok (g', (w', log), st)) ->
  Forall (tame p x E) log.

(** A table whose key is told apart from all others (see C44). *)
Definition tame_request (r : request) : Prop := request_ok r /\ forall l, hashed p x r l -> In l (used E).

Definition tame_call (cl : client D) (fuel : nat) (call : ccall) : Prop :=
  match call with
  | CExecuteWhole i n frames k => tame_execution cl fuel i n (map f64_of_Z frames) k
  | CExecute i n frames k => tame_execution cl fuel i n frames k
  | CTransformTable from to n _ => tame_request (RTransform from to n)
  | COpsTable s n nc _ => tame_request (ROps s n nc)
  | _ => True
  end.

Inductive tame_past : list (ccall * reply) -> client D -> Prop :=
| tp_new d : disk_ok x E d -> tame_past [] (client_new d)
| tp_call h cl fuel call cl' r : tame_past h cl -> tame_call cl fuel call ->
    client_call p x srt fuel cl call = Some (Ok (cl', r)) -> tame_past (h ++ [(call, r)]) cl'
| tp_files h cl d : tame_past h cl -> disk_ok x E d -> tame_past h (Client (cl_graphs cl) (cl_caches cl) d).
End Client.

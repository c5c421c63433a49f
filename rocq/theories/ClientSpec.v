(** What a client of the C++ classes expects, in terms of the calls made so far. *)
From Coq Require Import String Floats.SpecFloat.
From Verif Require Import Machine CacheModel AttrModel AttrSpec StreamModel GraphModel GraphSpec NodeModel FrameModel ClientModel.

Section Client.
Context {D : Type}.
Variable p : profile.
Variable x : externals D.
Variable srt : edge_sort.

(** A client's past: the calls made and the answers got, oldest first.  Between
    calls anything may happen to the files. *)
Inductive past : list (ccall * reply) -> client D -> Prop :=
| p_new d : past [] (client_new d)
| p_call h cl fuel call cl' r : past h cl -> client_call p x srt fuel cl call = Some (Ok (cl', r)) ->
    past (h ++ [(call, r)]) cl'
| p_files h cl d : past h cl -> past h (Client (cl_graphs cl) (cl_caches cl) d).

(** The call is answered so, and changes nothing. *)
Definition answers (cl : client D) (call : ccall) (r : reply) : Prop :=
  forall fuel, client_call p x srt fuel cl call = Some (Ok (cl, r)).
End Client.

(** The type of the first node created in graph [i] under the id [id]. *)
Fixpoint first_created (i : nat) (id : Z) (h : list (ccall * reply)) : option node_type :=
  match h with
  | [] => None
  | (CCreate j t how, _) :: h' => if Nat.eqb j i && (creation_id how =? id) then Some t else first_created i id h'
  | _ :: h' => first_created i id h'
  end.

(** The value last set under the id [id] in graph [i] for the attribute [name]
    of kind [k] by the given calls. *)
Fixpoint last_set (i : nat) (id : Z) (k : kind) (name : string) (h : list (ccall * reply)) : option value :=
  match h with
  | [] => None
  | (CSet j n w, _) :: h' =>
      match last_set i id k name h' with
      | Some v => Some v
      | None => if Nat.eqb j i && (hd_id n =? id) && kind_eqb (w_kind w) k && (w_name w =? name)%string
                then Some (w_value w) else None
      end
  | _ :: h' => last_set i id k name h'
  end.

Definition reply_of (v : value) : reply := match v with VI z | VF z => RNumber z | VS l => RBytes l end.
Definition asking (k : kind) (i : nat) (n : handle) (name : string) : ccall :=
  match k with KI32 => CGetI32 i n name | KF32 => CGetF32 i n name | KStr => CGetStr i n name end.

(** Calls through the handle [n] on graph [i]. *)
Definition through (i : nat) (n : handle) (call : ccall) : Prop :=
  match call with
  | CDelete j m | CSet j m _ | CDisconnect j m _ | CExecuteWhole j m _ _ | CExecute j m _ _
  | CExists j m | CAttrExists j m _ | CGetI32 j m _ | CGetF32 j m _ | CGetStr j m _ | CStatus j m => j = i /\ m = n
  | CConnect j a b _ => j = i /\ (a = n \/ b = n)
  | _ => False
  end.
(** The graphs and caches are the same but for the status of the last execution. *)
Definition same_but_status {D} (cl cl' : client D) : Prop :=
  (forall j, g_nodes (cl_graphs cl' j) = g_nodes (cl_graphs cl j) /\ g_ids (cl_graphs cl' j) = g_ids (cl_graphs cl j) /\
     g_graph (cl_graphs cl' j) = g_graph (cl_graphs cl j) /\ g_output (cl_graphs cl' j) = g_output (cl_graphs cl j) /\
     g_state (cl_graphs cl' j) = g_state (cl_graphs cl j)) /\
  (forall k, cl_caches cl' k = cl_caches cl k) /\ cl_disk cl' = cl_disk cl.
(** What an id nobody created answers. *)
Definition answer_missing (call : ccall) : reply :=
  match call with
  | CDelete _ _ | CExists _ _ | CAttrExists _ _ _ => RBool false
  | CGetI32 _ _ _ | CGetF32 _ _ _ => RNumber 0
  | CGetStr _ _ _ => RBytes []
  | CStatus _ _ => RNumber (status_code NsNonExistent)
  | CExecuteWhole _ _ _ _ | CExecute _ _ _ _ => RStatus ExError
  | _ => RVoid
  end.

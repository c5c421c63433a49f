(** C114: what a client's graphs and caches report. *)
From Coq Require Import String.
From Coq Require Import Floats.SpecFloat.
From Verif Require Import Machine CacheModel CacheSpec AttrModel AttrSpec StreamModel GraphModel NodeModel NodeExamples FrameModel
  ClientModel ClientSpec ClientSpec3 ClientProofs3 PropertiesClient PropertiesSafe PropertiesShow2 PropertiesClient2.
Local Open Scope string_scope.

(** A cache has been through the capacities it was given and the lookups of the
    executions and tables it was lent to, in that order and through nothing else; so what
    C01-C08, C51 and C100 say of such a run holds of it. *)
Theorem C114_cache : forall D p (x : externals D) srt h cl k, past p x srt h cl ->
  exists c l outs, cl_caches cl k = Some c /\ cache_past k h l outs /\ run image_bytes p (with_capacity 0) l = Ok (c, outs).
Proof. exact @cache_went. Qed.
Print Assumptions C114_cache.

(** The capacity reported is the one last given. *)
Theorem C114_capacity : forall D p (x : externals D) srt h cl k, past p x srt h cl ->
  answers p x srt cl (CCapacity k) (RNumber (last_capacity k h)).
Proof. exact @answers_capacity. Qed.
Print Assumptions C114_capacity.

(** The count and the bytes reported are those of the pictures held: each the
    last one handed in under its key, those most recently used, and within the
    capacity if no picture was larger than it. *)
Theorem C114_content : forall D p (x : externals D) srt h cl k, past p x srt h cl ->
  exists l outs, cache_past k h l outs /\
    (history_wf image_bytes l ->
     exists pics, NoDup (map fst pics) /\ (forall key v, In (key, v) pics -> last_accepted 0 key None l = Some v) /\
       (exists older, recency 0 [] l outs = (older ++ map fst pics)%list) /\
       answers p x srt cl (CCount k) (RNumber (Z.of_nat (length pics))) /\
       answers p x srt cl (CUsed k) (RNumber (total_bytes image_bytes pics)) /\
       (no_oversized image_bytes 0 l -> total_bytes image_bytes pics <= last_capacity k h)).
Proof. exact @answers_content. Qed.
Print Assumptions C114_content.

(** The status reported is the answer of the last execution on that graph. *)
Theorem C114_status : forall D p (x : externals D) srt h cl i, past p x srt h cl ->
  answers p x srt cl (CExecStatus i) (RStatus (last_status i h)).
Proof. exact @answers_status. Qed.
Print Assumptions C114_status.

(** The state reported before and after any call. *)
Theorem C114_state : forall D p (x : externals D) srt h cl fuel call cl' r i, past p x srt h cl ->
  client_call p x srt fuel cl call = Some (Ok (cl', r)) ->
  exists s s', answers p x srt cl (CState i) (RState s) /\ answers p x srt cl' (CState i) (RState s') /\ next_state i h call r s s'.
Proof. exact @answers_state. Qed.
Print Assumptions C114_state.
(** "Uninitialized" says that no node was ever created. *)
Theorem C114_uninitialized : forall D p (x : externals D) srt h cl i, past p x srt h cl ->
  (answers p x srt cl (CState i) (RState GsUninitialized) <-> forall t how r, ~ In (CCreate i t how, r) h).
Proof. exact @state_uninitialized. Qed.
Print Assumptions C114_uninitialized.
(** "Clean" says that there was a successful execution and no edit since. *)
Theorem C114_clean : forall D p (x : externals D) srt h cl i, past p x srt h cl -> answers p x srt cl (CState i) (RState GsClean) ->
  exists h1 call h2, h = (h1 ++ (call, RStatus ExSuccess) :: h2)%list /\ executes i call /\
    forall h3 e h4, h2 = (h3 ++ e :: h4)%list -> leaves_clean i (h1 ++ (call, RStatus ExSuccess) :: h3)%list e.
Proof. exact @state_clean. Qed.
Print Assumptions C114_clean.

(** Questions change nothing. *)
Theorem C114_asking : forall D p (x : externals D) srt fuel cl q cl' r i k, about_graph i q \/ about_cache k q ->
  client_call p x srt fuel cl q = Some (Ok (cl', r)) -> cl' = cl.
Proof. exact @asking_only. Qed.
Print Assumptions C114_asking.
(** A graph answers as before after calls on other graphs and on caches. *)
Theorem C114_graphs_apart : forall D p (x : externals D) srt fuel cl call cl' r i,
  client_call p x srt fuel cl call = Some (Ok (cl', r)) -> ~ touches_graph i call ->
  forall q a, about_graph i q -> (answers p x srt cl' q a <-> answers p x srt cl q a).
Proof. exact @graph_apart. Qed.
Print Assumptions C114_graphs_apart.
(** A cache answers as before after calls that do not involve it. *)
Theorem C114_caches_apart : forall D p (x : externals D) srt fuel cl call cl' r k,
  client_call p x srt fuel cl call = Some (Ok (cl', r)) -> ~ touches_cache k call ->
  forall q a, about_cache k q -> (answers p x srt cl' q a <-> answers p x srt cl q a).
Proof. exact @cache_apart. Qed.
Print Assumptions C114_caches_apart.

(** The output is a new stream at first, and is replaced by executions only. *)
Theorem C114_output_new : forall D p (x : externals D) srt d i, answers p x srt (client_new d) (COutput i) (RStream stream_new).
Proof. exact @output_first. Qed.
Print Assumptions C114_output_new.
Theorem C114_output_kept : forall D p (x : externals D) srt h fuel cl call cl' r i, past p x srt h cl ->
  client_call p x srt fuel cl call = Some (Ok (cl', r)) -> ~ executes i call ->
  forall a, answers p x srt cl' (COutput i) a <-> answers p x srt cl (COutput i) a.
Proof. exact @output_apart. Qed.
Print Assumptions C114_output_kept.
(** An execution is one of the graph, from the node named, over the frames given
    in that order, with the cache lent to it; it shows what that shows. *)
Theorem C114_output_executed : forall D p (x : externals D) srt fuel cl i n fs k call cl' r,
  call = CExecute i n fs k \/ (exists ns, call = CExecuteWhole i n ns k /\ fs = map f64_of_Z ns) ->
  client_call p x srt fuel cl call = Some (Ok (cl', r)) ->
  exists c g w st, cl_caches cl k = Some c /\ execute (node_ops p x) srt fuel (cl_graphs cl i) (hd_id n) fs (World c (cl_disk cl)) = Some (Ok (g, w, st)) /\
    r = RStatus st /\ answers p x srt cl' (COutput i) (RStream (g_output g)) /\ cl_caches cl' k = Some (w_cache w) /\ cl_disk cl' = w_disk w.
Proof. exact @output_executed. Qed.
Print Assumptions C114_output_executed.

(** The client of C113_session goes on: a second graph, a second cache, a call
    on a node that is not there, and questions. *)
Definition busy_calls : list ccall :=
  (kept_client_calls ++
   [CExecuteWhole 0 (Handle TCrop 4) [0] 0; CSetCapacity 1 50; CCreate 1 TNull (ById 7);
    CExecute 1 (Handle TNull 8) [] 1; CSet 0 (Handle TRead 99) (WI32 "enable" 0);
    CState 0; CState 1; CState 2; CExecStatus 0; CExecStatus 1; CExecStatus 2; CCount 0; CUsed 0; CCapacity 0; CCount 1; CUsed 1; CCapacity 1])%list.
Definition busy := Eval vm_compute in match replay 99 (client_new safe_disk) busy_calls with Some (h, _) => h | None => [] end.
Definition busy_cache := Eval vm_compute in
  match replay 99 (client_new safe_disk) busy_calls with Some (_, cl) => cl_caches cl 0 | None => None end.
Definition busy_pics : list (Z * shared) := match busy_cache with Some c => lru c | None => [] end.
(** What cache 0 went through: four pictures were looked for and made. *)
Definition busy_ops : list (op shared) := SetCapacity 193600 :: flat_map (fun e => [Get (fst e); Insert (fst e) (snd e)]) busy_pics.
Definition busy_outs : list (out shared) := OUnit :: flat_map (fun _ => [OGet None; OUnit]) busy_pics.

Lemma cache_past_others k h0 l outs : cache_past k h0 l outs -> forall h,
  Forall (fun e => match fst e with CSetCapacity j _ | CExecute _ _ _ j | CExecuteWhole _ _ _ j | CTransformTable _ _ _ j | COpsTable _ _ _ j => j <> k | _ => True end) h ->
  cache_past k (h0 ++ h) l outs.
Proof.
  intros C h. induction h as [|(call, r) h IH] using rev_ind; intro F; [now rewrite app_nil_r|]. apply Forall_app in F. destruct F as (F & G).
  rewrite app_assoc. apply cp_other; [exact (IH F)|]. inversion G; subst. assumption.
Qed.

Example C114_example : exists cl, past Debug demo insertion_sort busy cl /\
  map snd (skipn 13 busy) =
    [RStatus ExSuccess; RVoid; RNode (Handle TNull 7); RStatus ExError; RVoid; RState GsClean; RState GsDirty; RState GsUninitialized;
     RStatus ExSuccess; RStatus ExError; RStatus ExUninitialized; RNumber 4; RNumber 460; RNumber 193600; RNumber 0; RNumber 0; RNumber 50] /\
  cache_past 0 busy busy_ops busy_outs /\ history_wf image_bytes busy_ops /\ no_oversized image_bytes 0 busy_ops /\
  length busy_pics = 4%nat /\ last_capacity 0 busy = 193600 /\ last_capacity 1 busy = 50 /\ last_status 1 busy = ExError.
Proof.
  destruct (replay 99 (client_new safe_disk) busy_calls) as [[h cl]|] eqn:E; [|vm_compute in E; discriminate E].
  exists cl. split.
  { assert (H : h = busy) by (vm_compute in E; injection E as <- _; reflexivity). rewrite <- H.
    exact (replay_past 99 busy_calls [] (client_new safe_disk) h cl (p_new _ _ _ safe_disk) E). }
  clear E. split; [reflexivity|]. split.
  { change (cache_past 0 ((([] ++ [(CSetCapacity 0 193600, RVoid)]) ++ firstn 12 (skipn 1 busy)) ++ [(CExecuteWhole 0 (Handle TCrop 4) [0] 0, RStatus ExSuccess)] ++ skipn 14 busy)
              (([] ++ [SetCapacity 193600]) ++ skipn 1 busy_ops) (([] ++ [OUnit]) ++ skipn 1 busy_outs)).
    rewrite app_assoc. apply cache_past_others.
    - apply cp_lent; [|apply l_made, l_made, l_made, l_made, l_none|reflexivity]. apply cache_past_others; [apply cp_capacity, cp_new|].
      repeat constructor.
    - repeat constructor; discriminate. }
  split; [|split; [|split; [|split; [|split]]]; try reflexivity].
  - split; [|vm_compute; reflexivity]. unfold busy_ops. repeat (apply Forall_cons; [vm_compute; try split; try exact I; discriminate || reflexivity|]). constructor.
  - vm_compute. repeat split; left; discriminate.
Qed.

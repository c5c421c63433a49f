(** C113, continued: clients and sessions. *)
From Coq Require Import String.
From Coq Require Import Floats.SpecFloat.
From Verif Require Import Machine CacheModel AttrModel AttrSpec StreamModel GraphModel GraphSpec GraphSim NodeModel NodeExamples FrameModel SoundSpec
  ClientModel ClientSpec ClientSpec2 ClientProofs ClientProofs2 PropertiesNode PropertiesSafe PropertiesShow2.
Local Open Scope string_scope.

(** A client whose executions, on any graph with any cache, are tame and who
    leaves the source files alone is a session; so C53, C54, C66, C67, C104, C106 and all
    that is said of sessions holds of C++ clients. *)
Theorem C113_session : forall D p (x : externals D) (E : setting D) srt h cl, tame_past p x E srt h cl ->
  forall k, exists c, cl_caches cl k = Some c /\ session p x E srt (cl_graphs cl) (World c (cl_disk cl)).
Proof. exact @client_session. Qed.
Print Assumptions C113_session.

(** Two readers, a merge and a crop, executed through the cache. *)
Definition kept_client_calls : list ccall :=
  [CSetCapacity 0 193600;
   CCreate 0 TRead (ById 1); CSet 0 (Handle TRead 1) (WStr "file_path" [97]);
   CCreate 0 TRead (ById 2); CSet 0 (Handle TRead 2) (WStr "file_path" [98]);
   CCreate 0 TMerge (ById 3); CCreate 0 TCrop (ById 4);
   CSet 0 (Handle TCrop 4) (WI32 "window_min_x" 1); CSet 0 (Handle TCrop 4) (WI32 "window_max_x" 5);
   CSet 0 (Handle TCrop 4) (WI32 "window_max_y" 5);
   CConnect 0 (Handle TRead 1) (Handle TMerge 3) 0; CConnect 0 (Handle TRead 2) (Handle TMerge 3) 1;
   CConnect 0 (Handle TMerge 3) (Handle TCrop 4) 0].
Fixpoint prepare (cl : client disk) (calls : list ccall) : option (list (ccall * reply) * client disk) :=
  match calls with
  | [] => Some ([], cl)
  | c :: rest =>
      match client_call Debug demo insertion_sort 99 cl c with
      | Some (Ok (cl', r)) => match prepare cl' rest with Some (h, cl'') => Some ((c, r) :: h, cl'') | None => None end
      | _ => None
      end
  end.
Definition no_execution (c : ccall) : bool :=
  match c with CExecute _ _ _ _ | CExecuteWhole _ _ _ _ | CTransformTable _ _ _ _ | COpsTable _ _ _ _ => false | CSetCapacity 0 _ => true | CSetCapacity _ _ => false | _ => true end.
Lemma prepare_past calls : forallb no_execution calls = true -> forall h0 cl h cl',
  tame_past Debug demo kept_setting insertion_sort h0 cl -> prepare cl calls = Some (h, cl') ->
  tame_past Debug demo kept_setting insertion_sort (h0 ++ h) cl'.
Proof.
  induction calls as [|c calls IH]; intros N h0 cl h cl' P R; cbn [prepare] in R.
  - injection R as <- <-. rewrite app_nil_r. exact P.
  - cbn [forallb] in N. apply andb_prop in N. destruct N as (N1 & N2).
    destruct (client_call Debug demo insertion_sort 99 cl c) as [[[cl1 r]|]|] eqn:E; try discriminate R.
    destruct (prepare cl1 calls) as [[h1 cl2]|] eqn:E2; [|discriminate R]. injection R as <- <-.
    change (h0 ++ (c, r) :: h1)%list with (h0 ++ [(c, r)] ++ h1)%list. rewrite app_assoc.
    assert (T : tame_call Debug demo kept_setting insertion_sort cl 99 c).
    { destruct c; cbn in N1 |- *; try exact I; try discriminate N1. }
    apply (IH N2 _ _ _ _ (tp_call _ _ _ _ _ _ _ _ _ _ P T E) E2).
Qed.
Lemma tame_run cl i n fs c g' w' log st :
  execute (recording (node_ops Debug demo)) insertion_sort 99 (cl_graphs cl i) (hd_id n) fs (World c (cl_disk cl), []) = Some (Ok (g', (w', log), st)) ->
  cl_caches cl 0 = Some c -> Forall (tame Debug demo kept_setting) log -> tame_execution Debug demo kept_setting insertion_sort cl 99 i n fs 0.
Proof.
  intros X C F c1 g1 w1 log1 st1 C1 X1. rewrite C in C1. injection C1 as <-. rewrite X in X1. injection X1 as _ _ <- _. exact F.
Qed.

Lemma kept_client : exists h cl, tame_past Debug demo kept_setting insertion_sort h cl /\
  In (CExecuteWhole 0 (Handle TCrop 4) [0] 0, RStatus ExSuccess) h /\
  cl_caches cl 0 = Some (w_cache (snd (fst kept_first))) /\ cl_caches cl 6 = Some (with_capacity 0).
Proof.
  destruct (prepare (client_new safe_disk) kept_client_calls) as [[h cl]|] eqn:E; [|vm_compute in E; discriminate E].
  assert (P : tame_past Debug demo kept_setting insertion_sort h cl).
  { refine (prepare_past kept_client_calls eq_refl [] (client_new safe_disk) h cl (tp_new _ _ _ _ safe_disk _) E). intros q Q. split; reflexivity. }
  assert (G : cl_graphs cl 0%nat = kept_graph /\ cl_caches cl 0%nat = Some (with_capacity 193600) /\ cl_caches cl 6%nat = Some (with_capacity 0) /\ cl_disk cl = safe_disk).
  { vm_compute in E. injection E as _ <-. vm_compute. repeat split. }
  destruct G as (G & C & C6 & DK). clear E.
  assert (FIRST : execute (recording (node_ops Debug demo)) insertion_sort 99 kept_graph 4 [frame0] (World (with_capacity 193600) safe_disk, [])
    = Some (Ok (fst (fst kept_first), (snd (fst kept_first), snd kept_first), ExSuccess))) by (vm_compute; reflexivity).
  pose proof (recording_faithful _ _ _ _ _ _ _ _ _ _ _ _ FIRST) as PLAIN.
  eexists (h ++ [(CExecuteWhole 0 (Handle TCrop 4) [0] 0, RStatus ExSuccess)])%list, _. split.
  - refine (tp_call _ _ _ _ h cl 99 _ _ _ P _ _).
    + change (map f64_of_Z [0]) with [frame0].
      apply (tame_run cl 0 (Handle TCrop 4) [frame0] (with_capacity 193600) (fst (fst kept_first)) (snd (fst kept_first)) (snd kept_first) ExSuccess);
        [rewrite G, DK; exact FIRST|exact C|]. apply all_tame, log_expected. vm_compute. repeat split.
    + cbn [client_call]. unfold execute_call. rewrite C, G, DK. change (map f64_of_Z [0]) with [frame0]. cbn [hd_id]. rewrite PLAIN. reflexivity.
  - split; [apply in_elt|]. cbn [cl_caches]. split; [apply put_eq|exact C6].
Qed.
Example C113_session_example : exists h cl, tame_past Debug demo kept_setting insertion_sort h cl /\
  In (CExecuteWhole 0 (Handle TCrop 4) [0] 0, RStatus ExSuccess) h /\
  exists c, cl_caches cl 0 = Some c /\ len c = 4.
Proof.
  destruct kept_client as (h & cl & P & I & C & _). exists h, cl. split; [exact P|]. split; [exact I|]. eexists. split; [exact C|]. vm_compute. reflexivity.
Qed.

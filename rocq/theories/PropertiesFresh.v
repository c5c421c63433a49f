(** C109: what a graph shows and what it showed before. *)
From Coq Require String.
Import String.StringSyntax.
From Coq Require Import Floats.SpecFloat Lia.
From Verif Require Import Machine CacheModel FloatModel BBoxModel PixelModel EnumModel AttrModel HashModel StreamModel BakeModel
  GraphModel GraphSpec GraphPlay GraphWalk GraphHistory GraphFacts NodeModel NodeExamples NodeSpec ChainSpec ViewSpec SceneSpec FreshSpec FreshProofs
  AttrProofs PropertiesNode PropertiesScene.
Local Open Scope string_scope.

(** If every contributing node is asked for its picture (as in C104) and no
    reader in use names a folder, executing a graph is determined by its nodes'
    types and settings, its connections, the cache and the files: whatever the
    graph showed before and whatever the status of its nodes, it shows the same
    picture, leaves the same cache and files, and ends with the same status.
    Missing: graphs with viewers that are switched off or bake everything, or
    with connected inputs that are not used ([C109_refuted]). *)
Theorem C109_fresh_partial : forall D p (x : externals D) srt, sorts srt ->
  forall fuel (g h : graph node stream) id start fr frames w,
  wf_graph (node_ops p x) g -> same_graph g h -> find_index g id = Some start -> all_asked g start ->
  no_folders x (w_disk w) fr g start ->
  same_outcome (execute (node_ops p x) srt fuel g id (fr :: frames) w) (execute (node_ops p x) srt fuel h id (fr :: frames) w).
Proof. exact @execute_fresh. Qed.
Print Assumptions C109_fresh_partial.

(** So executing the same graph again, with cache and files as they were, shows
    the same again. *)
Theorem C109_again_partial : forall D p (x : externals D) srt, sorts srt ->
  forall fuel (g : graph node stream) id start fr frames w g' w' e,
  wf_graph (node_ops p x) g -> find_index g id = Some start -> all_asked g start -> no_folders x (w_disk w) fr g start ->
  execute (node_ops p x) srt fuel g id (fr :: frames) w = Some (Ok (g', w', e)) ->
  exists g'', execute (node_ops p x) srt fuel g' id (fr :: frames) w = Some (Ok (g'', w', e)) /\ g_output g'' = g_output g'.
Proof. exact @execute_again. Qed.
Print Assumptions C109_again_partial.

(** A viewer that bakes everything never looks at a file: whatever is on disk,
    executing it comes to the same, whatever readers, merges or other nodes come
    before it. *)
Theorem C109_never_opens : forall D p (x : externals D) srt, sorts srt ->
  forall fuel (g : graph node stream) id start frames c d d',
  wf_graph (node_ops p x) g -> find_index g id = Some start -> bakes_everything g start ->
  same_but_files (execute (node_ops p x) srt fuel g id frames (World c d)) (execute (node_ops p x) srt fuel g id frames (World c d')).
Proof. exact @execute_files. Qed.
Print Assumptions C109_never_opens.

(* ------------------------------ graphs ------------------------------ *)

(** A file, made twice as red, seen by a viewer. *)
Definition again_read : node := setup TRead 1 [WStr "file_path" [97]; WI32 "use_cache" 0].
Definition again_grade : node := setup TGrade 2 [WF32 "multiply_r" 1073741824].
Definition again_view (o : Z) : node := setup TViewer 3 [WI32 "enable" 1; WI32 "bake_option" o; WI32 "use_cache" 0].
Definition again_calls (o : Z) : list (gcall node spec_float awrite) :=
  [GAdd again_read; GAdd again_grade; GAdd (again_view o); GConnect 1 2 0; GConnect 2 3 0].
Definition again_graph (o : Z) : graph node stream :=
  Graph [again_read; again_grade; again_view o] [1; 2; 3]
    (Stable [true; true; true] [] [Edge 1 2 0; Edge 0 1 0]) stream_new GsDirty ExUninitialized.
Definition again_world : world disk := demo_world dot_disk 4096.
Lemma again_wf o : In o [0; 1; 2; 3] -> wf_graph (node_ops Debug demo) (again_graph o).
Proof.
  intro H. assert (E : played (node_ops Debug demo) insertion_sort 99 stream_new again_world (again_calls o) = Some (again_graph o, again_world))
    by (destruct H as [<-|[<-|[<-|[<-|[]]]]]; vm_compute; reflexivity).
  exact (history_wf_graph (node_ops Debug demo) _ (node_keeps_id Debug demo) _ _ _ _ _ (played_history _ _ _ _ _ _ _ _ E)).
Qed.
Lemma again_asked o : In o [0; 1; 2] -> all_asked (again_graph o) 2.
Proof.
  intros H i n l _ N IO. apply few_inputs in IO.
  destruct i as [|[|[|i]]]; cbn in N; [| | |destruct i; discriminate N]; injection N as <-; cbn in IO; (split; [cbn; lia|]); try (intro T; discriminate T).
  intros _. split; [destruct H as [<-|[<-|[<-|[]]]]; reflexivity|].
  destruct H as [<-|[<-|[<-|[]]]]; [exists BakeNothing|exists BakeColorSpace|exists BakeColorSpaceAndGrade]; (split; [cbn; tauto|vm_compute; auto]).
Qed.
Lemma again_no_folders o : no_folders demo dot_disk frame0 (again_graph o) 2.
Proof.
  intros i n path _ N T _ _. cbn [x_kind demo]. destruct (disk_find path dot_disk); discriminate.
Qed.

(** A viewer that bakes the colours shows the same each time. *)
Example C109_again_example : exists g' g'',
  wf_graph (node_ops Debug demo) (again_graph 2) /\ find_index (again_graph 2) 3 = Some 2%nat /\ all_asked (again_graph 2) 2 /\
  no_folders demo (w_disk again_world) frame0 (again_graph 2) 2 /\
  execute (node_ops Debug demo) insertion_sort 99 (again_graph 2) 3 [frame0] again_world = Some (Ok (g', again_world, ExSuccess)) /\
  execute (node_ops Debug demo) insertion_sort 99 g' 3 [frame0] again_world = Some (Ok (g'', again_world, ExSuccess)) /\
  same_graph (again_graph 2) g' /\ g_output (again_graph 2) <> g_output g' /\ g_output g' = g_output g'' /\
  pb_size (st_block (g_output g')) = BS 1 1 3.
Proof.
  do 2 eexists. split; [apply again_wf; cbn; tauto|]. split; [reflexivity|]. split; [apply again_asked; cbn; tauto|]. split; [apply again_no_folders|].
  split; [vm_compute; reflexivity|]. split; [vm_compute; reflexivity|].
  split; [split; [|split; reflexivity]; repeat apply Forall2_cons; try apply Forall2_nil; split; vm_compute; reflexivity|].
  split; [intro E; apply (f_equal (fun s => pb_size (st_block s))) in E; vm_compute in E; discriminate E|].
  split; vm_compute; reflexivity.
Qed.

(** A viewer that bakes everything shows something else each time: it grades
    once more what it showed before. *)
Theorem C109_refuted : exists (x : externals disk) srt g id start fr w g1 g2 g3,
  sorts srt /\ wf_graph (node_ops Debug x) g /\ find_index g id = Some start /\ no_folders x (w_disk w) fr g start /\
  (forall i n l, nth_error (g_nodes g) i = Some n -> inputs_in_slot_order (g_graph g) i l -> (length l <= uses (nd_type n))%nat) /\
  execute (node_ops Debug x) srt 99 g id [fr] w = Some (Ok (g1, w, ExSuccess)) /\
  execute (node_ops Debug x) srt 99 g1 id [fr] w = Some (Ok (g2, w, ExSuccess)) /\
  execute (node_ops Debug x) srt 99 g2 id [fr] w = Some (Ok (g3, w, ExSuccess)) /\
  pb_data (st_block (g_output g1)) <> pb_data (st_block (g_output g2)) /\
  pb_data (st_block (g_output g2)) <> pb_data (st_block (g_output g3)).
Proof.
  exists demo, insertion_sort, (again_graph 3), 3, 2%nat, frame0, again_world. do 3 eexists.
  split; [exact insertion_sorts|]. split; [apply again_wf; cbn; tauto|]. split; [reflexivity|]. split; [apply again_no_folders|].
  split.
  { intros i n l N IO. apply few_inputs in IO. destruct i as [|[|[|i]]]; cbn in N; [| | |destruct i; discriminate N]; injection N as <-; cbn in IO |- *; lia. }
  split; [vm_compute; reflexivity|]. split; [vm_compute; reflexivity|]. split; [vm_compute; reflexivity|].
  split; intro E; vm_compute in E; discriminate E.
Qed.
Print Assumptions C109_refuted.

(** That viewer meets the conditions of [C109_never_opens]. *)
Example C109_never_opens_example :
  wf_graph (node_ops Debug demo) (again_graph 3) /\ find_index (again_graph 3) 3 = Some 2%nat /\ bakes_everything (again_graph 3) 2 /\
  w_disk again_world <> [] /\
  exists g', execute (node_ops Debug demo) insertion_sort 99 (again_graph 3) 3 [frame0] again_world = Some (Ok (g', again_world, ExSuccess)) /\
    execute (node_ops Debug demo) insertion_sort 99 (again_graph 3) 3 [frame0] (demo_world [] 4096) = Some (Ok (g', demo_world [] 4096, ExSuccess)).
Proof.
  split; [apply again_wf; cbn; tauto|]. split; [reflexivity|]. split.
  { split; [exists (again_view 3); split; [reflexivity|]; split; [reflexivity|]; vm_compute; auto|].
    intros i n _ N T. destruct i as [|[|[|i]]]; cbn in N; [| | |destruct i; discriminate N]; injection N as <-; try discriminate T. discriminate. }
  split; [discriminate|]. eexists. split; vm_compute; reflexivity.
Qed.

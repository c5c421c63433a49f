(** C73: newly added nodes. *)
From Coq Require String.
Import String.StringSyntax.
From Coq Require Import Floats.SpecFloat Lia.
From Verif Require Import Machine CacheModel FloatModel BBoxModel BBoxSpec PixelModel PixelSpec MergeSpec EnumModel AttrModel HashModel HashSpec HashProofs StreamModel
  DeformModel GradeModel BakeModel GraphModel GraphSpec GraphPlay GraphWalk GraphHistory GraphFacts NodeModel AttrSpec AttrProofs DefaultProofs NodeExamples
  PassSpec NewSpec NewProofs PropertiesNode PropertiesSafe PropertiesShow.
Local Open Scope string_scope.

(** A null, resample or viewer node as created, put after a node that runs:
    running it also runs, leaves the world as it was left, and what it shows is
    what its input shows. *)
Theorem C73_passes : forall D p (x : externals D) srt, sorts srt ->
  forall (g : graph node stream) start a id ida t fr w fuel g1 w1,
  wf_graph (node_ops p x) g -> find_index g id = Some start -> find_index g ida = Some a ->
  nth_error (g_nodes g) start = Some (create_node t id) ->
  inputs_in_slot_order (g_graph g) start [a] -> ~ reaches (g_graph g) start a ->
  execute (node_ops p x) srt fuel g ida [fr] w = Some (Ok (g1, w1, ExSuccess)) ->
  t = TNull \/ t = TResample \/ t = TViewer ->
  exists g', execute (node_ops p x) srt (S fuel) g id [fr] w = Some (Ok (g', w1, ExSuccess)) /\ same_view (g_output g') (g_output g1).
Proof. exact @new_passes. Qed.
Print Assumptions C73_passes.

(** A grade as created: everything but the pending colour operations is what its
    input shows, and those give every buffer of whole pixels the same numbers,
    if they were finite and raising to the power one changes nothing. *)
Theorem C73_grade : forall D p (x : externals D) srt, sorts srt ->
  forall (g : graph node stream) start a id ida t fr w fuel g1 w1,
  wf_graph (node_ops p x) g -> find_index g id = Some start -> find_index g ida = Some a ->
  nth_error (g_nodes g) start = Some (create_node t id) ->
  inputs_in_slot_order (g_graph g) start [a] -> ~ reaches (g_graph g) start a ->
  execute (node_ops p x) srt fuel g ida [fr] w = Some (Ok (g1, w1, ExSuccess)) ->
  t = TGrade -> (forall v, good v -> nx_powf (x_numerics x) v f32_one = v) ->
  exists g', execute (node_ops p x) srt (S fuel) g id [fr] w = Some (Ok (g', w1, ExSuccess)) /\
    same_but_colour (g_output g') (g_output g1) /\
    same_colours (nx_powf (x_numerics x)) (st_ops (g_output g1)) (st_ops (g_output g')).
Proof. exact @new_grade_run. Qed.
Print Assumptions C73_grade.

(** A crop as created has an empty window: the picture is wiped. *)
Definition white_black : shared :=
  Shared (PB (BS 2 1 3) (DF32 [f32_one; f32_one; f32_one; f32_zero; f32_zero; f32_zero])) (BBox 0 0 2 1) (BBox 0 0 2 1) spec_new.
Definition all_black : shared :=
  Shared (PB (BS 2 1 3) (DF32 (repeat f32_zero 6))) (BBox 0 0 2 1) (BBox 0 0 2 1) spec_new.
Theorem C73_crop_refuted :
  leaves demo (line [on_a; out_c]) 2 (demo_world [([97], white_black)] 193600) [([99], white_black); ([97], white_black)] /\
  leaves demo (line [on_a; (TCrop, []); out_c]) 3 (demo_world [([97], white_black)] 193600) [([99], all_black); ([97], white_black)] /\
  white_black <> all_black.
Proof.
  split; [apply leaves_ok; vm_compute; reflexivity|]. split; [apply leaves_ok; vm_compute; reflexivity|].
  intros E. apply (f_equal (fun s => pb_data (sh_block s))) in E. vm_compute in E. congruence.
Qed.
Print Assumptions C73_crop_refuted.

(** A crop as created, then a transform as created: writing aborts the process. *)
Theorem C73_crop_then_move_refuted : forall p,
  aborts p demo (line [on_a; (TCrop, []); (TTransform, []); out_c]) 4 (demo_world [([97], white_black)] 193600).
Proof. intros []; apply abortsb_ok; vm_compute; reflexivity. Qed.
Print Assumptions C73_crop_then_move_refuted.

(** A file, a new grade, a new viewer. *)
Definition new_calls : list (gcall node spec_float awrite) :=
  [GAdd safe_read; GAdd (create_node TGrade 2); GAdd (create_node TViewer 3); GConnect 1 2 0; GConnect 2 3 0].
Definition new_graph : graph node stream :=
  Graph [safe_read; create_node TGrade 2; create_node TViewer 3] [1; 2; 3]
    (Stable [true; true; true] [] [Edge 1 2 0; Edge 0 1 0]) stream_new GsDirty ExUninitialized.
Lemma new_wf : wf_graph (node_ops Debug demo) new_graph.
Proof.
  assert (E : played (node_ops Debug demo) insertion_sort 99 stream_new (demo_world safe_disk 193600) new_calls
    = Some (new_graph, demo_world safe_disk 193600)) by (vm_compute; reflexivity).
  exact (history_wf_graph (node_ops Debug demo) _ (node_keeps_id Debug demo) _ _ _ _ _ (played_history _ _ _ _ _ _ _ _ E)).
Qed.
Lemma new_single m n : In (m, n) [(0, 1); (1, 2)]%nat -> inputs_in_slot_order (g_graph new_graph) n [m].
Proof.
  intros H. split; [repeat constructor; intros []|]. split.
  - intros k. split.
    + intros [<-|[]]. destruct H as [[= <- <-]|[[= <- <-]|[]]]; (split; [exists 0; cbn; auto|lia]).
    + intros ((s & F) & _). unfold feeds in F. cbn in F. left.
      destruct H as [[= <- <-]|[[= <- <-]|[]]]; intuition congruence.
  - intros l1 a l2 b l3 E. exfalso. destruct l1 as [|? [|? ?]]; cbn in E; try discriminate E. injection E as <- E. destruct l2; discriminate E.
Qed.
Lemma new_acyclic m n : reaches (g_graph new_graph) m n -> (m <= n)%nat.
Proof.
  intros (k & U). induction U as [|k i j U IH (s & L)]; [lia|]. unfold feeds in L. cbn in L.
  destruct L as [[= <- <- _]|[[= <- <- _]|[]]]; lia.
Qed.
Example C73_example :
  wf_graph (node_ops Debug demo) new_graph /\ sorts insertion_sort /\
  find_index new_graph 1 = Some 0%nat /\ find_index new_graph 2 = Some 1%nat /\ find_index new_graph 3 = Some 2%nat /\
  nth_error (g_nodes new_graph) 1 = Some (create_node TGrade 2) /\ nth_error (g_nodes new_graph) 2 = Some (create_node TViewer 3) /\
  inputs_in_slot_order (g_graph new_graph) 1 [0%nat] /\ inputs_in_slot_order (g_graph new_graph) 2 [1%nat] /\
  ~ reaches (g_graph new_graph) 1 0 /\ ~ reaches (g_graph new_graph) 2 1 /\
  (forall v, good v -> nx_powf (x_numerics demo) v f32_one = v) /\
  (exists g1 w1, execute (node_ops Debug demo) insertion_sort 99 new_graph 1 [frame0] (demo_world safe_disk 193600) = Some (Ok (g1, w1, ExSuccess))) /\
  (exists g2 w2, execute (node_ops Debug demo) insertion_sort 99 new_graph 2 [frame0] (demo_world safe_disk 193600) = Some (Ok (g2, w2, ExSuccess)) /\
     length (st_ops (g_output g2)) = 1%nat).
Proof.
  split; [exact new_wf|]. split; [exact insertion_sorts|]. do 3 (split; [reflexivity|]). do 2 (split; [reflexivity|]).
  split; [apply new_single; cbn; auto|]. split; [apply new_single; cbn; auto|].
  split; [intros R; apply new_acyclic in R; lia|]. split; [intros R; apply new_acyclic in R; lia|].
  split; [reflexivity|]. split; [eexists _, _; vm_compute; reflexivity|]. eexists _, _. split; [vm_compute; reflexivity|]. vm_compute. reflexivity.
Qed.

(** What a new node's attributes are: everything is zero or empty except what
    [presets] lists. *)
Theorem C73_presets : forall t id k name, get_value k name (create_node t id) = preset t k name.
Proof. exact new_node. Qed.
Print Assumptions C73_presets.
Example C73_presets_case : preset TMerge KF32 "mix" = VF one_bits /\ preset TCrop KI32 "window_max_x" = VI 0 /\ preset TMerge KI32 "mix" = VI 0.
Proof. repeat split; reflexivity. Qed.

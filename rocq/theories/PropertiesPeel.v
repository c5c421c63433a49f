(** C68, C69: executing a node after its input; nodes that are switched off. *)
From Coq Require String.
Import String.StringSyntax.
From Coq Require Import Floats.SpecFloat.
From Verif Require Import Machine CacheModel FloatModel BBoxModel PixelModel PixelSpec EnumModel AttrModel
  HashModel HashSpec HashProofs StreamModel DeformModel BakeModel GraphModel GraphSpec GraphPlay GraphWalk GraphHistory GraphFacts AttrProofs NodeModel NodeExamples
  PeelSpec PeelProofs PassSpec PassProofs PropertiesNode PropertiesSafe PropertiesShow.
Local Open Scope string_scope.

(** Executing a node with a single input is executing the input and then
    computing the node on the result: same outcome, output, nodes, files, cache. *)
Theorem C68_one_more : forall D p (x : externals D) srt, sorts srt ->
  forall (g : graph node stream) start a id ida n, wf_graph (node_ops p x) g ->
  find_index g id = Some start -> find_index g ida = Some a -> nth_error (g_nodes g) start = Some n ->
  inputs_in_slot_order (g_graph g) start [a] -> ~ reaches (g_graph g) start a -> asks_all n ->
  forall fr w fuel,
  execute (node_ops p x) srt (S fuel) g id [fr] w =
  then_node (node_ops p x) start n fr (g_state g) (execute (node_ops p x) srt fuel g ida [fr] w).
Proof. intros D p x srt HS g start a id ida n WF FI FA NN IN NC A fr w fuel. exact (run_peel p x srt HS g start a id ida n WF FI FA NN IN NC fr w fuel A). Qed.
Print Assumptions C68_one_more.

(** A node that passes its input on shows what executing the input shows, and
    touches neither files nor cache. *)
Theorem C69_passes : forall D p (x : externals D) srt, sorts srt ->
  forall (g : graph node stream) start a id ida n, wf_graph (node_ops p x) g ->
  find_index g id = Some start -> find_index g ida = Some a -> nth_error (g_nodes g) start = Some n ->
  inputs_in_slot_order (g_graph g) start [a] -> ~ reaches (g_graph g) start a -> wf_block (nd_attrs n) -> passes n ->
  forall fr w fuel g1 w1,
  execute (node_ops p x) srt fuel g ida [fr] w = Some (Ok (g1, w1, ExSuccess)) ->
  exists g', execute (node_ops p x) srt (S fuel) g id [fr] w = Some (Ok (g', w1, ExSuccess)) /\
    same_view (g_output g') (g_output g1).
Proof. intros D p x srt HS g start a id ida n WF FI FA NN IN NC W P fr w fuel g1 w1. exact (run_passes p x srt HS g start a id ida n WF FI FA NN IN NC fr w fuel g1 w1 W P). Qed.
Print Assumptions C69_passes.

(** A writer that does write also hands on its input as it is. *)
Theorem C69_writer : forall D p (x : externals D) srt, sorts srt ->
  forall (g : graph node stream) start a id ida n, wf_graph (node_ops p x) g ->
  find_index g id = Some start -> find_index g ida = Some a -> nth_error (g_nodes g) start = Some n ->
  inputs_in_slot_order (g_graph g) start [a] -> ~ reaches (g_graph g) start a ->
  nd_type n = TWrite -> node_get_i32 n "enable" <> 0 ->
  forall fr w fuel g1 w1 g' w' st,
  execute (node_ops p x) srt fuel g ida [fr] w = Some (Ok (g1, w1, ExSuccess)) ->
  execute (node_ops p x) srt (S fuel) g id [fr] w = Some (Ok (g', w', st)) ->
  st = ExSuccess /\ g_output g' = g_output g1 /\ w_cache w' = w_cache w1.
Proof. intros D p x srt HS g start a id ida n WF FI FA NN IN NC T E fr w fuel g1 w1 g' w' st. exact (run_writer p x srt HS g start a id ida n WF FI FA NN IN NC fr w fuel g1 w1 g' w' st T E). Qed.
Print Assumptions C69_writer.

(** The picture a session shows that executes one node at the end. *)
Definition shows (calls : list (gcall node spec_float awrite)) (id : Z) (w : world disk) (b : pixelblock) : Prop :=
  exists g c g' w', history (node_ops Debug demo) insertion_sort stream_new w calls g c /\
    execute (node_ops Debug demo) insertion_sort 99 g id [frame0] c = Some (Ok (g', w', ExSuccess)) /\ st_block (g_output g') = b.
Definition shown_by calls id w : option pixelblock :=
  match played (node_ops Debug demo) insertion_sort 99 stream_new w calls with
  | Some (g, c) => match execute (node_ops Debug demo) insertion_sort 99 g id [frame0] c with
                   | Some (Ok (g', _, ExSuccess)) => Some (st_block (g_output g')) | _ => None end
  | None => None
  end.
Lemma shows_ok calls id w b : shown_by calls id w = Some b -> shows calls id w b.
Proof.
  unfold shown_by, shows. destruct (played _ _ _ _ _ _) as [[g c]|] eqn:E; [|discriminate]. intro H.
  exists g, c. destruct (execute _ _ _ _ _ _ _) as [[[[g' w'] []]|]|] eqn:X; try discriminate H. exists g', w'.
  split; [exact (played_history _ _ _ _ _ _ _ _ E)|]. split; [reflexivity|congruence].
Qed.

(** Switched-off merges and writers show colour bars instead. *)
Theorem C69_merge_write_refuted :
  let w := demo_world dot_disk 193600 in
  shows (line [on_a]) 1 w (sh_block dot_image) /\
  shows (line [on_a; (TMerge, [WI32 "enable" 0])]) 2 w (st_block stream_new) /\
  shows (line [on_a; (TWrite, [WI32 "enable" 0; WStr "file_path" [99]])]) 2 w (st_block stream_new) /\
  sh_block dot_image <> st_block stream_new.
Proof.
  split; [apply shows_ok; vm_compute; reflexivity|]. split; [apply shows_ok; vm_compute; reflexivity|].
  split; [apply shows_ok; vm_compute; reflexivity|]. vm_compute. discriminate.
Qed.
Print Assumptions C69_merge_write_refuted.

(** Merging, by addition, what node [mid] makes of file b with file a. *)
Definition sum_of (mid : node_type * list awrite) : list (gcall node spec_float awrite) :=
  [GAdd (setup TRead 1 [WStr "file_path" [97]]); GAdd (setup TRead 2 [WStr "file_path" [98]]);
   GAdd (setup (fst mid) 3 (snd mid)); GAdd (setup TMerge 4 [WI32 "mode" 0]);
   GConnect 2 3 0; GConnect 3 4 0; GConnect 1 4 1].
Definition two_files : disk := [([97], level f32_one); ([98], level f32_zero)].

(** Elsewhere in a graph, a viewer that is off shows whatever was computed last:
    the sum of files a and b becomes twice file a. *)
Theorem C69_viewer_refuted :
  let w := demo_world two_files 193600 in
  shows (sum_of (TNull, [])) 4 w (sh_block (level f32_one)) /\
  shows (sum_of (TViewer, [WI32 "enable" 0])) 4 w (sh_block (level (f32_of_bits 1073741824))) /\
  f32_of_bits 1073741824 = f32_add f32_one f32_one /\ f32_of_bits 1073741824 <> f32_one.
Proof.
  split; [apply shows_ok; vm_compute; reflexivity|]. split; [apply shows_ok; vm_compute; reflexivity|].
  split; [vm_compute; reflexivity|]. vm_compute. discriminate.
Qed.
Print Assumptions C69_viewer_refuted.

(** A viewer that bakes is not of this kind: it does not ask its input for
    pixels, so that a reader makes none and the picture is the one before. *)
Theorem C68_baking_viewer_refuted :
  exists calls g c id start n b1 b2,
    history (node_ops Debug demo) insertion_sort stream_new (demo_world dot_disk 193600) calls g c /\
    find_index g id = Some start /\ nth_error (g_nodes g) start = Some n /\
    nd_type n = TViewer /\ node_get_i32 n "enable" = 1 /\ node_get_i32 n "bake_option" = 3 /\
    option_map (fun r => match r with Ok (g', _, _) => Some (st_block (g_output g')) | Panic => None end)
      (execute (node_ops Debug demo) insertion_sort 99 g id [frame0] c) = Some (Some b1) /\
    option_map (fun r => match r with Ok (g', _, _) => Some (st_block (g_output g')) | Panic => None end)
      (then_node (node_ops Debug demo) start n frame0 (g_state g)
         (execute (node_ops Debug demo) insertion_sort 98 g 1 [frame0] c)) = Some (Some b2) /\
    b1 <> b2.
Proof.
  exists (line [on_a; (TViewer, [WI32 "bake_option" 3; WI32 "use_cache" 0])]). eexists _, _, 2, 1%nat, _, _, _.
  split; [apply (played_history _ _ 99); vm_compute; reflexivity|].
  split; [vm_compute; reflexivity|]. split; [vm_compute; reflexivity|]. do 3 (split; [vm_compute; reflexivity|]).
  split; [vm_compute; reflexivity|]. split; [vm_compute; reflexivity|]. vm_compute. discriminate.
Qed.
Print Assumptions C68_baking_viewer_refuted.

(* ------------------------------ examples ------------------------------ *)

(** Two files merged, then a crop that is off, then a writer. *)
Definition peel_calls : list (gcall node spec_float awrite) :=
  [GAdd safe_read; GAdd (setup TRead 2 [WStr "file_path" [98]]); GAdd show_merge;
   GAdd (setup TCrop 4 [WI32 "enable" 0]); GAdd (setup TWrite 5 [WStr "file_path" [99]; WI32 "execute" 1]);
   GConnect 1 3 0; GConnect 2 3 1; GConnect 3 4 0; GConnect 4 5 0].
Definition peel_graph : graph node stream :=
  Graph [safe_read; setup TRead 2 [WStr "file_path" [98]]; show_merge; setup TCrop 4 [WI32 "enable" 0];
         setup TWrite 5 [WStr "file_path" [99]; WI32 "execute" 1]] [1; 2; 3; 4; 5]
    (Stable [true; true; true; true; true] [] [Edge 3 4 0; Edge 2 3 0; Edge 1 2 1; Edge 0 2 0]) stream_new GsDirty ExUninitialized.
Lemma peel_wf : wf_graph (node_ops Debug demo) peel_graph.
Proof.
  assert (E : played (node_ops Debug demo) insertion_sort 99 stream_new (demo_world safe_disk 193600) peel_calls
    = Some (peel_graph, demo_world safe_disk 193600)) by (vm_compute; reflexivity).
  exact (history_wf_graph (node_ops Debug demo) _ (node_keeps_id Debug demo) _ _ _ _ _ (played_history _ _ _ _ _ _ _ _ E)).
Qed.
Lemma peel_single m n : In (m, n) [(2, 3); (3, 4)]%nat -> inputs_in_slot_order (g_graph peel_graph) n [m].
Proof.
  intros H. split; [repeat constructor; intros []|]. split.
  - intros k. split.
    + intros [<-|[]]. destruct H as [[= <- <-]|[[= <- <-]|[]]]; (split; [exists 0; cbn; auto|lia]).
    + intros ((s & F) & _). unfold feeds in F. cbn in F. left.
      destruct H as [[= <- <-]|[[= <- <-]|[]]]; intuition congruence.
  - intros l1 a l2 b l3 E. exfalso. destruct l1 as [|? [|? ?]]; cbn in E; try discriminate E. injection E as <- E. destruct l2; discriminate E.
Qed.
Lemma peel_acyclic m n : reaches (g_graph peel_graph) m n -> (m <= n)%nat.
Proof.
  intros (k & U). induction U as [|k i j U IH (s & L)]; [lia|]. unfold feeds in L. cbn in L.
  destruct L as [[= <- <- _]|[[= <- <- _]|[[= <- <- _]|[[= <- <- _]|[]]]]]; lia.
Qed.

(** The conditions of C68 and C69_passes hold of node 4 and its input 3, those
    of C68 and C69_writer of node 5 and its input 4. *)
Example C68_example :
  wf_graph (node_ops Debug demo) peel_graph /\ sorts insertion_sort /\
  find_index peel_graph 3 = Some 2%nat /\ find_index peel_graph 4 = Some 3%nat /\ find_index peel_graph 5 = Some 4%nat /\
  inputs_in_slot_order (g_graph peel_graph) 3 [2%nat] /\ inputs_in_slot_order (g_graph peel_graph) 4 [3%nat] /\
  ~ reaches (g_graph peel_graph) 3 2 /\ ~ reaches (g_graph peel_graph) 4 3 /\
  asks_all (setup TCrop 4 [WI32 "enable" 0]) /\ passes (setup TCrop 4 [WI32 "enable" 0]) /\
  wf_block (nd_attrs (setup TCrop 4 [WI32 "enable" 0])) /\
  asks_all (setup TWrite 5 [WStr "file_path" [99]; WI32 "execute" 1]) /\
  node_get_i32 (setup TWrite 5 [WStr "file_path" [99]; WI32 "execute" 1]) "enable" <> 0 /\
  (exists g1 w1 g2 w2 g3 w3,
    execute (node_ops Debug demo) insertion_sort 98 peel_graph 3 [frame0] (demo_world safe_disk 193600) = Some (Ok (g1, w1, ExSuccess)) /\
    execute (node_ops Debug demo) insertion_sort 99 peel_graph 4 [frame0] (demo_world safe_disk 193600) = Some (Ok (g2, w2, ExSuccess)) /\
    execute (node_ops Debug demo) insertion_sort 100 peel_graph 5 [frame0] (demo_world safe_disk 193600) = Some (Ok (g3, w3, ExSuccess)) /\
    length (w_disk w3) = S (length (w_disk w2))).
Proof.
  split; [exact peel_wf|]. split; [exact insertion_sorts|]. do 3 (split; [vm_compute; reflexivity|]).
  split; [apply peel_single; now left|]. split; [apply peel_single; right; now left|].
  split; [intros R; apply peel_acyclic in R; lia|]. split; [intros R; apply peel_acyclic in R; lia|].
  split; [left; vm_compute; discriminate|]. split; [right; left; split; [cbn; auto|vm_compute; discriminate]|].
  split; [apply setup_wf; [apply default_wf|intros w [<-|[]]; cbn; lia]|].
  split; [left; vm_compute; discriminate|]. split; [vm_compute; discriminate|].
  do 6 eexists. split; [vm_compute; reflexivity|]. split; [vm_compute; reflexivity|]. split; [vm_compute; reflexivity|]. vm_compute; reflexivity.
Qed.

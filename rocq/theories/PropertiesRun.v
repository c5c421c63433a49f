(** C58 to C61: frame ranges, chains of adding nodes, what is written, and node
    statuses. *)
From Coq Require String.
Import String.StringSyntax.
From Coq Require Import Floats.SpecFloat.
From Verif Require Import Machine CacheModel FloatModel BBoxModel PixelModel EnumModel AttrModel AttrSpec HashModel
  StreamModel DeformModel BakeModel GraphModel GraphSpec GraphWalk NodeModel NodeExamples NodeSpec RunSpec RunProofs
  ChainSpec ChainProofs RenderProofs PropertiesNode.
Local Open Scope string_scope.

(* ------------------------------ C58 ------------------------------ *)

(** Executing frames [fs1] and then [fs2] is executing [fs1 ++ fs2]: the same
    nodes, output, cache, files and result.  (Should [fs2] fail, only the flag
    "clean" that the first call left differs.) *)
Theorem C58_frames_in_two_calls : forall N St Ca F W (ops : nodeops N St Ca F W) srt fuel (g : graph N St) id fs1 fs2 c g1 c1,
  execute ops srt fuel g id fs1 c = Some (Ok (g1, c1, ExSuccess)) ->
  execute ops srt fuel g1 id fs2 c1 =
  match execute ops srt fuel g id (fs1 ++ fs2) c with
  | Some (Ok (g', c', st)) => Some (Ok (with_state g' GsClean, c', st))
  | r => r
  end.
Proof. intros N St Ca F W ops srt. exact (execute_split ops srt). Qed.
Print Assumptions C58_frames_in_two_calls.

(** When the whole range succeeds the two are equal. *)
Theorem C58_success : forall N St Ca F W (ops : nodeops N St Ca F W) srt fuel (g : graph N St) id fs1 fs2 c g' c',
  execute ops srt fuel g id (fs1 ++ fs2) c = Some (Ok (g', c', ExSuccess)) <->
  exists g1 c1, execute ops srt fuel g id fs1 c = Some (Ok (g1, c1, ExSuccess)) /\
                execute ops srt fuel g1 id fs2 c1 = Some (Ok (g', c', ExSuccess)).
Proof. intros N St Ca F W ops srt. exact (execute_split_success ops srt). Qed.
Print Assumptions C58_success.

(** A failing frame ends the range: what comes after it is not computed. *)
Theorem C58_failure_stops : forall N St Ca F W (ops : nodeops N St Ca F W) srt fuel (g : graph N St) id fs1 fs2 c g1 c1,
  execute ops srt fuel g id fs1 c = Some (Ok (g1, c1, ExError)) ->
  execute ops srt fuel g id (fs1 ++ fs2) c = Some (Ok (g1, c1, ExError)).
Proof. intros N St Ca F W ops srt. exact (execute_failure_stops ops srt). Qed.
Print Assumptions C58_failure_stops.

(* ------------------------------ the example graph ------------------------------ *)

(** read -> grade -> transform -> write, made for two frames. *)
Definition frame1 : spec_float := S754_finite false 4503599627370496 (-52).
Definition ex_read : node := setup TRead 1 [WStr "file_path" [97]; WI32 "use_cache" 0].
Definition ex_grade : node := setup TGrade 2 [WF32 "multiply_r" 1073741824].
Definition ex_move : node := setup TTransform 3 [].
(** out.#.exr *)
Definition ex_write : node :=
  setup TWrite 4 [WStr "file_path" [111; 46; 35; 46; 101; 120; 114]; WI32 "execute" 1; WI32 "enable" 1].
Definition ex_graph : graph node stream :=
  Graph [ex_read; ex_grade; ex_move; ex_write] [1; 2; 3; 4]
    (Stable [true; true; true; true] [] [Edge 0 1 0; Edge 1 2 0; Edge 2 3 0]) stream_new GsDirty ExUninitialized.
Definition ex_run (id : Z) (frs : list spec_float) :=
  execute (node_ops Debug demo) insertion_sort 99 ex_graph id frs (demo_world dot_disk 4096).

Lemma ex_wf : wf_graph (node_ops Debug demo) ex_graph.
Proof.
  constructor; [|reflexivity|reflexivity]. constructor.
  - intros i. cbn. split; [intros []|]. intros (L & V). do 4 (destruct i as [|i]; [discriminate V|]). lia.
  - intros e [<-|[<-|[<-|[]]]]; auto.
  - cbn. repeat constructor; cbn; intuition discriminate.
Qed.
Lemma ex_edges : forall m n, link (g_graph ex_graph) m n <-> (n = S m /\ (n <= 3)%nat).
Proof.
  intros m n. unfold link, feeds. cbn [g_graph ex_graph sg_edges]. split.
  - intros (s & [E|[E|[E|[]]]]); injection E as <- <- _; lia.
  - intros (-> & L). exists 0. destruct m as [|[|[|m]]]; cbn; [tauto|tauto|tauto|lia].
Qed.
Lemma ex_only : forall a, (a <= 2)%nat -> only_input (g_graph ex_graph) a (S a).
Proof. intros a H. split; [lia|]. intros m. rewrite ex_edges. lia. Qed.
Lemma ex_leads : leads (g_graph ex_graph) 0 [1; 2]%nat 2.
Proof.
  apply (leads_snoc _ _ [1%nat] 1 2); [|apply ex_only; lia]. apply (leads_snoc _ _ [] 0 1); [constructor|apply ex_only; lia].
Qed.
Lemma ex_source : forall m, ~ link (g_graph ex_graph) m 0.
Proof. intros m. rewrite ex_edges. lia. Qed.
Lemma ex_adding : forall i n, In i [1; 2]%nat -> nth_error (g_nodes ex_graph) i = Some n -> adding (nd_type n).
Proof.
  intros i n [<-|[<-|[]]] H; injection H as <-; [right; left|right; right; left]; reflexivity.
Qed.

Example C58_example :
  match ex_run 3 [frame0], ex_run 3 [frame0; frame1] with
  | Some (Ok (g1, w1, ExSuccess)), Some (Ok (_, _, ExSuccess)) => True
  | _, _ => False
  end.
Proof. vm_compute. exact I. Qed.

(* ------------------------------ C59 ------------------------------ *)

(** Along a chain of Null, Grade, Transform and Lens nodes, in which each node
    has the one before as its only input, the picture, its windows and its
    specification stay what the first node made; the enabled nodes' operations
    are appended in order, with the settings shown by the nodes' attributes. *)
Theorem C59_chain : forall (D : Type) p (x : externals D) srt, sorts srt ->
  forall fuel (g : graph node stream) id start src l frames fr w g' w',
  wf_graph (node_ops p x) g -> find_index g id = Some start -> leads (g_graph g) src l start ->
  (forall i n, In i l -> nth_error (g_nodes g) i = Some n -> adding (nd_type n)) ->
  execute (node_ops p x) srt fuel g id (frames ++ [fr]) w = Some (Ok (g', w', ExSuccess)) ->
  exists inputs s ops defs m w0 w1,
    (forall n, inputs_in_slot_order (g_graph g) n (inputs n)) /\
    made (node_ops p x) node_key (fun _ => True) (fun _ => True) (g_nodes g) inputs fr start src m s w0 w1 /\
    collects (g_nodes g) l ops defs /\ same_picture (g_output g') s /\
    st_ops (g_output g') = (st_ops s ++ ops)%list /\ st_deformers (g_output g') = (st_deformers s ++ defs)%list.
Proof. intros D. exact chain_run. Qed.
Print Assumptions C59_chain.

(** From a read node without image cache: the picture is the file's, and no file
    changes. *)
Theorem C59_from_file : forall (D : Type) p (x : externals D) srt, sorts srt ->
  forall fuel (g : graph node stream) id start src l nr frames fr w g' w',
  wf_graph (node_ops p x) g -> find_index g id = Some start ->
  leads (g_graph g) src l start -> (forall m, ~ link (g_graph g) m src) ->
  nth_error (g_nodes g) src = Some nr -> nd_type nr = TRead ->
  node_get_i32 nr "enable" <> 0 -> node_get_i32 nr "use_cache" = 0 ->
  (forall i n, In i l -> nth_error (g_nodes g) i = Some n -> adding (nd_type n)) ->
  execute (node_ops p x) srt fuel g id (frames ++ [fr]) w = Some (Ok (g', w', ExSuccess)) ->
  processed x (g_nodes g) nr l (w_disk w) fr (g_output g') /\ w_disk w' = w_disk w.
Proof. intros. eapply chain_source; eauto. Qed.
Print Assumptions C59_from_file.

Example C59_example :
  wf_graph (node_ops Debug demo) ex_graph /\ find_index ex_graph 3 = Some 2%nat /\
  leads (g_graph ex_graph) 0 [1; 2]%nat 2 /\ (forall m, ~ link (g_graph ex_graph) m 0) /\
  (forall i n, In i [1; 2]%nat -> nth_error (g_nodes ex_graph) i = Some n -> adding (nd_type n)) /\
  node_get_i32 ex_read "enable" <> 0 /\ node_get_i32 ex_read "use_cache" = 0 /\
  match ex_run 3 [frame0] with
  | Some (Ok (g', _, ExSuccess)) =>
      st_block (g_output g') = sh_block dot_image /\ length (st_ops (g_output g')) = 1%nat /\
      length (st_deformers (g_output g')) = 1%nat
  | _ => False
  end.
Proof.
  split; [exact ex_wf|]. split; [reflexivity|]. split; [exact ex_leads|]. split; [exact ex_source|].
  split; [exact ex_adding|]. split; [discriminate|]. split; [reflexivity|]. vm_compute. auto.
Qed.

(* ------------------------------ C60 ------------------------------ *)

(** One frame: an enabled write node that is not fed by other write nodes writes
    exactly one file: the picture of its first input with everything applied, at
    the path, in the colour space, numeric type and crop its attributes say; its
    output is its input. *)
Theorem C60_one_frame : forall (D : Type) p (x : externals D) srt, sorts srt ->
  forall fuel (g : graph node stream) id start nw fr w g' w',
  wf_graph (node_ops p x) g -> find_index g id = Some start ->
  nth_error (g_nodes g) start = Some nw -> nd_type nw = TWrite ->
  node_get_i32 nw "enable" <> 0 -> node_get_i32 nw "execute" <> 0 ->
  (exists m, link (g_graph g) m start /\ m <> start) ->
  (forall i n, reaches (g_graph g) i start -> i <> start -> nth_error (g_nodes g) i = Some n -> nd_type n <> TWrite) ->
  execute (node_ops p x) srt fuel g id [fr] w = Some (Ok (g', w', ExSuccess)) ->
  exists inputs a rest s m w0 w1 path img co,
    (forall n, inputs_in_slot_order (g_graph g) n (inputs n)) /\ inputs start = a :: rest /\
    made (node_ops p x) node_key (fun c => w_disk c = w_disk w) (fun _ => True) (g_nodes g) inputs fr start a m s w0 w1 /\
    g_output g' = s /\ written p x nw fr s path img co /\ w_disk w' = fst (x_write x (w_disk w) path img co).
Proof. intros D. exact write_frame. Qed.
Print Assumptions C60_one_frame.

(** Any range of frames, for a chain read -> (Null | Grade | Transform | Lens)*
    -> write: the files are the source's frames with the chain's operations
    applied, one after the other. *)
Theorem C60_range : forall (D : Type) p (x : externals D) srt, sorts srt ->
  forall fuel id start src l a nr nw frames (g : graph node stream) w g' w',
  wf_graph (node_ops p x) g -> find_index g id = Some start ->
  leads (g_graph g) src l a -> only_input (g_graph g) a start -> (forall m, ~ link (g_graph g) m src) ->
  nth_error (g_nodes g) src = Some nr -> nd_type nr = TRead ->
  node_get_i32 nr "enable" <> 0 -> node_get_i32 nr "use_cache" = 0 ->
  (forall i n, In i l -> nth_error (g_nodes g) i = Some n -> adding (nd_type n)) ->
  nth_error (g_nodes g) start = Some nw -> nd_type nw = TWrite ->
  node_get_i32 nw "enable" <> 0 -> node_get_i32 nw "execute" <> 0 ->
  execute (node_ops p x) srt fuel g id frames w = Some (Ok (g', w', ExSuccess)) ->
  rendered p x nw (processed x (g_nodes g) nr l) frames (w_disk w) (w_disk w').
Proof. intros. eapply render_run; eauto. Qed.
Print Assumptions C60_range.

(** The example graph meets the hypotheses; two frames give two files, with
    the red channel doubled. *)
Example C60_example :
  only_input (g_graph ex_graph) 2 3 /\ nth_error (g_nodes ex_graph) 3 = Some ex_write /\ nd_type ex_write = TWrite /\
  node_get_i32 ex_write "enable" <> 0 /\ node_get_i32 ex_write "execute" <> 0 /\
  match ex_run 4 [frame0; frame1] with
  | Some (Ok (_, w', ExSuccess)) =>
      map fst (w_disk w') = [[111; 46; 49; 46; 101; 120; 114]; [111; 46; 48; 46; 101; 120; 114]; [97]] /\
      map (fun f => pb_data (sh_block (snd f))) (firstn 1 (w_disk w')) = [DF32 [f32_of_bits 1073741824; f32_zero; f32_one]]
  | _ => False
  end.
Proof.
  split; [apply ex_only; lia|]. split; [reflexivity|]. split; [reflexivity|]. split; [discriminate|]. split; [discriminate|].
  vm_compute. auto.
Qed.

(** "The file is tagged with its pixels' colour space and keeps the picture's
    pixel aspect" is false: the written specification is always the default. *)
Definition C60_metadata_statement : Prop :=
  forall (D : Type) p (x : externals D) n fr s path img co, written p x n fr s path img co ->
  file_color_space path (sp_color_space (sh_spec img)) /\ sp_pixel_aspect (sh_spec img) = sp_pixel_aspect (st_spec s).
Definition ex_png : node :=
  setup TWrite 4 [WStr "file_path" [111; 46; 112; 110; 103]; WI32 "execute" 1; WI32 "enable" 1].
Definition wide : shared :=
  Shared (sh_block dot_image) (sh_display dot_image) (sh_data dot_image) (Spec linear_name f1 1073741824 0 false 0).
Theorem C60_metadata_refuted :
  exists nw g' w' path img d0,
    execute (node_ops Debug demo) insertion_sort 9
      (NodePair.pair_graph (node_ops Debug demo) ex_read nw 0 stream_new GsDirty ExUninitialized) 4 [frame0] (demo_world d0 4096)
      = Some (Ok (g', w', ExSuccess)) /\
    hd_error (w_disk w') = Some (path, img) /\ has_extension path ext_png /\
    ~ file_color_space path (sp_color_space (sh_spec img)) /\
    sp_pixel_aspect (sh_spec img) <> sp_pixel_aspect (st_spec (g_output g')).
Proof.
  exists ex_png. do 4 eexists. exists [([97], wide)]. split; [vm_compute; reflexivity|].
  split; [reflexivity|]. split; [now exists [111]|]. split; [|discriminate].
  intros [(_ & E)|(N & _)]; [discriminate|]. apply (N ext_png); [cbn; tauto|now exists [111]].
Qed.
Print Assumptions C60_metadata_refuted.

(* ------------------------------ C61 ------------------------------ *)

(** After an execution of at least one frame: it succeeded exactly when every
    node the output depends on reports "valid" or "warning". *)
Theorem C61_statuses : forall (D : Type) p (x : externals D) srt, sorts srt ->
  forall fuel (g : graph node stream) id start frames w g' w' st,
  wf_graph (node_ops p x) g -> find_index g id = Some start -> frames <> [] ->
  execute (node_ops p x) srt fuel g id frames w = Some (Ok (g', w', st)) ->
  (st = ExSuccess <-> forall i n, reaches (g_graph g) i start -> nth_error (g_nodes g') i = Some n ->
                        nd_status n = 1 \/ nd_status n = 2).
Proof. intros D. exact statuses. Qed.
Print Assumptions C61_statuses.

(** A failing resampler: the execution fails and its node says "error". *)
Definition ex_resample : node := setup TResample 2 [WI32 "factor" 2; WI32 "enable" 1].
Example C61_example :
  match execute (node_ops Release failing_resample) insertion_sort 9
          (NodePair.pair_graph (node_ops Release failing_resample) ex_read ex_resample 0 stream_new GsDirty ExUninitialized)
          2 [frame0] (demo_world dot_disk 4096) with
  | Some (Ok (g', _, ExError)) => map nd_status (g_nodes g') = [1; 0]
  | _ => False
  end.
Proof. vm_compute. reflexivity. Qed.

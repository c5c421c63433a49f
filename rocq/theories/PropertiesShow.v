(** C66, C67: what merge and crop nodes show. *)
From Coq Require String.
Import String.StringSyntax.
From Coq Require Import Floats.SpecFloat.
From Verif Require Import Machine CacheModel FloatModel BBoxModel BBoxSpec PixelModel PixelSpec MergeModel MergeSpec EnumModel AttrModel
  HashModel HashSpec HashProofs StreamModel DeformModel BakeModel GraphModel GraphSpec GraphPlay GraphWalk GraphHistory GraphFacts AttrProofs NodeModel NodeExamples
  ChainSpec RunSpec SafeSpec SafeProofs ShowSpec ShowProofs PropertiesNode PropertiesSafe.
Local Open Scope string_scope.

(** An enabled merge shows its first input, flattened, put on its second input,
    flattened, in the selected mode and mix; nothing is pending on the result
    and it is tagged linear. With a single input the second is the picture of
    an empty stream, the four by four colour bars. *)
Theorem C66_merge : forall D p (x : externals D) B ok_disk, roomy B -> sane x B ok_disk -> forall srt, sorts srt ->
  forall fuel (g : graph node stream) id start n frames fr w g' w' m,
  wf_graph (node_ops p x) g -> careful_graph p B g -> fine_stream B (g_output g) -> fine_world p B ok_disk w ->
  find_index g id = Some start -> nth_error (g_nodes g) start = Some n -> nd_type n = TMerge ->
  node_get_i32 n "enable" = 1 -> node_get_i32 n "use_cache" = 0 -> selects (node_get_i32 n "mode") m ->
  (exists k, link (g_graph g) k start /\ k <> start) ->
  execute (node_ops p x) srt fuel g id (frames ++ [fr])%list w = Some (Ok (g', w', ExSuccess)) ->
  exists inputs a rest ma sa wa wa' sb A C,
    (forall i, inputs_in_slot_order (g_graph g) i (inputs i)) /\ inputs start = a :: rest /\
    made (node_ops p x) node_key (fine_world p B ok_disk) (fine_stream B) (g_nodes g) inputs fr start a ma sa wa wa' /\
    match rest with
    | [] => sb = stream_new
    | b :: _ => exists mb wb wb',
        made (node_ops p x) node_key (fine_world p B ok_disk) (fine_stream B) (g_nodes g) inputs fr start b mb sb wb wb'
    end /\
    flattened p x sa A /\ flattened p x sb C /\ nothing_pending (g_output g') /\
    merged m (f32_of_bits (node_get_f32 n "mix")) A C (picture (g_output g')) /\ st_spec (g_output g') = spec_new.
Proof. exact @merge_run. Qed.
Print Assumptions C66_merge.

(** An enabled crop shows its first input, flattened, within the window, black
    where there is none; the display window follows only if reformatting, and
    the colour-space tag stays what it was. *)
Theorem C67_crop : forall D p (x : externals D) B ok_disk, roomy B -> sane x B ok_disk -> forall srt, sorts srt ->
  forall fuel (g : graph node stream) id start n frames fr w g' w',
  wf_graph (node_ops p x) g -> careful_graph p B g -> fine_stream B (g_output g) -> fine_world p B ok_disk w ->
  find_index g id = Some start -> nth_error (g_nodes g) start = Some n -> nd_type n = TCrop ->
  node_get_i32 n "enable" = 1 -> node_get_i32 n "use_cache" = 0 ->
  (exists k, link (g_graph g) k start /\ k <> start) ->
  execute (node_ops p x) srt fuel g id (frames ++ [fr])%list w = Some (Ok (g', w', ExSuccess)) ->
  exists inputs a rest ma s wa wa' A,
    (forall i, inputs_in_slot_order (g_graph g) i (inputs i)) /\ inputs start = a :: rest /\
    made (node_ops p x) node_key (fine_world p B ok_disk) (fine_stream B) (g_nodes g) inputs fr start a ma s wa wa' /\
    flattened p x s A /\ nothing_pending (g_output g') /\
    cut A (BBox (node_get_i32 n "window_min_x") (node_get_i32 n "window_min_y") (node_get_i32 n "window_max_x") (node_get_i32 n "window_max_y"))
        (picture (g_output g')) /\
    st_display (g_output g') = (if node_get_i32 n "reformat" =? 1 then st_data (g_output g') else st_display s) /\
    st_spec (g_output g') = st_spec s.
Proof. exact @crop_run. Qed.
Print Assumptions C67_crop.

(** The files left by a session that executes one node at the end. *)
Definition leaves (x : externals disk) (calls : list (gcall node spec_float awrite)) (id : Z) (w : world disk) (d : disk) : Prop :=
  exists g c g' w', history (node_ops Debug x) insertion_sort stream_new w calls g c /\
    execute (node_ops Debug x) insertion_sort 99 g id [frame0] c = Some (Ok (g', w', ExSuccess)) /\ w_disk w' = d.
Definition left_by (x : externals disk) calls id w : option disk :=
  match played (node_ops Debug x) insertion_sort 99 stream_new w calls with
  | Some (g, c) => match execute (node_ops Debug x) insertion_sort 99 g id [frame0] c with
                   | Some (Ok (_, w', ExSuccess)) => Some (w_disk w') | _ => None end
  | None => None
  end.
Lemma leaves_ok x calls id w d : left_by x calls id w = Some d -> leaves x calls id w d.
Proof.
  unfold left_by, leaves. destruct (played _ _ _ _ _ _) as [[g c]|] eqn:E; [|discriminate]. intro H.
  exists g, c. destruct (execute _ _ _ _ _ _ _) as [[[[g' w'] []]|]|] eqn:X; try discriminate H. exists g', w'.
  split; [exact (played_history _ _ _ _ _ _ _ _ E)|]. split; [reflexivity|congruence].
Qed.

(** Colour management that halves on the way to linear. *)
Definition halving : externals disk :=
  Externals (x_expand demo) (x_digest demo) (x_numerics demo)
    (fun px _ _ _ _ _ _ to => if bytes_eqb to linear_name then Some (map (fun v => f32_mul v (f32_of_bits 1056964608)) px) else None)
    (x_resample demo) (x_lens_ok demo) (x_kind demo) (x_read demo) (x_write demo).
Definition tagged : shared :=
  Shared (PB (BS 1 1 3) (DF32 [f32_one; f32_one; f32_one])) (BBox 0 0 1 1) (BBox 0 0 1 1) (set_color_space spec_new [115]).
Definition whole : node_type * list awrite :=
  (TCrop, [WI32 "enable" 1; WI32 "window_max_x" 1; WI32 "window_max_y" 1; WI32 "black_outside" 0]).
Definition level (f : f32) : shared :=
  Shared (PB (BS 1 1 3) (DF32 [f; f; f])) (BBox 0 0 1 1) (BBox 0 0 1 1) spec_new.

(** Cropping a picture to its own window changes what is written: it has been
    converted to linear but is still tagged as before, and is converted again. *)
Theorem C67_own_window_refuted :
  leaves halving (line [on_a; out_c]) 2 (demo_world [([97], tagged)] 193600)
    [([99], level (f32_of_bits 1056964608)); ([97], tagged)] /\
  leaves halving (line [on_a; whole; out_c]) 3 (demo_world [([97], tagged)] 193600)
    [([99], level (f32_of_bits 1048576000)); ([97], tagged)] /\
  f32_of_bits 1056964608 <> f32_of_bits 1048576000.
Proof.
  split; [|split].
  - apply leaves_ok. vm_compute. reflexivity.
  - apply leaves_ok. vm_compute. reflexivity.
  - vm_compute. discriminate.
Qed.
Print Assumptions C67_own_window_refuted.

(** A mode number that stands for none of the formulas gives one black, opaque
    pixel at the origin, whatever the inputs; the node does not say so. *)
Theorem C66_unknown_mode : forall D p (x : externals D) n fr mode a rest out w n' st s w',
  nd_type n = TMerge -> node_get_i32 n "enable" = 1 -> node_get_i32 n "use_cache" = 0 ->
  (forall m, ~ selects (node_get_i32 n "mode") m) ->
  node_compute p x n fr mode (a :: rest) out w = Ok (n', st, s, w') ->
  st_block s = PB (BS 1 1 4) (DF32 [f32_zero; f32_zero; f32_zero; f32_one]) /\
  st_data s = BBox 0 0 1 1 /\ st_display s = BBox 0 0 1 1 /\ st_deformers s = [] /\ st_ops s = [] /\
  st = (match rest with [] => NsWarning | _ => NsValid end).
Proof. exact @unknown_mode. Qed.
Print Assumptions C66_unknown_mode.

Example C66_unknown_mode_example : let n := setup TMerge 1 [WI32 "mode" 3; WI32 "use_cache" 0] in
  nd_type n = TMerge /\ node_get_i32 n "enable" = 1 /\ node_get_i32 n "use_cache" = 0 /\
  (forall m, ~ selects (node_get_i32 n "mode") m) /\
  exists n' s w', node_compute Debug demo n frame0 mode_all [stream_new; stream_new] stream_new (demo_world [] 0) = Ok (n', NsValid, s, w').
Proof.
  split; [reflexivity|]. split; [reflexivity|]. split; [reflexivity|]. split.
  - change (node_get_i32 (setup TMerge 1 [WI32 "mode" 3; WI32 "use_cache" 0]) "mode") with 3.
    intros m [(E & _)|[(E & _)|(E & _)]]; discriminate E.
  - do 3 eexists. vm_compute. reflexivity.
Qed.


(** A merge with only one input puts it on the colour bars. *)
Theorem C66_one_input_refuted :
  exists calls g c g' w',
    calls = line [on_a; (TMerge, [])] /\
    history (node_ops Debug demo) insertion_sort stream_new (demo_world dot_disk 193600) calls g c /\
    execute (node_ops Debug demo) insertion_sort 99 g 2 [frame0] c = Some (Ok (g', w', ExSuccess)) /\
    sh_data dot_image = BBox 0 0 1 1 /\ st_data (g_output g') = BBox 0 0 4 4 /\
    exists v, pixel_val (st_block (g_output g')) (BBox 0 0 4 4) 3 3 0 = Some (EF v) /\ v <> f32_zero.
Proof.
  eexists _, _, _, _, _. split; [reflexivity|].
  split; [apply (played_history _ _ 99); vm_compute; reflexivity|]. split; [vm_compute; reflexivity|].
  split; [reflexivity|]. split; [vm_compute; reflexivity|]. eexists. split; [vm_compute; reflexivity|]. vm_compute. discriminate.
Qed.
Print Assumptions C66_one_input_refuted.

(* ------------------------------ examples ------------------------------ *)

Definition show_merge : node := setup TMerge 3 [WI32 "use_cache" 0].
Definition show_crop : node := setup TCrop 4 [WI32 "use_cache" 0; WI32 "window_min_x" 1; WI32 "window_max_x" 5; WI32 "window_max_y" 5].
Definition show_graph : graph node stream :=
  Graph [safe_read; setup TRead 2 [WStr "file_path" [98]]; show_merge; show_crop] [1; 2; 3; 4]
    (Stable [true; true; true; true] [] [Edge 2 3 0; Edge 1 2 1; Edge 0 2 0]) stream_new GsDirty ExUninitialized.
Definition show_calls : list (gcall node spec_float awrite) :=
  [GAdd safe_read; GAdd (setup TRead 2 [WStr "file_path" [98]]); GAdd show_merge; GAdd show_crop;
   GConnect 1 3 0; GConnect 2 3 1; GConnect 3 4 0].

Lemma show_wf : wf_graph (node_ops Debug demo) show_graph.
Proof.
  assert (E : played (node_ops Debug demo) insertion_sort 99 stream_new (demo_world safe_disk 193600) show_calls
    = Some (show_graph, demo_world safe_disk 193600)) by (vm_compute; reflexivity).
  exact (history_wf_graph (node_ops Debug demo) _ (node_keeps_id Debug demo) _ _ _ _ _ (played_history _ _ _ _ _ _ _ _ E)).
Qed.
Lemma show_careful : careful_graph Debug area show_graph.
Proof.
  assert (W : forall t id ws, (forall w, In w ws -> ok_write w) -> HashSpec.wf_block (nd_attrs (setup t id ws)))
    by (intros t id ws H; unfold setup; apply setup_wf; [apply default_wf|exact H]).
  intros i n ms N _. destruct i as [|[|[|[|i]]]]; try (injection N as <-).
  - split; [apply W; intros w [<-|[]] c [<-|[]]; lia|exact I].
  - split; [apply W; intros w [<-|[]] c [<-|[]]; lia|exact I].
  - split; [apply W; intros w [<-|[]]; cbn; lia|exact I].
  - split; [apply W; intros w H; repeat (destruct H as [<-|H]; [cbn; lia|]); destruct H|].
    intros _. split; [vm_compute; discriminate|].
    change (within (BBox 1 0 5 5) area). unfold within, window_in. cbn. lia.
  - destruct i; discriminate N.
Qed.

(** All conditions of C66 hold of node 3, all conditions of C67 of node 4. *)
Example C66_example :
  roomy area /\ sane demo area fine_disk /\ sorts insertion_sort /\
  wf_graph (node_ops Debug demo) show_graph /\ careful_graph Debug area show_graph /\
  fine_stream area (g_output show_graph) /\ fine_world Debug area fine_disk (demo_world safe_disk 193600) /\
  find_index show_graph 3 = Some 2%nat /\ find_index show_graph 4 = Some 3%nat /\
  node_get_i32 show_merge "enable" = 1 /\ node_get_i32 show_merge "use_cache" = 0 /\ selects (node_get_i32 show_merge "mode") MOver /\
  node_get_i32 show_crop "enable" = 1 /\ node_get_i32 show_crop "use_cache" = 0 /\
  link (g_graph show_graph) 0 2 /\ link (g_graph show_graph) 2 3 /\
  (exists g' w', execute (node_ops Debug demo) insertion_sort 99 show_graph 3 [frame0] (demo_world safe_disk 193600)
     = Some (Ok (g', w', ExSuccess)) /\ st_data (g_output g') = BBox 0 0 3 2) /\
  (exists g' w', execute (node_ops Debug demo) insertion_sort 99 show_graph 4 [frame0] (demo_world safe_disk 193600)
     = Some (Ok (g', w', ExSuccess)) /\ st_data (g_output g') = BBox 1 0 5 5).
Proof.
  split; [exact area_roomy|]. split; [exact demo_sane|]. split; [exact insertion_sorts|].
  split; [exact show_wf|]. split; [exact show_careful|]. split; [apply fine_new, area_roomy|]. split; [exact safe_world|].
  do 4 (split; [vm_compute; reflexivity|]). split; [right; left; split; vm_compute; reflexivity|].
  do 2 (split; [vm_compute; reflexivity|]). split; [exists 0; cbn; auto|]. split; [exists 0; cbn; auto|].
  split; do 2 eexists; (split; [vm_compute; reflexivity|vm_compute; reflexivity]).
Qed.

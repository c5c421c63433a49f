(** C89, C90: what is shown when there is nothing to show, and what streams and
    nodes say about themselves. *)
From Coq Require String.
Import String.StringSyntax.
From Coq Require Import Floats.SpecFloat.
From Verif Require Import Machine CacheModel FloatModel BBoxModel PixelModel PixelSpec PathModel EnumModel AttrModel
  HashModel HashSpec HashProofs StreamModel DeformModel BakeModel GraphModel GraphSpec GraphPlay GraphWalk GraphExec GraphHistory GraphFacts AttrProofs NodeModel NodeExamples
  BarSpec BarProofs StateSpec StateProofs PropertiesNode PropertiesSafe PropertiesShow PropertiesPeel.
Local Open Scope string_scope.

(** A new stream shows colour bars. *)
Theorem C89_bars : shows_bars stream_new.
Proof. exact new_bars. Qed.
Print Assumptions C89_bars.

(** Executing a node with nothing to show and nothing connected to it succeeds,
    shows colour bars whatever was shown before, touches neither files nor the
    cache, and the node says "warning", or "valid" if it is a silent one. *)
Theorem C89_nothing_partial : forall D p (x : externals D) srt, sorts srt ->
  forall (g : graph node stream) start id n fr w fuel, wf_graph (node_ops p x) g ->
  find_index g id = Some start -> nth_error (g_nodes g) start = Some n ->
  sg_live (g_graph g) start = true -> (forall m, ~ link (g_graph g) m start) ->
  wf_block (nd_attrs n) -> idle x (w_disk w) fr n ->
  exists g' n', execute (node_ops p x) srt (S (S fuel)) g id [fr] w = Some (Ok (g', w, ExSuccess)) /\
    shows_bars (g_output g') /\ st_matrix (g_output g') = identity4 /\ only_own n (g_output g') /\
    nth_error (g_nodes g') start = Some n' /\ (silent n -> nd_status n' = 1) /\ (~ silent n -> nd_status n' = 2).
Proof. intros D p x srt HS g start id n fr w fuel. exact (run_idle p x srt HS g start id n fr w fuel). Qed.
Print Assumptions C89_nothing_partial.

(** A session that makes one node, of which the last execution is given. *)
Definition one_node (t : node_type) (ws : list awrite) : list (gcall node spec_float awrite) := [GAdd (setup t 1 ws)].
Definition ended (calls : list (gcall node spec_float awrite)) (w : world disk) : option (Z * stream) :=
  match played (node_ops Debug demo) insertion_sort 99 stream_new w calls with
  | Some (g, c) => match execute (node_ops Debug demo) insertion_sort 99 g 1 [frame0] c with
                   | Some (Ok (g', _, ExSuccess)) =>
                       match nth_error (g_nodes g') 0 with Some n => Some (nd_status n, g_output g') | None => None end
                   | _ => None end
  | None => None
  end.

(** A crop of nothing, a read of a file that is not there: a warning; a writer
    that is off and a viewer: none. *)
Example C89_nothing_example :
  option_map fst (ended (one_node TCrop []) (demo_world dot_disk 4096)) = Some 2 /\
  option_map fst (ended (one_node TRead [WStr "file_path" [120]]) (demo_world dot_disk 4096)) = Some 2 /\
  idle demo dot_disk frame0 (setup TCrop 1 []) /\ idle demo dot_disk frame0 (setup TRead 1 [WStr "file_path" [120]]) /\
  idle demo dot_disk frame0 (setup TViewer 1 [WI32 "enable" 1; WI32 "bake_option" 0]).
Proof.
  split; [vm_compute; reflexivity|]. split; [vm_compute; reflexivity|]. split; [exact I|].
  split; [right; exists [120]; split; reflexivity|]. split; reflexivity.
Qed.

(** It is not true that whoever shows colour bars for want of a picture says so. *)
Theorem C89_silent_refuted :
  (exists s, ended (one_node TWrite [WI32 "enable" 0]) (demo_world dot_disk 4096) = Some (1, s) /\ shows_bars s) /\
  (exists s, ended (one_node TViewer [WI32 "enable" 1; WI32 "bake_option" 0]) (demo_world dot_disk 4096) = Some (1, s) /\ shows_bars s).
Proof.
  split; exists stream_new; (split; [vm_compute; reflexivity|exact new_bars]).
Qed.
Print Assumptions C89_silent_refuted.

(** Nor that readers that find no picture show none: of a path that is not a
    regular file they show what was computed last, and say "valid". *)
Definition folder : externals disk :=
  Externals (x_expand demo) (x_digest demo) (x_numerics demo) (x_convert demo) (x_resample demo) (x_lens_ok demo)
    (fun d path => match path with [47] => OtherEntry | _ => x_kind demo d path end) (x_read demo) (x_write demo).
Theorem C89_folder_refuted :
  exists calls g c g1 c1 g2 c2 n,
    history (node_ops Debug folder) insertion_sort stream_new (demo_world dot_disk 4096) calls g c /\
    execute (node_ops Debug folder) insertion_sort 99 g 1 [frame0] c = Some (Ok (g1, c1, ExSuccess)) /\
    execute (node_ops Debug folder) insertion_sort 99 g1 2 [frame0] c1 = Some (Ok (g2, c2, ExSuccess)) /\
    nth_error (g_nodes g2) 1 = Some n /\ nd_type n = TRead /\ node_get_str n "file_path" = [47] /\ nd_status n = 1 /\
    st_block (g_output g2) = sh_block dot_image.
Proof.
  exists [GAdd (setup TRead 1 [WStr "file_path" [97]]); GAdd (setup TRead 2 [WStr "file_path" [47]])].
  assert (P : exists g c, played (node_ops Debug folder) insertion_sort 99 stream_new (demo_world dot_disk 4096)
    [GAdd (setup TRead 1 [WStr "file_path" [97]]); GAdd (setup TRead 2 [WStr "file_path" [47]])] = Some (g, c) /\
    exists g1 c1 g2 c2 n, execute (node_ops Debug folder) insertion_sort 99 g 1 [frame0] c = Some (Ok (g1, c1, ExSuccess)) /\
    execute (node_ops Debug folder) insertion_sort 99 g1 2 [frame0] c1 = Some (Ok (g2, c2, ExSuccess)) /\
    nth_error (g_nodes g2) 1 = Some n /\ nd_type n = TRead /\ node_get_str n "file_path" = [47] /\ nd_status n = 1 /\
    st_block (g_output g2) = sh_block dot_image).
  { eexists _, _. split; [vm_compute; reflexivity|]. eexists _, _, _, _, _. split; [vm_compute; reflexivity|].
    split; [vm_compute; reflexivity|]. split; [vm_compute; reflexivity|]. repeat split. }
  destruct P as (g & c & P & g1 & c1 & g2 & c2 & n & Q). exists g, c, g1, c1, g2, c2, n.
  split; [exact (played_history _ _ _ _ _ _ _ _ P)|exact Q].
Qed.
Print Assumptions C89_folder_refuted.

(** Whatever is done, the stream a graph hands out says that it is not valid. *)
Theorem C90_state_partial : forall D p (x : externals D) srt w0 h (g : graph node stream) w,
  history (node_ops p x) srt stream_new w0 h g w -> state_id (g_output g) = 0.
Proof.
  intros D p x srt w0 h g w H. unfold state_id. rewrite (always_invalid p x srt w0 h g w H). reflexivity.
Qed.
Print Assumptions C90_state_partial.

(** Setting the state, which no code does, would change the number (1 for valid,
    0 otherwise) and nothing else. *)
Theorem C90_set_state : forall s v,
  (state_id (set_state s v) = 1 <-> v = SdValid) /\ (state_id (set_state s v) = 0 <-> v = SdInvalid) /\
  st_hash (set_state s v) = st_hash s /\ st_display (set_state s v) = st_display s /\ st_data (set_state s v) = st_data s /\
  st_matrix (set_state s v) = st_matrix s /\ st_spec (set_state s v) = st_spec s /\ st_block (set_state s v) = st_block s /\
  st_deformers (set_state s v) = st_deformers s /\ st_ops (set_state s v) = st_ops s.
Proof. intros s v. destruct v; repeat split; intro H; discriminate H. Qed.
Print Assumptions C90_set_state.

(** In particular after executions that show a picture. *)
Theorem C90_state_refuted : exists calls g c,
  history (node_ops Debug demo) insertion_sort stream_new (demo_world dot_disk 4096) calls g c /\
  g_status g = ExSuccess /\ st_block (g_output g) = sh_block dot_image /\ st_state (g_output g) <> SdValid.
Proof.
  exists (one_node TRead [WStr "file_path" [97]] ++ [GExecute 1 [frame0]])%list.
  assert (P : exists g c, played (node_ops Debug demo) insertion_sort 99 stream_new (demo_world dot_disk 4096)
    (one_node TRead [WStr "file_path" [97]] ++ [GExecute 1 [frame0]])%list = Some (g, c) /\
    g_status g = ExSuccess /\ st_block (g_output g) = sh_block dot_image /\ st_state (g_output g) <> SdValid).
  { eexists _, _. split; [vm_compute; reflexivity|]. split; [reflexivity|]. split; [reflexivity|discriminate]. }
  destruct P as (g & c & P & Q). exists g, c. split; [exact (played_history _ _ _ _ _ _ _ _ P)|exact Q].
Qed.
Print Assumptions C90_state_refuted.

(** Nodes say "uninitialized" until an execution of a node that they feed, and
    then "error", "valid" or "warning". *)
Theorem C90_statuses : forall D p (x : externals D) srt, sorts srt ->
  forall w0 h (g : graph node stream) w, history (node_ops p x) srt stream_new w0 h g w -> adds_new h ->
  forall i n, nth_error (g_nodes g) i = Some n ->
  (nd_status n = never_computed \/ computed_status (nd_status n)) /\
  (nd_status n <> never_computed -> asked_before p x srt w0 h i).
Proof. intros D p x srt HS. exact (statuses_since p x srt HS). Qed.
Print Assumptions C90_statuses.

Example C90_statuses_example :
  match played (node_ops Debug demo) insertion_sort 99 stream_new (demo_world dot_disk 4096)
          [GAdd (setup TRead 1 [WStr "file_path" [97]]); GAdd (setup TGrade 2 []); GExecute 1 [frame0]] with
  | Some (g, _) => map nd_status (g_nodes g) = [1; never_computed]
  | None => False
  end.
Proof. vm_compute. reflexivity. Qed.

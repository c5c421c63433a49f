(** C64: the result of executing a node depends on the part of the graph
    upstream of it, and on nothing else. *)
From Coq Require String.
Import String.StringSyntax.
From Coq Require Import Floats.SpecFloat.
From Verif Require Import Machine FloatModel BBoxModel PixelModel EnumModel AttrModel HashModel StreamModel DeformModel BakeModel
  GraphModel GraphSpec GraphPlay NodeModel NodeExamples NodeSpec IsoSpec IsoFacts PropertiesNode PropertiesRun.
Local Open Scope string_scope.

(** Two graphs, however they were made, whose nodes upstream of the executed one
    have the same types, ids, settings and connections: same outcome (abort and
    non-termination included), output, files, cache and result. *)
Theorem C64_same_part_same_result : forall D p (x : externals D) srt, sorts srt ->
  forall s0 c0 s0' c0' h1 h2 g1 g2 c1 c2 U id frames w fuel,
  history (node_ops p x) srt s0 c0 h1 g1 c1 -> history (node_ops p x) srt s0' c0' h2 g2 c2 ->
  NoDup (added (node_ops p x) h1) -> NoDup (added (node_ops p x) h2) ->
  same_part same_settings U g1 g2 -> g_output g1 = g_output g2 -> U id ->
  same_outcome (fun r1 r2 => let '(g1', w1, st1) := r1 in let '(g2', w2, st2) := r2 in
      same_part same_settings U g1' g2' /\ g_output g1' = g_output g2' /\ w1 = w2 /\ st1 = st2)
    (execute (node_ops p x) srt fuel g1 id frames w) (execute (node_ops p x) srt fuel g2 id frames w).
Proof. intros D p x srt. exact (same_result p x srt). Qed.
Print Assumptions C64_same_part_same_result.

(** Any further calls that change nodes elsewhere change nothing about it. *)
Theorem C64_unaffected_by_changes_elsewhere : forall D p (x : externals D) srt, sorts srt ->
  forall s0 c0 h g c cs g' c' id frames w fuel,
  history (node_ops p x) srt s0 c0 h g c -> then_calls (node_ops p x) srt cs g c g' c' ->
  NoDup (added (node_ops p x) (h ++ cs)) ->
  (forall call, In call cs -> exists t, changes (node_ops p x) call = Some t /\ ~ upstream g id t) ->
  (exists n, has_node g id n) ->
  (forall src src' dst slot, upstream g id dst -> wire g src dst slot -> wire g src' dst slot -> src = src') ->
  same_outcome (fun r1 r2 => let '(g1', w1, st1) := r1 in let '(g2', w2, st2) := r2 in
      same_part same_settings (upstream g id) g1' g2' /\ g_output g1' = g_output g2' /\ w1 = w2 /\ st1 = st2)
    (execute (node_ops p x) srt fuel g id frames w) (execute (node_ops p x) srt fuel g' id frames w).
Proof. intros D p x srt. exact (unaffected p x srt). Qed.
Print Assumptions C64_unaffected_by_changes_elsewhere.

(* ------------------------------ examples ------------------------------ *)

Definition read_a : node := setup TRead 1 [WStr "file_path" [97]; WI32 "use_cache" 0].
Definition read_b : node := setup TRead 2 [WStr "file_path" [98]; WI32 "use_cache" 0].
Definition read_c : node := setup TRead 5 [WStr "file_path" [99]; WI32 "use_cache" 0].
Definition look : node := setup TGrade 3 [].
Definition other_image : shared :=
  Shared (PB (BS 1 1 3) (DF32 [f32_zero; f32_zero; f32_zero])) (BBox 0 0 1 1) (BBox 0 0 1 1) spec_new.
Definition two_disk : disk := [([97], dot_image); ([99], other_image)].
Definition made (h : list (gcall node spec_float awrite)) :=
  played (node_ops Debug demo) insertion_sort 99 stream_new (demo_world two_disk 4096) h.
Definition run (g : graph node stream) (id : Z) :=
  execute (node_ops Debug demo) insertion_sort 99 g id [frame0] (demo_world two_disk 4096).


Definition straight : list (gcall node spec_float awrite) := [GAdd read_a; GAdd look; GConnect 1 3 0].
Definition roundabout : list (gcall node spec_float awrite) :=
  [GAdd look; GAdd read_b; GAdd read_a; GConnect 2 3 0; GConnect 1 3 0].

Example C64_same_part_example :
  exists g1 g2 c1 c2,
    history (node_ops Debug demo) insertion_sort stream_new (demo_world two_disk 4096) straight g1 c1 /\
    history (node_ops Debug demo) insertion_sort stream_new (demo_world two_disk 4096) roundabout g2 c2 /\
    NoDup (added (node_ops Debug demo) straight) /\ NoDup (added (node_ops Debug demo) roundabout) /\
    same_part same_settings (fun id => id = 1 \/ id = 3) g1 g2 /\ g_output g1 = g_output g2 /\
    exists g1' w1, run g1 3 = Some (Ok (g1', w1, ExSuccess)) /\ st_block (g_output g1') = sh_block dot_image.
Proof.
  destruct (made straight) as [(g1, c1)|] eqn:E1; [|vm_compute in E1; discriminate].
  destruct (made roundabout) as [(g2, c2)|] eqn:E2; [|vm_compute in E2; discriminate].
  exists g1, g2, c1, c2. pose proof (played_history _ _ _ _ _ _ _ _ E1) as H1. pose proof (played_history _ _ _ _ _ _ _ _ E2) as H2.
  split; [exact H1|]. split; [exact H2|]. clear H1 H2.
  assert (E1' : made straight = Some (Graph [read_a; look] [1; 3] (Stable [true; true] [] [Edge 0 1 0]) stream_new GsDirty ExUninitialized,
    demo_world two_disk 4096)) by (vm_compute; reflexivity).
  assert (E2' : made roundabout = Some (Graph [look; read_b; read_a] [3; 2; 1] (Stable [true; true; true] [] [Edge 2 0 0]) stream_new GsDirty ExUninitialized,
    demo_world two_disk 4096)) by (vm_compute; reflexivity).
  rewrite E1 in E1'. rewrite E2 in E2'. injection E1' as -> ->. injection E2' as -> ->. clear E1 E2.
  split; [vm_compute; repeat constructor; cbn; intuition discriminate|].
  split; [vm_compute; repeat constructor; cbn; intuition discriminate|]. split.
  { constructor; cbn [g_ids g_graph].
    - intros id [->| ->].
      + exists read_a, read_a. split; [exists 0%nat; auto|]. split; [exists 2%nat; auto|]. repeat split.
      + exists look, look. split; [exists 1%nat; auto|]. split; [exists 0%nat; auto|]. repeat split.
    - intros src dst slot _. unfold wire, feeds. cbn [g_ids g_graph sg_edges In]. split.
      + intros (a & b & A & B & [X|[]]). injection X as <- <- <-. exists 2%nat, 0%nat. auto.
      + intros (a & b & A & B & [X|[]]). injection X as <- <- <-. exists 0%nat, 1%nat. auto.
    - intros src dst slot _ (a & b & A & B & [X|[]]). injection X as <- <- <-. injection A as <-. auto.
    - intros src src' dst slot _ (a & b & A & B & [X|[]]) (a' & b' & A' & B' & [X'|[]]). congruence. }
  split; [reflexivity|]. eexists _, _. split; [vm_compute; reflexivity|]. vm_compute. reflexivity.
Qed.

Definition tinkering : list (gcall node spec_float awrite) :=
  [GAdd read_b; GConnect 3 2 0; GWrite 2 (WStr "file_path" [120]); GDisconnect 2 0; GRemove 2].
Example C64_elsewhere_example :
  exists g c g' c',
    history (node_ops Debug demo) insertion_sort stream_new (demo_world two_disk 4096) straight g c /\
    then_calls (node_ops Debug demo) insertion_sort tinkering g c g' c' /\
    NoDup (added (node_ops Debug demo) (straight ++ tinkering)%list) /\
    (forall call, In call tinkering -> exists t, changes (node_ops Debug demo) call = Some t /\ ~ upstream g 3 t) /\
    (exists n, has_node g 3 n) /\
    (forall src src' dst slot, upstream g 3 dst -> wire g src dst slot -> wire g src' dst slot -> src = src').
Proof.
  destruct (made straight) as [(g1, c1)|] eqn:E1; [|vm_compute in E1; discriminate].
  pose proof (played_history _ _ _ _ _ _ _ _ E1) as H1.
  assert (E1' : made straight = Some (Graph [read_a; look] [1; 3] (Stable [true; true] [] [Edge 0 1 0]) stream_new GsDirty ExUninitialized,
    demo_world two_disk 4096)) by (vm_compute; reflexivity).
  rewrite E1 in E1'. injection E1' as -> ->. clear E1.
  eexists _, _, _, _. split; [exact H1|]. clear H1. split.
  { econstructor; [split; [reflexivity|eexists; vm_compute; reflexivity]|].
    econstructor; [split; [reflexivity|vm_compute; reflexivity]|].
    econstructor; [split; [reflexivity|vm_compute; reflexivity]|].
    econstructor; [split; [reflexivity|vm_compute; reflexivity]|].
    econstructor; [split; [reflexivity|vm_compute; reflexivity]|]. constructor. }
  split; [vm_compute; repeat constructor; cbn; intuition discriminate|]. split; [|split].
  - set (g := Graph _ _ _ _ _ _). assert (U : forall t, upstream g 3 t -> t = 1 \/ t = 3).
    { intros t U. induction U as [|src dst slot U IH (a & b & A & B & [X|[]])]; [auto|]. injection X as <- <- <-. injection A as <-. auto. }
    intros call IN. exists 2. split; [repeat (destruct IN as [<-|IN]; [reflexivity|]); destruct IN|].
    intro X. apply U in X. destruct X; discriminate.
  - exists look, 1%nat. auto.
  - intros src src' dst slot _ (a & b & A & B & [X|[]]) (a' & b' & A' & B' & [X'|[]]). congruence.
Qed.

(** The condition "one source per slot" is needed: re-connecting an older slot
    leaves two sources in it (C24), and then it matters which was connected
    last, although the nodes and the connections are the same. *)
Definition first_a : list (gcall node spec_float awrite) :=
  [GAdd read_a; GAdd read_b; GAdd read_c; GAdd look; GConnect 1 3 0; GConnect 2 3 1; GConnect 5 3 0].
Definition first_c : list (gcall node spec_float awrite) :=
  [GAdd read_a; GAdd read_b; GAdd read_c; GAdd look; GConnect 5 3 0; GConnect 2 3 1; GConnect 1 3 0].
Theorem C64_order_of_connecting_refuted :
  exists h1 h2 g1 g2 c1 c2 g1' w1 st1 g2' w2 st2,
    history (node_ops Debug demo) insertion_sort stream_new (demo_world two_disk 4096) h1 g1 c1 /\
    history (node_ops Debug demo) insertion_sort stream_new (demo_world two_disk 4096) h2 g2 c2 /\
    NoDup (added (node_ops Debug demo) h1) /\ NoDup (added (node_ops Debug demo) h2) /\
    g_nodes g1 = g_nodes g2 /\ (forall src dst slot, wire g1 src dst slot <-> wire g2 src dst slot) /\ g_output g1 = g_output g2 /\
    run g1 3 = Some (Ok (g1', w1, st1)) /\ run g2 3 = Some (Ok (g2', w2, st2)) /\
    st_block (g_output g1') <> st_block (g_output g2').
Proof.
  exists first_a, first_c.
  destruct (made first_a) as [(g1, c1)|] eqn:E1; [|vm_compute in E1; discriminate].
  destruct (made first_c) as [(g2, c2)|] eqn:E2; [|vm_compute in E2; discriminate].
  exists g1, g2, c1, c2. pose proof (played_history _ _ _ _ _ _ _ _ E1) as H1. pose proof (played_history _ _ _ _ _ _ _ _ E2) as H2.
  set (nodes := [read_a; read_b; read_c; look]) in *.
  assert (E1' : made first_a = Some (Graph nodes [1; 2; 5; 3] (Stable [true; true; true; true] [] [Edge 2 3 0; Edge 1 3 1; Edge 0 3 0])
    stream_new GsDirty ExUninitialized, demo_world two_disk 4096)) by (vm_compute; reflexivity).
  assert (E2' : made first_c = Some (Graph nodes [1; 2; 5; 3] (Stable [true; true; true; true] [] [Edge 0 3 0; Edge 1 3 1; Edge 2 3 0])
    stream_new GsDirty ExUninitialized, demo_world two_disk 4096)) by (vm_compute; reflexivity).
  rewrite E1 in E1'. rewrite E2 in E2'. injection E1' as -> ->. injection E2' as -> ->. clear E1 E2.
  eexists _, _, _, _, _, _. split; [exact H1|]. split; [exact H2|]. clear H1 H2.
  split; [vm_compute; repeat constructor; cbn; intuition discriminate|].
  split; [vm_compute; repeat constructor; cbn; intuition discriminate|]. split; [reflexivity|]. split.
  { intros src dst slot. unfold wire, feeds. cbn [g_ids g_graph sg_edges In].
    split; intros (a & b & A & B & X); exists a, b; (split; [exact A|split; [exact B|tauto]]). }
  split; [reflexivity|]. split; [vm_compute; reflexivity|]. split; [vm_compute; reflexivity|]. vm_compute. discriminate.
Qed.
Print Assumptions C64_order_of_connecting_refuted.

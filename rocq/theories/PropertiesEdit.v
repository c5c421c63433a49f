(** C111: a graph is what its attributes read and how it is connected; edits
    can be undone. *)
From Coq Require String.
Import String.StringSyntax.
From Coq Require Import Lia Floats.SpecFloat.
From Verif Require Import Machine CacheModel FloatModel BBoxModel PixelModel MergeModel EnumModel AttrModel AttrSpec
  HashModel HashSpec StreamModel GraphModel GraphSpec GraphSim GraphWalk GraphPlay AttrProofs NodeModel NodeExamples
  NodeSpec LutSpec LutHistory RunSpec SafeSpec SafeProofs SafeFacts ShowSpec SoundSpec IsoSpec IsoFacts
  SceneSpec AlikeSpec EditSpec EditProofs EditProofs2 PropertiesNode PropertiesSafe PropertiesShow PropertiesSound PropertiesShow2 PropertiesScene PropertiesAlike PropertiesIso.
Local Open Scope string_scope.

(** Two graphs built in any way whose part under a node has the same
    connections, and attributes that read the same, give the same result when
    that node is executed. *)
Theorem C111_same_readings : forall D p (x : externals D) srt, sorts srt ->
  forall s0 c0 s0' c0' h1 h2 g1 g2 c1 c2 U id frames w fuel,
  GraphSpec.history (node_ops p x) srt s0 c0 h1 g1 c1 -> GraphSpec.history (node_ops p x) srt s0' c0' h2 g2 c2 -> from_scratch h1 -> from_scratch h2 ->
  NoDup (added (node_ops p x) h1) -> NoDup (added (node_ops p x) h2) ->
  same_part same_readings U g1 g2 -> g_output g1 = g_output g2 -> U id ->
  same_outcome (fun r1 r2 => let '(g1', w1, st1) := r1 in let '(g2', w2, st2) := r2 in
      same_part same_readings U g1' g2' /\ g_output g1' = g_output g2' /\ w1 = w2 /\ st1 = st2)
    (execute (node_ops p x) srt fuel g1 id frames w) (execute (node_ops p x) srt fuel g2 id frames w).
Proof. intros D p x srt HS. exact (same_readings_result p x srt HS). Qed.
Print Assumptions C111_same_readings.

(** Writing an attribute and then the value it had leaves the graph as it was,
    but for asking to be executed. *)
Theorem C111_write_undone : forall D p (x : externals D) (g g1 g2 : graph node stream) id w w',
  node_exists g id = true -> same_target w w' ->
  read_node g id (get_value (w_kind w) (w_name w)) (zero_value (w_kind w)) = Ok (w_value w') ->
  write_node (node_ops p x) g id w = Ok g1 -> write_node (node_ops p x) g1 id w' = Ok g2 -> g2 = with_state g GsDirty.
Proof. exact @graph_write_back. Qed.
Print Assumptions C111_write_undone.

(** Only the last value written to an attribute counts. *)
Theorem C111_last_write : forall D p (x : externals D) (g g1 g2 g3 : graph node stream) id w w', same_target w w' ->
  write_node (node_ops p x) g id w = Ok g1 -> write_node (node_ops p x) g1 id w' = Ok g2 ->
  write_node (node_ops p x) g id w' = Ok g3 -> g2 = g3.
Proof. exact @graph_write_over. Qed.
Print Assumptions C111_last_write.

(** The order of writes to different attributes does not count. *)
Theorem C111_order_of_writes : forall D p (x : externals D) (g g1 g2 h1 h2 : graph node stream) id id' w w',
  id <> id' \/ ~ same_target w w' ->
  write_node (node_ops p x) g id w = Ok g1 -> write_node (node_ops p x) g1 id' w' = Ok g2 ->
  write_node (node_ops p x) g id' w' = Ok h1 -> write_node (node_ops p x) h1 id w = Ok h2 -> g2 = h2.
Proof. exact @graph_write_swap. Qed.
Print Assumptions C111_order_of_writes.

(** A connection to a free input, unplugged again, leaves the graph as it was,
    but for asking to be executed. *)
Theorem C111_connect_undone : forall D p (x : externals D) srt s0 c0 h (g g1 : graph node stream) c src dst slot a b,
  GraphSpec.history (node_ops p x) srt s0 c0 h g c ->
  find_index g src = Some a -> find_index g dst = Some b ->
  (forall m, ~ feeds (g_graph g) m b slot) -> ~ link (g_graph g) a b ->
  connect g src dst slot = Ok g1 -> disconnect_input g1 dst slot = with_state g GsDirty.
Proof. exact @history_connect_undone. Qed.
Print Assumptions C111_connect_undone.

(** Asking to be executed makes no difference to executing. *)
Theorem C111_asking : forall D p (x : externals D) srt fuel (g : graph node stream) s id frames w,
  same_outcome (fun r1 r2 => let '(g1, w1, st1) := r1 in let '(g2, w2, st2) := r2 in
      same_but_state g1 g2 /\ (st1 = ExSuccess -> g1 = g2) /\ w1 = w2 /\ st1 = st2)
    (execute (node_ops p x) srt fuel g id frames w) (execute (node_ops p x) srt fuel (with_state g s) id frames w).
Proof. exact @state_execute. Qed.
Print Assumptions C111_asking.

(** At two moments, of the same session or not, at which the part under a node
    has the same connections and attributes that read the same, and the files
    are the same, executing that node shows the same, whatever was executed and
    kept in the cache before. *)
Theorem C111_shown_again : forall D p (x : externals D) (E1 E2 : setting D),
  clean_paths (x_expand x) -> digest_u64 (x_digest x) ->
  (forall E, E = E1 \/ E = E2 -> no_collisions (x_digest x) (SoundSpec.used E) /\
     (forall l, In l (SoundSpec.used E) -> x_digest x l <> 0) /\ keeps_sources x E) ->
  forall B ok_disk, roomy B -> sane x B ok_disk -> forall srt, sorts srt ->
  forall G1 G2 w1 w2 i1 i2 fuel1 fuel2 id start1 start2 frames1 frames2 fr g1' g2' w1' w2' log1 log2 U,
  session p x E1 srt G1 w1 -> ok_disk (w_disk w1) -> careful_graph p B (G1 i1) -> fine_stream B (g_output (G1 i1)) ->
  session p x E2 srt G2 w2 -> ok_disk (w_disk w2) -> careful_graph p B (G2 i2) -> fine_stream B (g_output (G2 i2)) ->
  NoDup (g_ids (G1 i1)) -> NoDup (g_ids (G2 i2)) ->
  Forall configured (g_nodes (G1 i1)) -> Forall configured (g_nodes (G2 i2)) ->
  same_part same_readings U (G1 i1) (G2 i2) -> U id ->
  (forall id n, U id -> has_node (G1 i1) id n -> same_file x fr fr (w_disk w1) (w_disk w2) n) ->
  find_index (G1 i1) id = Some start1 -> all_asked (G1 i1) start1 ->
  find_index (G2 i2) id = Some start2 -> all_asked (G2 i2) start2 ->
  determined x (w_disk w2) fr (G2 i2) ->
  execute (recording (node_ops p x)) srt fuel1 (G1 i1) id (frames1 ++ [fr])%list (w1, []) = Some (Ok (g1', (w1', log1), ExSuccess)) ->
  Forall (tame p x E1) log1 ->
  execute (recording (node_ops p x)) srt fuel2 (G2 i2) id (frames2 ++ [fr])%list (w2, []) = Some (Ok (g2', (w2', log2), ExSuccess)) ->
  Forall (tame p x E2) log2 ->
  looks_like (g_output g1') (g_output g2').
Proof. exact shown_again. Qed.
Print Assumptions C111_shown_again.

(* ------------------------------ examples ------------------------------ *)

Definition path_a : awrite := WStr "file_path" [97].
Definition path_c : awrite := WStr "file_path" [99].
Definition no_cache : awrite := WI32 "use_cache" 0.
Definition at_once : list (gcall node spec_float awrite) :=
  [GAdd (create_node TRead 1); GWrite 1 path_a; GWrite 1 no_cache; GAdd (create_node TGrade 3); GConnect 1 3 0].
Definition at_length : list (gcall node spec_float awrite) :=
  [GAdd (create_node TGrade 3); GAdd (create_node TRead 2); GAdd (create_node TRead 1); GWrite 1 no_cache; GWrite 1 path_c;
   GConnect 2 3 0; GWrite 1 path_a; GConnect 1 3 0].

Example C111_same_readings_example :
  exists g1 g2 c1 c2,
    GraphSpec.history (node_ops Debug demo) insertion_sort stream_new (demo_world two_disk 4096) at_once g1 c1 /\
    GraphSpec.history (node_ops Debug demo) insertion_sort stream_new (demo_world two_disk 4096) at_length g2 c2 /\
    from_scratch at_once /\ from_scratch at_length /\
    NoDup (added (node_ops Debug demo) at_once) /\ NoDup (added (node_ops Debug demo) at_length) /\
    same_part same_readings (fun id => id = 1 \/ id = 3) g1 g2 /\ g_output g1 = g_output g2 /\
    exists g1' w1, run g1 3 = Some (Ok (g1', w1, ExSuccess)) /\ st_block (g_output g1') = sh_block dot_image.
Proof.
  destruct (made at_once) as [(g1, c1)|] eqn:E1; [|vm_compute in E1; discriminate].
  destruct (made at_length) as [(g2, c2)|] eqn:E2; [|vm_compute in E2; discriminate].
  exists g1, g2, c1, c2. pose proof (played_history _ _ _ _ _ _ _ _ E1) as H1. pose proof (played_history _ _ _ _ _ _ _ _ E2) as H2.
  split; [exact H1|]. split; [exact H2|]. clear H1 H2.
  assert (E1' : made at_once = Some (Graph [setup TRead 1 [path_a; no_cache]; create_node TGrade 3] [1; 3] (Stable [true; true] [] [Edge 0 1 0]) stream_new GsDirty ExUninitialized,
    demo_world two_disk 4096)) by (vm_compute; reflexivity).
  assert (E2' : made at_length = Some (Graph [create_node TGrade 3; create_node TRead 2; setup TRead 1 [no_cache; path_c; path_a]] [3; 2; 1] (Stable [true; true; true] [] [Edge 2 0 0]) stream_new GsDirty ExUninitialized,
    demo_world two_disk 4096)) by (vm_compute; reflexivity).
  rewrite E1 in E1'. rewrite E2 in E2'. injection E1' as -> ->. injection E2' as -> ->. clear E1 E2.
  split; [intros n N; repeat (destruct N as [N|N]; [first [injection N as <-; eauto|discriminate N]|]); destruct N|].
  split; [intros n N; repeat (destruct N as [N|N]; [first [injection N as <-; eauto|discriminate N]|]); destruct N|].
  split; [vm_compute; repeat constructor; cbn; intuition discriminate|].
  split; [vm_compute; repeat constructor; cbn; intuition discriminate|]. split.
  { constructor; cbn [g_ids g_graph].
    - intros id [->| ->].
      + exists (setup TRead 1 [path_a; no_cache]), (setup TRead 1 [no_cache; path_c; path_a]).
        split; [exists 0%nat; auto|]. split; [exists 2%nat; auto|]. apply settings_readings.
        unfold setup. cbn [fold_left]. rewrite (write_over _ path_c path_a) by (split; reflexivity).
        rewrite (write_swap _ no_cache path_a) by (intros (X & _); discriminate X). repeat split.
      + exists (create_node TGrade 3), (create_node TGrade 3). split; [exists 1%nat; auto|]. split; [exists 0%nat; auto|]. repeat split.
    - intros src dst slot _. unfold wire, feeds. cbn [g_ids g_graph sg_edges In]. split.
      + intros (a & b & A & B & [X|[]]). injection X as <- <- <-. exists 2%nat, 0%nat. auto.
      + intros (a & b & A & B & [X|[]]). injection X as <- <- <-. exists 0%nat, 1%nat. auto.
    - intros src dst slot _ (a & b & A & B & [X|[]]). injection X as <- <- <-. injection A as <-. auto.
    - intros src src' dst slot _ (a & b & A & B & [X|[]]) (a' & b' & A' & B' & [X'|[]]). congruence. }
  split; [reflexivity|]. eexists _, _. split; [vm_compute; reflexivity|]. vm_compute. reflexivity.
Qed.

(** The graph of C66 after it was executed; its merge is set to another mode and
    back. *)
Definition before : graph node stream := fst (fst kept_first).
Definition other_mode : awrite := WI32 "mode" 0.
Definition usual_mode : awrite := WI32 "mode" 1.
Definition changed : graph node stream := match write_node (node_ops Debug demo) before 3 other_mode with Ok g => g | Panic => before end.
Definition put_back : graph node stream := match write_node (node_ops Debug demo) changed 3 usual_mode with Ok g => g | Panic => before end.

Example C111_write_undone_example :
  node_exists before 3 = true /\ same_target other_mode usual_mode /\
    read_node before 3 (get_value KI32 "mode") (zero_value KI32) = Ok (w_value usual_mode) /\
    write_node (node_ops Debug demo) before 3 other_mode = Ok changed /\ write_node (node_ops Debug demo) changed 3 usual_mode = Ok put_back /\
    read_node changed 3 (get_value KI32 "mode") (zero_value KI32) = Ok (w_value other_mode).
Proof.
  split; [vm_compute; reflexivity|]. split; [split; reflexivity|]. split; [vm_compute; reflexivity|].
  split; [vm_compute; reflexivity|]. split; vm_compute; reflexivity.
Qed.

Example C111_order_of_writes_example :
  exists g1 g2 h1 h2, (1 <> 3 \/ ~ same_target path_c other_mode) /\
    write_node (node_ops Debug demo) before 1 path_c = Ok g1 /\ write_node (node_ops Debug demo) g1 3 other_mode = Ok g2 /\
    write_node (node_ops Debug demo) before 3 other_mode = Ok h1 /\ write_node (node_ops Debug demo) h1 1 path_c = Ok h2.
Proof.
  eexists _, _, _, _. split; [left; discriminate|]. split; [vm_compute; reflexivity|]. split; [vm_compute; reflexivity|].
  split; vm_compute; reflexivity.
Qed.

Example C111_connect_undone_example :
  exists g c g1, GraphSpec.history (node_ops Debug demo) insertion_sort stream_new (demo_world two_disk 4096)
      [GAdd (create_node TRead 1); GAdd (create_node TRead 2); GAdd (create_node TMerge 3); GConnect 1 3 0; GExecute 3 [frame0]] g c /\
    find_index g 2 = Some 1%nat /\ find_index g 3 = Some 2%nat /\
    (forall m, ~ feeds (g_graph g) m 2 1) /\ ~ link (g_graph g) 1 2 /\ connect g 2 3 1 = Ok g1 /\ feeds (g_graph g1) 1 2 1.
Proof.
  destruct (made [GAdd (create_node TRead 1); GAdd (create_node TRead 2); GAdd (create_node TMerge 3); GConnect 1 3 0; GExecute 3 [frame0]])
    as [(g, c)|] eqn:E; [|vm_compute in E; discriminate].
  eexists g, c, _. split; [exact (played_history _ _ _ _ _ _ _ _ E)|]. vm_compute in E. injection E as <- _.
  split; [reflexivity|]. split; [reflexivity|].
  split; [intros m [X|[]]; discriminate X|]. split; [intros (s & [X|[]]); discriminate X|]. split; [vm_compute; reflexivity|]. now left.
Qed.

(** The graph of C66 before anything was executed; and after it was executed,
    and its merge set to another mode and back. *)
Definition merged_nodes (id : Z) : Prop := id = 1 \/ id = 2 \/ id = 3.

Lemma put_back_is : put_back = with_state before GsDirty.
Proof.
  refine (graph_write_back Debug demo before changed put_back 3 other_mode usual_mode _ _ _ _ _);
    first [vm_compute; reflexivity|split; reflexivity].
Qed.

Lemma put_back_session : session Debug demo kept_setting insertion_sort (only put_back) (snd (fst kept_first)).
Proof.
  apply (only_call changed (snd (fst kept_first)) (GWrite 3 usual_mode) _ _ []); [|split; [reflexivity|vm_compute; reflexivity]|apply Forall_nil].
  apply (only_call before (snd (fst kept_first)) (GWrite 3 other_mode) _ _ []); [exact kept_session|split; [reflexivity|vm_compute; reflexivity]|apply Forall_nil].
Qed.

Lemma kept_configured : Forall configured (g_nodes kept_graph).
Proof.
  repeat constructor; eexists; unfold kept_read, kept_other, kept_merge, kept_crop, setup; rewrite writes_type, writes_id; reflexivity.
Qed.

Lemma state_fine p B (g : graph node stream) s : careful_graph p B g /\ fine_stream B (g_output g) ->
  careful_graph p B (with_state g s) /\ fine_stream B (g_output (with_state g s)).
Proof. intro H. exact H. Qed.

Lemma before_nodes i n : nth_error (g_nodes before) i = Some n ->
  exists n0, nth_error (g_nodes kept_graph) i = Some n0 /\ same_settings n n0.
Proof.
  intro N. destruct i as [|[|[|[|i]]]]; try (vm_compute in N; injection N as <-; eexists; split; [reflexivity|split; [|split]; vm_compute; reflexivity]).
  vm_compute in N. destruct i; discriminate N.
Qed.

Lemma put_back_nodes i n : nth_error (g_nodes put_back) i = Some n ->
  exists n0, nth_error (g_nodes kept_graph) i = Some n0 /\ same_settings n n0.
Proof. rewrite put_back_is. unfold with_state. cbn [g_nodes]. exact (before_nodes i n). Qed.
Lemma put_back_shape : g_graph put_back = g_graph kept_graph /\ g_ids put_back = g_ids kept_graph.
Proof. split; vm_compute; reflexivity. Qed.
Lemma put_back_fine : careful_graph Debug area put_back /\ fine_stream area (g_output put_back).
Proof.
  rewrite put_back_is. exact (state_fine Debug area before GsDirty (proj2 kept_fine)).
Qed.
Definition shown_before := Eval vm_compute in
  execute (recording (node_ops Debug demo)) insertion_sort 99 (with_state before GsDirty) 3 [frame0] (snd (fst kept_first), []).
Lemma put_back_run : execute (recording (node_ops Debug demo)) insertion_sort 99 put_back 3 [frame0] (snd (fst kept_first), []) = shown_before.
Proof. rewrite put_back_is. vm_compute. reflexivity. Qed.

Example C111_shown_again_example :
  clean_paths (x_expand demo) /\ digest_u64 (x_digest demo) /\
  no_collisions (x_digest demo) (SoundSpec.used kept_setting) /\ (forall l, In l (SoundSpec.used kept_setting) -> x_digest demo l <> 0) /\
  keeps_sources demo kept_setting /\ roomy area /\ sane demo area fine_disk /\ sorts insertion_sort /\
  exists w1 w2, session Debug demo kept_setting insertion_sort (only kept_graph) w1 /\ fine_disk (w_disk w1) /\
    careful_graph Debug area kept_graph /\ fine_stream area (g_output kept_graph) /\
    session Debug demo kept_setting insertion_sort (only put_back) w2 /\ fine_disk (w_disk w2) /\
    careful_graph Debug area put_back /\ fine_stream area (g_output put_back) /\
    NoDup (g_ids kept_graph) /\ NoDup (g_ids put_back) /\
    Forall configured (g_nodes kept_graph) /\ Forall configured (g_nodes put_back) /\
    same_part same_readings merged_nodes kept_graph put_back /\ merged_nodes 3 /\
    (forall id n, merged_nodes id -> has_node kept_graph id n -> same_file demo frame0 frame0 (w_disk w1) (w_disk w2) n) /\
    find_index kept_graph 3 = Some 2%nat /\ all_asked kept_graph 2 /\ find_index put_back 3 = Some 2%nat /\ all_asked put_back 2 /\
    determined demo (w_disk w2) frame0 put_back /\
    exists g1' w1' log1 g2' w2' log2,
      execute (recording (node_ops Debug demo)) insertion_sort 99 kept_graph 3 [frame0] (w1, []) = Some (Ok (g1', (w1', log1), ExSuccess)) /\
      Forall (tame Debug demo kept_setting) log1 /\
      execute (recording (node_ops Debug demo)) insertion_sort 99 put_back 3 [frame0] (w2, []) = Some (Ok (g2', (w2', log2), ExSuccess)) /\
      Forall (tame Debug demo kept_setting) log2 /\ hits (w_cache w1') = 0 /\ hits (w_cache w2') = 3 /\ st_data (g_output g2') = BBox 0 0 3 2.
Proof.
  destruct kept_surroundings as (CP & DU & KS). destruct kept_keys as (NC & NZ). destruct kept_fine as (FD & CG & FS).
  split; [exact CP|]. split; [exact DU|]. split; [exact NC|]. split; [exact NZ|]. split; [exact (KS _)|].
  split; [exact area_roomy|]. split; [exact demo_sane|]. split; [exact insertion_sorts|].
  exists (demo_world safe_disk 193600), (snd (fst kept_first)).
  split; [exact kept_built|]. split; [exact (proj2 safe_world)|]. split; [exact kept_careful|]. split; [exact (fine_new area area_roomy)|].
  split; [exact put_back_session|]. split; [exact FD|].
  destruct put_back_fine as (PC & PF). split; [exact PC|]. split; [exact PF|]. clear NC NZ FD CG FS CP DU KS PC PF.
  assert (DK : w_disk (snd (fst kept_first)) = safe_disk) by (vm_compute; reflexivity). rewrite DK.
  destruct put_back_shape as (GK & IK).
  assert (ND : NoDup (g_ids kept_graph)) by (repeat constructor; cbn; intuition discriminate).
  split; [exact ND|]. split; [now rewrite IK|].
  split; [exact kept_configured|].
  split.
  { apply Forall_forall. intros n N. apply In_nth_error in N. destruct N as (i & N).
    destruct (put_back_nodes i n N) as (n0 & N0 & (T & I & A)).
    destruct (proj1 (Forall_forall _ _) kept_configured n0 (nth_error_In _ _ N0)) as (ws & W). exists ws. now rewrite T, I, A. }
  split.
  { assert (NODE : forall i, (i < 3)%nat -> exists n1 n2, has_node kept_graph (nth i [1; 2; 3] 0) n1 /\
       has_node put_back (nth i [1; 2; 3] 0) n2 /\ same_readings n1 n2).
    { intros i L. destruct (nth_error (g_nodes put_back) i) as [n|] eqn:N; [|apply nth_error_None in N; vm_compute in N; lia].
      destruct (put_back_nodes i n N) as (n0 & N0 & (T & I & A)). exists n0, n.
      assert (HI : nth_error (g_ids kept_graph) i = Some (nth i [1; 2; 3] 0) /\ sg_live (g_graph kept_graph) i = true)
        by (destruct i as [|[|[|i]]]; [split; reflexivity|split; reflexivity|split; reflexivity|lia]).
      split; [exists i; tauto|]. split; [exists i; rewrite IK, GK; tauto|].
      apply settings_readings. split; [|split]; now symmetry. }
    constructor.
    - intros id [->|[->| ->]]; [apply (NODE 0%nat)|apply (NODE 1%nat)|apply (NODE 2%nat)]; lia.
    - intros src dst slot _. unfold wire. rewrite IK, GK. tauto.
    - intros src dst slot UD (a & b & A & B & F). unfold merged_nodes. cbn in F.
      destruct F as [F|[F|[F|[]]]]; injection F as <- <- <-; cbn in A; injection A as <-; auto.
    - intros src src' dst slot UD (a & b & A & B & F) (a' & b' & A' & B' & F'). cbn in F, F'.
      assert (a = a'); [|subst a'; congruence].
      destruct F as [F|[F|[F|[]]]], F' as [F'|[F'|[F'|[]]]]; try congruence;
        injection F as <- <- <-; injection F'; intros; subst; cbn in B, B'; congruence. }
  split; [right; now right|].
  split; [intros id n _ _ _ path P; exists path; split; [exact P|split; reflexivity]|].
  split; [reflexivity|].
  assert (ASK : forall g : graph node stream, g_graph g = g_graph kept_graph ->
    (forall i n, nth_error (g_nodes g) i = Some n -> exists n0, nth_error (g_nodes kept_graph) i = Some n0 /\ nd_type n = nd_type n0) -> all_asked g 2).
  { intros g E H i n l _ N IO. rewrite E in IO. apply few_inputs in IO. destruct (H i n N) as (n0 & N0 & ->). clear H N E.
    destruct i as [|[|[|[|i]]]]; try (injection N0 as <-; vm_compute in IO; split; [vm_compute; lia|discriminate]).
    destruct i; discriminate N0. }
  split; [apply ASK; [reflexivity|intros i n N; exists n; auto]|].
  split; [vm_compute; reflexivity|].
  split; [apply ASK; [exact GK|intros i n N; destruct (put_back_nodes i n N) as (n0 & N0 & (T & _)); exists n0; auto]|].
  split.
  { split.
    - intros n a b s FA FB. rewrite GK in FA, FB. cbn in FA, FB.
      destruct FA as [FA|[FA|[FA|[]]]]; injection FA as <- <- <-; destruct FB as [FB|[FB|[FB|[]]]]; congruence.
    - intros i n N. destruct (put_back_nodes i n N) as (n0 & N0 & (T & _ & A)). unfold node_get_i32, node_get_str. rewrite T, A. clear N T A.
      destruct i as [|[|[|[|i]]]]; try (injection N0 as <-; split; [intro X; vm_compute in X; discriminate X|];
        intro X; vm_compute in X; try discriminate X; clear X; intros _ path P; vm_compute in P; injection P as <-; vm_compute; discriminate).
      destruct i; discriminate N0. }
  do 6 eexists. split; [vm_compute; reflexivity|].
  split; [apply all_tame, log_expected; vm_compute; repeat split|].
  split; [exact put_back_run|]. split; [apply all_tame, log_expected; vm_compute; repeat split|].
  split; [vm_compute; reflexivity|]. split; vm_compute; reflexivity.
Qed.

(** Connections are not undone by making the old ones again: a source that was
    replaced may have to be unplugged first. *)
Definition source (id : Z) (path : list Z) : node := setup TRead id [WStr "file_path" path; WI32 "use_cache" 0].
Definition blend : node := setup TMerge 4 [WI32 "use_cache" 0].
Definition plugged : list (gcall node spec_float awrite) :=
  [GAdd (source 1 [97]); GAdd (source 2 [97]); GAdd (source 3 [99]); GAdd (source 5 [99]); GAdd blend; GConnect 1 4 0; GConnect 2 4 1].
Definition replugged : list (gcall node spec_float awrite) := [GConnect 3 4 0; GConnect 5 4 1; GConnect 1 4 0; GConnect 2 4 1].
Definition plugged_nodes : list node := [source 1 [97]; source 2 [97]; source 3 [99]; source 5 [99]; blend].
Definition plugged_graph : graph node stream :=
  Graph plugged_nodes [1; 2; 3; 5; 4] (Stable [true; true; true; true; true] [] [Edge 1 4 1; Edge 0 4 0]) stream_new GsDirty ExUninitialized.
Definition replugged_graph : graph node stream :=
  Graph plugged_nodes [1; 2; 3; 5; 4] (Stable [true; true; true; true; true] [] [Edge 2 4 0; Edge 1 4 1; Edge 0 4 0]) stream_new GsDirty ExUninitialized.
Theorem C111_replug_refuted :
  exists g1 g2 c1 c2 g1' w1 g2' w2,
    GraphSpec.history (node_ops Debug demo) insertion_sort stream_new (demo_world two_disk 4096) plugged g1 c1 /\
    GraphSpec.history (node_ops Debug demo) insertion_sort stream_new (demo_world two_disk 4096) (plugged ++ replugged)%list g2 c2 /\
    NoDup (added (node_ops Debug demo) plugged) /\ g_nodes g1 = g_nodes g2 /\
    (forall src slot, wire g1 src 4 slot <-> src = 1 /\ slot = 0 \/ src = 2 /\ slot = 1) /\ wire g2 3 4 0 /\
    run g1 4 = Some (Ok (g1', w1, ExSuccess)) /\ run g2 4 = Some (Ok (g2', w2, ExSuccess)) /\
    st_block (g_output g1') <> st_block (g_output g2').
Proof.
  exists plugged_graph, replugged_graph, (demo_world two_disk 4096), (demo_world two_disk 4096).
  eexists _, _, _, _.
  split; [apply played_history with (fuel := 99%nat); vm_compute; reflexivity|].
  split; [apply played_history with (fuel := 99%nat); vm_compute; reflexivity|].
  split; [vm_compute; repeat constructor; cbn; intuition discriminate|]. split; [reflexivity|].
  split.
  { intros src slot. unfold wire, feeds. cbn [plugged_graph g_ids g_graph sg_edges In]. split.
    - intros (a & b & A & B & [F|[F|[]]]); injection F as <- <- <-; cbn in A; injection A as <-; auto.
    - intros [(-> & ->)|(-> & ->)]; [exists 0%nat, 4%nat|exists 1%nat, 4%nat]; cbn; auto. }
  split; [exists 2%nat, 4%nat; cbn; auto|].
  split; [vm_compute; reflexivity|]. split; [vm_compute; reflexivity|]. vm_compute. discriminate.
Qed.
Print Assumptions C111_replug_refuted.

(** C107: every writer of a graph writes the composition before it. *)
From Coq Require String.
Import String.StringSyntax.
From Coq Require Import Lia Floats.SpecFloat.
From Verif Require Import Machine CacheModel FloatModel BBoxModel BBoxSpec PixelModel PixelSpec PathModel PathSpec MergeModel MergeSpec EnumModel AttrModel
  HashModel HashSpec HashProofs StreamModel DeformModel BakeModel BakeProofs GraphModel GraphSpec GraphSim GraphWalk GraphHistory GraphFacts AttrProofs NodeModel NodeExamples
  NodeSpec LutSpec LutHistory LutProofs3 ChainSpec RunSpec SafeSpec SafeProofs SafeFacts ShowSpec UncachedSpec ShowProofs SoundSpec ShowCacheProofs ViewSpec FrameModel FrameSpec
  SceneSpec SceneProofs SceneProofs2 AlikeSpec AlikeProofs WriteSpec SceneWrite EachSpec EachProofs PropertiesNode PropertiesSafe PropertiesShow PropertiesSound PropertiesShow2 PropertiesScene PropertiesAlike
  PropertiesWrite.
Local Open Scope string_scope.

(** Executing any node writes, frame by frame, the composition before each of
    the writers it depends on, and no other files. *)
Theorem C107_session : forall D p (x : externals D) (E : setting D),
  clean_paths (x_expand x) -> no_collisions (x_digest x) (SoundSpec.used E) -> digest_u64 (x_digest x) ->
  (forall l, In l (SoundSpec.used E) -> x_digest x l <> 0) -> keeps_sources x E ->
  forall B ok_disk, roomy B -> sane x B ok_disk -> forall srt, sorts srt ->
  forall G w i fuel id start frames g' w' log,
  session p x E srt G w -> ok_disk (w_disk w) -> careful_graph p B (G i) -> fine_stream B (g_output (G i)) ->
  find_index (G i) id = Some start -> all_asked (G i) start ->
  execute (recording (node_ops p x)) srt fuel (G i) id frames (w, []) = Some (Ok (g', (w', log), ExSuccess)) ->
  Forall (tame p x E) log ->
  all_written x (of_writer p x (w_disk w) (G i)) (G i) start frames (w_disk w) (w_disk w').
Proof. exact @each_session. Qed.
Print Assumptions C107_session.

(** When no two of the files share a place, all of them are there at the end. *)
Theorem C107_files : forall D p (x : externals D) (E : setting D),
  clean_paths (x_expand x) -> no_collisions (x_digest x) (SoundSpec.used E) -> digest_u64 (x_digest x) ->
  (forall l, In l (SoundSpec.used E) -> x_digest x l <> 0) -> keeps_sources x E ->
  forall B ok_disk, roomy B -> sane x B ok_disk -> forall srt, sorts srt ->
  forall G w i fuel id start frames g' w' log holds,
  session p x E srt G w -> ok_disk (w_disk w) -> careful_graph p B (G i) -> fine_stream B (g_output (G i)) ->
  find_index (G i) id = Some start -> all_asked (G i) start ->
  execute (recording (node_ops p x)) srt fuel (G i) id frames (w, []) = Some (Ok (g', (w', log), ExSuccess)) ->
  Forall (tame p x E) log -> keeps_files x holds -> own_places (of_writer p x (w_disk w) (G i)) frames ->
  forall fr j nw k, In fr frames -> reaches (g_graph (G i)) j start -> writer (G i) j nw k ->
  exists o, of_writer p x (w_disk w) (G i) fr j o /\ holds (w_disk w') o.
Proof. exact @each_file. Qed.
Print Assumptions C107_files.

(* ------------------------------ an example ------------------------------ *)

(** Two readers, a writer after the first, a merge of that writer and the second
    reader, and another writer after it. *)
(** mid.#.exr *)
Definition mid_path : list Z := [109; 105; 100; 46; 35; 46; 101; 120; 114].
Definition mid_write : node := setup TWrite 5 [WStr "file_path" mid_path; WI32 "execute" 1; WI32 "enable" 1].
Definition each_calls : list (gcall node spec_float awrite) :=
  [GAdd kept_read; GAdd kept_other; GAdd mid_write; GAdd kept_merge; GAdd (out_write 4);
   GConnect 1 5 0; GConnect 5 3 0; GConnect 2 3 1; GConnect 3 4 0].
Definition each_graph : graph node stream := Eval vm_compute in
  match play (graph_new stream_new) each_calls with Some g => g | None => graph_new stream_new end.
Definition each_run := Eval vm_compute in outcome each_graph 4 [frame0; frame1] three_world.
Definition each_keys : list (list Z) := Eval vm_compute in nodup (list_eq_dec Z.eq_dec) (keys_of (snd each_run)).

Lemma mid_wf : HashSpec.wf_block (nd_attrs mid_write).
Proof. apply kept_wf. intros w Q. repeat (destruct Q as [<-|Q]; [cbn; intuition lia|]). destruct Q. Qed.
Definition like_mid (keys : list (list Z)) (q : node * spec_float * list stream) : Prop :=
  let '(n, fr, ins) := q in
  alike n mid_write /\ (fr = frame0 \/ fr = frame1) /\
  exists l, cache_hash_bytes Debug (x_expand demo) (nd_type n) (nd_attrs n) fr (map st_hash ins) = Ok l /\ In l keys.
Lemma mid_tame keys q : like_mid keys q -> tame Debug demo (with_keys keys) q.
Proof.
  destruct q as [[n fr] ins]. intros ((T & A) & F & K).
  unfold tame. cbv zeta. split; [rewrite A; exact mid_wf|]. split; [exact K|]. rewrite T, A. clear K. split; [intros _ _; exact I|].
  intros _ _ path Q. destruct F as [-> | ->]; vm_compute in Q; injection Q as <-; reflexivity.
Qed.
Lemma each_tame : Forall (tame Debug demo (with_keys each_keys)) (snd each_run).
Proof.
  unfold each_run. cbn [snd]. repeat apply Forall_cons; try apply Forall_nil;
    first [apply mid_tame; split; [split; vm_compute; reflexivity|];
             split; [first [left; reflexivity|right; reflexivity]|eexists; split; [vm_compute; reflexivity|vm_compute; tauto]]
          |match goal with |- tame _ _ _ ?q => assert (Q : Forall (usual each_keys) [q]) by usual_log; apply usual_tame in Q; now inversion Q end].
Qed.
Lemma each_nodes i n : nth_error (g_nodes each_graph) i = Some n ->
  (exists n0, In n0 all_nodes /\ alike n n0) \/ alike n mid_write.
Proof.
  intro N. destruct i as [|[|[|[|[|i]]]]];
    [left; exists kept_read|left; exists kept_other|right|left; exists kept_merge|left; exists (out_write 4)|];
    try (vm_compute in N; injection N as <-; first [split; vm_compute; reflexivity|split; [cbn [In all_nodes]; tauto|split; vm_compute; reflexivity]]).
  vm_compute in N. destruct i; discriminate N.
Qed.
Lemma each_careful : careful_graph Debug area each_graph.
Proof.
  intros i n ms N _. destruct (each_nodes i n N) as [(n0 & I0 & T & A)|(T & A)].
  - apply (careful_key Debug area n0); auto. now apply all_careful.
  - apply (careful_key Debug area mid_write); auto. split; [exact mid_wf|]. intros _ _. vm_compute. discriminate.
Qed.
Lemma each_asked : all_asked each_graph 4.
Proof.
  intros i n l _ N IO. apply few_inputs in IO. split.
  - etransitivity; [exact IO|]. destruct i as [|[|[|[|[|i]]]]]; try (vm_compute in N; injection N as <-; vm_compute; lia). vm_compute in N. destruct i; discriminate N.
  - destruct (each_nodes i n N) as [(n0 & I0 & T & _)|(T & _)]; rewrite T; [|discriminate]. destruct I0 as [<-|[<-|[<-|[<-|[<-|[]]]]]]; discriminate.
Qed.
(** The files, and where they are. *)
Definition each_holds (d : disk) (o : order) : Prop := disk_find (place o) d = Some (snd (fst o)).
Lemma demo_keeps : keeps_files demo each_holds.
Proof.
  split.
  - intros d [[path img] co]. unfold each_holds. cbn. now rewrite BakeProofs.bytes_eqb_refl.
  - intros d [[path img] co] [[path' img'] co'] H NE. unfold each_holds in *. cbn in *.
    destruct (bytes_eqb path' path) eqn:Q; [|exact H]. apply BakeProofs.bytes_eqb_true in Q. contradiction.
Qed.
Lemma each_places : own_places (of_writer Debug demo (w_disk three_world) each_graph) [frame0; frame1].
Proof.
  assert (W : forall fr j o, In fr [frame0; frame1] -> of_writer Debug demo (w_disk three_world) each_graph fr j o ->
    In (fr, j, place o) [(frame0, 2%nat, [109; 105; 100; 46; 48; 46; 101; 120; 114]); (frame1, 2%nat, [109; 105; 100; 46; 49; 46; 101; 120; 114]);
                         (frame0, 4%nat, [111; 46; 48; 46; 101; 120; 114]); (frame1, 4%nat, [111; 46; 49; 46; 101; 120; 114])]).
  { intros fr j [[path img] co] F (nw & k & s & (N & T & _) & _ & WR).
    pose proof (wr_path _ _ _ _ _ _ _ _ WR) as P. unfold place. cbn [fst].
    destruct j as [|[|[|[|[|j]]]]]; try (vm_compute in N; injection N as <-; discriminate T); try (vm_compute in N; destruct j; discriminate N);
      vm_compute in N; injection N as <-; destruct F as [<-|[<-|[]]]; vm_compute in P; injection P as <-; vm_compute; tauto. }
  intros fr1 fr2 i1 i2 o1 o2 F1 F2 W1 W2 EP. apply W in W1; [|exact F1]. apply W in W2; [|exact F2]. rewrite EP in W1. clear - W1 W2.
  destruct W1 as [W1|[W1|[W1|[W1|[]]]]]; injection W1 as <- <- W1; rewrite <- W1 in W2;
    destruct W2 as [W2|[W2|[W2|[W2|[]]]]]; try discriminate W2; injection W2 as <- <-; split; reflexivity.
Qed.

(** All conditions hold of executing the last writer for two frames; there are
    two writers it depends on, and four files are written. *)
Example C107_example :
  clean_paths (x_expand demo) /\ no_collisions (x_digest demo) (SoundSpec.used (with_keys each_keys)) /\ digest_u64 (x_digest demo) /\
  (forall l, In l (SoundSpec.used (with_keys each_keys)) -> x_digest demo l <> 0) /\ keeps_sources demo (with_keys each_keys) /\
  roomy area /\ sane demo area fine_disk /\ sorts insertion_sort /\
  session Debug demo (with_keys each_keys) insertion_sort (only each_graph) three_world /\ fine_disk (w_disk three_world) /\
  careful_graph Debug area each_graph /\ fine_stream area (g_output each_graph) /\
  find_index each_graph 4 = Some 4%nat /\ all_asked each_graph 4 /\
  keeps_files demo each_holds /\ own_places (of_writer Debug demo (w_disk three_world) each_graph) [frame0; frame1] /\
  (exists nw, reaches (g_graph each_graph) 2 4 /\ writer each_graph 2 nw 0) /\
  (exists nw, reaches (g_graph each_graph) 4 4 /\ writer each_graph 4 nw 3) /\
  exists g' w' log,
    execute (recording (node_ops Debug demo)) insertion_sort 99 each_graph 4 [frame0; frame1] (three_world, []) = Some (Ok (g', (w', log), ExSuccess)) /\
    Forall (tame Debug demo (with_keys each_keys)) log /\ length (w_disk w') = (length (w_disk three_world) + 4)%nat.
Proof.
  destruct kept_surroundings as (CP & DU & KS).
  split; [exact CP|]. split; [apply collision_check; vm_compute; reflexivity|]. split; [exact DU|].
  split; [intros l IL; unfold with_keys, SoundSpec.used, each_keys in IL; repeat (destruct IL as [<-|IL]; [vm_compute; discriminate|]); destruct IL|].
  split; [exact (KS _)|]. split; [exact area_roomy|]. split; [exact demo_sane|]. split; [exact insertion_sorts|].
  split; [apply (play_session (with_keys each_keys) three_world) with (l := each_calls); [intros path _; now split|reflexivity|vm_compute; reflexivity]|].
  split; [exact (proj2 safe_world)|]. split; [exact each_careful|]. split; [exact (fine_new area area_roomy)|]. split; [vm_compute; reflexivity|].
  split; [exact each_asked|]. split; [exact demo_keeps|]. split; [exact each_places|].
  split.
  { eexists. split.
    - exists 2%nat. apply (up_step _ _ _ 3); [|exists 0; vm_compute; tauto]. apply (up_step _ _ _ 4); [constructor|exists 0; vm_compute; tauto].
    - split; [vm_compute; reflexivity|]. split; [vm_compute; reflexivity|]. split; [vm_compute; discriminate|]. split; [vm_compute; discriminate|].
      apply (order_one _ 2 0 0); [vm_compute; reflexivity|discriminate]. }
  split.
  { eexists. split; [exists 0%nat; constructor|].
    split; [vm_compute; reflexivity|]. split; [vm_compute; reflexivity|]. split; [vm_compute; discriminate|]. split; [vm_compute; discriminate|].
    apply (order_one _ 4 3 0); [vm_compute; reflexivity|discriminate]. }
  exists (fst (fst each_run)), (snd (fst each_run)), (snd each_run).
  split; [vm_compute; reflexivity|]. split; [exact each_tame|vm_compute; reflexivity].
Qed.

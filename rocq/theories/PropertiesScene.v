(** C104: executing a graph shows the composition its nodes describe. *)
From Coq Require String.
Import String.StringSyntax.
From Coq Require Import Floats.SpecFloat.
From Verif Require Import Machine CacheModel FloatModel BBoxModel BBoxSpec PixelModel PixelSpec MergeModel MergeSpec EnumModel AttrModel
  HashModel HashSpec HashProofs StreamModel DeformModel BakeModel BakeProofs GraphModel GraphSpec GraphSim GraphWalk GraphHistory GraphFacts AttrProofs NodeModel NodeExamples
  NodeSpec LutSpec LutHistory LutProofs3 ChainSpec RunSpec SafeSpec SafeProofs SafeFacts ShowSpec UncachedSpec ShowProofs SoundSpec ShowCacheProofs ViewSpec
  SceneSpec SceneProofs SceneProofs2 PropertiesNode PropertiesSafe PropertiesShow PropertiesSound PropertiesShow2.
Local Open Scope string_scope.

(** In any session whose computations are tame (C54), if every contributing node
    is asked for its picture, a successful execution shows the composition that
    the nodes describe, of the files as they were when it began: whatever the
    image cache holds, whichever graphs were executed before, in whatever order
    nodes are computed, and however often a node is used. *)
Theorem C104_session : forall D p (x : externals D) (E : setting D),
  clean_paths (x_expand x) -> no_collisions (x_digest x) (SoundSpec.used E) -> digest_u64 (x_digest x) ->
  (forall l, In l (SoundSpec.used E) -> x_digest x l <> 0) -> keeps_sources x E ->
  forall B ok_disk, roomy B -> sane x B ok_disk -> forall srt, sorts srt ->
  forall G w i fuel id start frames fr g' w' log,
  session p x E srt G w -> ok_disk (w_disk w) -> careful_graph p B (G i) -> fine_stream B (g_output (G i)) ->
  find_index (G i) id = Some start -> all_asked (G i) start ->
  execute (recording (node_ops p x)) srt fuel (G i) id (frames ++ [fr])%list (w, []) = Some (Ok (g', (w', log), ExSuccess)) ->
  Forall (tame p x E) log ->
  scene p x (w_disk w) fr (G i) start (g_output g').
Proof. exact @scene_session. Qed.
Print Assumptions C104_session.

(** A graph describes one composition. *)
Theorem C104_unique : forall D p (x : externals D) d fr (g : graph node stream) i v v', determined x d fr g ->
  scene p x d fr g i v -> scene p x d fr g i v' -> looks_like v v'.
Proof. exact @scene_unique. Qed.
Print Assumptions C104_unique.

(* ------------------------------ a graph ------------------------------ *)

(** There are no more inputs than connections. *)
Lemma few_inputs g i l : inputs_in_slot_order g i l ->
  (length l <= length (filter (fun e => Nat.eqb (e_dst e) i) (sg_edges g)))%nat.
Proof.
  intros (ND & IN & _). rewrite <- (map_length e_src). apply NoDup_incl_length; [exact ND|]. intros m IM.
  apply IN in IM. destruct IM as ((s & F) & _). apply in_map_iff. exists (Edge m i s). split; [reflexivity|].
  apply filter_In. split; [exact F|]. cbn. apply Nat.eqb_refl.
Qed.

(** Two readers, a merge and a crop, all using the cache and all executed
    before (see C66): all conditions hold, and everything comes from the
    cache. *)
Example C104_session_example :
  clean_paths (x_expand demo) /\ no_collisions (x_digest demo) (SoundSpec.used kept_setting) /\ digest_u64 (x_digest demo) /\
  (forall l, In l (SoundSpec.used kept_setting) -> x_digest demo l <> 0) /\ keeps_sources demo kept_setting /\
  roomy area /\ sane demo area fine_disk /\ sorts insertion_sort /\
  exists g w, session Debug demo kept_setting insertion_sort (only g) w /\ fine_disk (w_disk w) /\
    careful_graph Debug area g /\ fine_stream area (g_output g) /\ find_index g 4 = Some 3%nat /\
    all_asked g 3 /\ determined demo (w_disk w) frame0 g /\ map nd_type (g_nodes g) = [TRead; TRead; TMerge; TCrop] /\
    exists g' w' log, execute (recording (node_ops Debug demo)) insertion_sort 99 g 4 [frame0] (w, []) = Some (Ok (g', (w', log), ExSuccess)) /\
       Forall (tame Debug demo kept_setting) log /\ hits (w_cache w') = 4 /\ st_data (g_output g') = BBox 1 0 5 5.
Proof.
  destruct kept_surroundings as (CP & DU & KS). destruct kept_keys as (NC & NZ). destruct kept_fine as (FD & CG & FS).
  split; [exact CP|]. split; [exact NC|]. split; [exact DU|]. split; [exact NZ|]. split; [exact (KS _)|].
  split; [exact area_roomy|]. split; [exact demo_sane|]. split; [exact insertion_sorts|].
  exists (fst (fst kept_first)), (snd (fst kept_first)).
  split; [exact kept_session|]. split; [exact FD|]. split; [exact CG|]. split; [exact FS|]. clear.
  split; [vm_compute; reflexivity|].
  split.
  { intros i n l _ N IO. apply few_inputs in IO.
    destruct i as [|[|[|[|i]]]]; try (vm_compute in N; injection N as <-; vm_compute in IO; split; [exact IO|discriminate]).
    - vm_compute in N, IO. injection N as <-. split; [etransitivity; [exact IO|apply le_S, le_n]|discriminate].
    - vm_compute in N, IO. injection N as <-. split; [etransitivity; [exact IO|apply le_S, le_n]|discriminate].
    - vm_compute in N. destruct i; discriminate N. }
  split.
  { split.
    - intros n a b s FA FB. vm_compute in FA, FB.
      destruct FA as [FA|[FA|[FA|[]]]]; injection FA as <- <- <-; destruct FB as [FB|[FB|[FB|[]]]]; congruence.
    - intros i n N. destruct i as [|[|[|[|i]]]]; try (vm_compute in N; injection N as <-; split; [discriminate|]; intros _ _ path P;
        vm_compute in P; injection P as <-; vm_compute; discriminate); try (vm_compute in N; injection N as <-; split; discriminate).
      vm_compute in N. destruct i; discriminate N. }
  split; [vm_compute; reflexivity|].
  do 3 eexists. split; [vm_compute; reflexivity|].
  split; [apply all_tame, log_expected; vm_compute; repeat split|]. split; vm_compute; reflexivity.
Qed.

(* ---------------------- inputs that are not used ---------------------- *)

(** A merge of two pictures, each through a null node, with the first picture
    also connected to the third slot. *)
Definition pass1 : node := setup TNull 3 [].
Definition pass2 : node := setup TNull 4 [].
Definition three_merge : node := setup TMerge 5 [].
Definition three_nodes : list node := [kept_read; kept_other; pass1; pass2; three_merge].
Definition three_edges : list edge := [Edge 0 4 2; Edge 3 4 1; Edge 2 4 0; Edge 1 3 0; Edge 0 2 0].
Definition three_part (k e : nat) : graph node stream :=
  Graph (firstn k three_nodes) (firstn k [1; 2; 3; 4; 5]) (Stable (firstn k [true; true; true; true; true]) [] (skipn e three_edges))
    stream_new GsDirty ExUninitialized.
Definition three_graph : graph node stream := Eval vm_compute in three_part 5 0.
Definition three_world : world disk := demo_world safe_disk 193600.

Definition three_result := Eval vm_compute in
  execute (recording (node_ops Debug demo)) insertion_sort 99 three_graph 5 [frame0] (three_world, []).
Definition three_log : list (node * spec_float * list stream) := Eval vm_compute in
  match three_result with Some (Ok (_, (_, log), _)) => log | _ => [] end.
Definition three_keys : list (list Z) := Eval vm_compute in
  map (fun q : node * spec_float * list stream => let '(n, fr, ins) := q in key_of n (map st_hash ins)) three_log.
Definition three_setting : setting disk :=
  Setting three_keys (fun q => bytes_eqb [97] q || bytes_eqb [98] q) safe_disk 0.

Lemma three_wf n : In n three_nodes -> HashSpec.wf_block (nd_attrs n).
Proof.
  intros [<-|[<-|[<-|[<-|[<-|[]]]]]]; apply kept_wf; [intros w [<-|[]] c [<-|[]]; lia|intros w [<-|[]] c [<-|[]]; lia| | |]; intros w [].
Qed.
Lemma three_tame : Forall (tame Debug demo three_setting) three_log.
Proof.
  assert (Q : Forall (fun q : node * spec_float * list stream => let '(n, fr, ins) := q in
    (exists n0, In n0 three_nodes /\ alike n n0) /\ fr = frame0 /\
    cache_hash_bytes Debug (x_expand demo) (nd_type n) (nd_attrs n) fr (map st_hash ins) = Ok (key_of n (map st_hash ins)) /\
    In (key_of n (map st_hash ins)) three_keys) three_log).
  { assert (K : forall k n, nth_error three_nodes k = Some n -> In n three_nodes) by (intros k n; apply nth_error_In).
    unfold three_log. repeat apply Forall_cons; try apply Forall_nil.
    - split; [exists kept_read; split; [now apply (K 0%nat)|split; vm_compute; reflexivity]|]. split; [reflexivity|]. split; [vm_compute; reflexivity|]. vm_compute. tauto.
    - split; [exists kept_other; split; [now apply (K 1%nat)|split; vm_compute; reflexivity]|]. split; [reflexivity|]. split; [vm_compute; reflexivity|]. vm_compute. tauto.
    - split; [exists kept_read; split; [now apply (K 0%nat)|split; vm_compute; reflexivity]|]. split; [reflexivity|]. split; [vm_compute; reflexivity|]. vm_compute. tauto.
    - split; [exists pass2; split; [now apply (K 3%nat)|split; vm_compute; reflexivity]|]. split; [reflexivity|]. split; [vm_compute; reflexivity|]. vm_compute. tauto.
    - split; [exists pass1; split; [now apply (K 2%nat)|split; vm_compute; reflexivity]|]. split; [reflexivity|]. split; [vm_compute; reflexivity|]. vm_compute. tauto.
    - split; [exists three_merge; split; [now apply (K 4%nat)|split; vm_compute; reflexivity]|]. split; [reflexivity|]. split; [vm_compute; reflexivity|]. vm_compute. tauto. }
  revert Q. apply Forall_impl. intros [[n fr] ins] ((n0 & I0 & T & A) & -> & K & KI).
  unfold tame. cbv zeta. split; [rewrite A; exact (three_wf _ I0)|]. split; [eexists; split; [exact K|exact KI]|]. rewrite T, A. clear K KI.
  destruct I0 as [<-|[<-|[<-|[<-|[<-|[]]]]]]; (split; [intros _ _; exact I|]).
  - right. split; [reflexivity|]. intros path Q. vm_compute in Q. injection Q as <-. reflexivity.
  - right. split; [reflexivity|]. intros path Q. vm_compute in Q. injection Q as <-. reflexivity.
  - exact I.
  - exact I.
  - exact I.
Qed.

Lemma three_building keys : let E := Setting keys (fun q => bytes_eqb [97] q || bytes_eqb [98] q) safe_disk 0 in
  session Debug demo E insertion_sort (only (three_part 5 1)) three_world /\
  session Debug demo E insertion_sort (only three_graph) three_world.
Proof.
  intro E. assert (ONE : forall g w call g' w', session Debug demo E insertion_sort (only g) w ->
    calls (recording (node_ops Debug demo)) insertion_sort g (w, []) call g' (w', []) -> session Debug demo E insertion_sort (only g') w').
  { intros g w call g' w' S C. apply (ss_call Debug demo E insertion_sort (only g) w 0 call g' w' []) with (1 := S) (2 := C);
      [apply Forall_nil|reflexivity|intros [|j] H; [easy|reflexivity]]. }
  assert (ADD : forall n g g', session Debug demo E insertion_sort (only g) three_world ->
     (exists j, add_node (node_ops Debug demo) g n = Ok (g', j)) -> session Debug demo E insertion_sort (only g') three_world).
  { intros n g g' S X. refine (ONE _ _ (GAdd n) _ _ S _). split; [reflexivity|exact X]. }
  assert (CON : forall a b k g g', session Debug demo E insertion_sort (only g) three_world ->
     connect g a b k = Ok g' -> session Debug demo E insertion_sort (only g') three_world).
  { intros a b k g g' S X. refine (ONE _ _ (GConnect a b k) _ _ S _). split; [reflexivity|exact X]. }
  assert (S : session Debug demo E insertion_sort (only (three_part 5 1)) three_world).
  { apply (CON 4 5 1 (three_part 5 2)); [|vm_compute; reflexivity].
    apply (CON 3 5 0 (three_part 5 3)); [|vm_compute; reflexivity].
    apply (CON 2 4 0 (three_part 5 4)); [|vm_compute; reflexivity].
    apply (CON 1 3 0 (three_part 5 5)); [|vm_compute; reflexivity].
    apply (ADD three_merge (three_part 4 5)); [|eexists; vm_compute; reflexivity].
    apply (ADD pass2 (three_part 3 5)); [|eexists; vm_compute; reflexivity].
    apply (ADD pass1 (three_part 2 5)); [|eexists; vm_compute; reflexivity].
    apply (ADD kept_other (three_part 1 5)); [|eexists; vm_compute; reflexivity].
    apply (ADD kept_read (graph_new stream_new)); [|eexists; vm_compute; reflexivity].
    assert (X : session Debug demo E insertion_sort (fun _ => graph_new stream_new) three_world)
      by (apply ss_start; intros path _; now split).
    refine (ss_call Debug demo E insertion_sort _ _ 0 (GDisconnect 1 0) _ _ [] _ X _ (Forall_nil _) eq_refl _).
    - split; reflexivity.
    - intros [|j] H; [easy|reflexivity]. }
  split; [exact S|]. change three_graph with (three_part 5 0).
  apply (CON 1 5 2 (three_part 5 1)); [exact S|vm_compute; reflexivity].
Qed.
Lemma three_session : session Debug demo three_setting insertion_sort (only three_graph) three_world.
Proof. exact (proj2 (three_building three_keys)). Qed.

Lemma three_careful : careful_graph Debug area three_graph.
Proof.
  intros i n ms N _. assert (I : In n three_nodes) by (apply nth_error_In in N; exact N).
  split; [exact (three_wf _ I)|]. destruct I as [<-|[<-|[<-|[<-|[<-|[]]]]]]; exact Logic.I.
Qed.
Lemma three_determined : determined demo safe_disk frame0 three_graph.
Proof.
  split.
  - intros n a b s FA FB. cbn in FA, FB.
    destruct FA as [FA|[FA|[FA|[FA|[FA|[]]]]]]; injection FA as <- <- <-; destruct FB as [FB|[FB|[FB|[FB|[FB|[]]]]]]; congruence.
  - intros i n N. assert (I : In n three_nodes) by (apply nth_error_In in N; exact N).
    destruct I as [<-|[<-|[<-|[<-|[<-|[]]]]]]; split; try discriminate; intros _ _ path P; vm_compute in P; injection P as <-; vm_compute; discriminate.
Qed.

(** What the graph describes. *)
Definition shown_by (n : node) (ins : list stream) : stream := 
  match node_compute Debug demo n frame0 mode_all ins stream_new (no_cache safe_disk) with Ok (_, _, v, _) => v | Panic => stream_new end.
Definition seen1 : stream := Eval vm_compute in shown_by kept_read [].
Definition seen2 : stream := Eval vm_compute in shown_by kept_other [].
Definition seen5 : stream := Eval vm_compute in shown_by three_merge [seen1; seen2; seen1].

Lemma seen_fine : fine_stream area seen1 /\ fine_stream area seen2.
Proof.
  destruct safe_world as (_ & FD). pose proof (sane_read _ _ _ demo_sane safe_disk) as RD. split.
  - destruct (RD [97] FD eq_refl) as (A & B). split; [exact A|split; [exact B|intros d []]].
  - destruct (RD [98] FD eq_refl) as (A & B). split; [exact A|split; [exact B|intros d []]].
Qed.
Lemma three_scene : scene Debug demo safe_disk frame0 three_graph 4 seen5.
Proof.
  destruct seen_fine as (F1 & F2).
  assert (STEP : forall i n ins v, nth_error three_nodes i = Some n -> nd_type n <> TViewer -> Forall (fine_stream area) ins ->
     (exists n' w', node_compute Debug demo n frame0 mode_all ins stream_new (no_cache safe_disk) = Ok (n', NsValid, v, w')) ->
     does Debug demo safe_disk frame0 n ins v).
  { intros i n ins v N NV FI (n' & w' & H). apply nth_error_In in N.
    refine (node_does Debug demo area fine_disk area_roomy demo_sane n frame0 mode_all ins stream_new (no_cache safe_disk) n' NsValid v w' _ FI _ _ _ H (or_introl eq_refl)).
    - split; [exact (three_wf _ N)|]. destruct N as [<-|[<-|[<-|[<-|[<-|[]]]]]]; exact I.
    - split; reflexivity.
    - discriminate.
    - intro T. now apply NV in T. }
  assert (ORD : forall i l, NoDup l -> (forall m, In m l <-> link (g_graph three_graph) m i /\ m <> i) ->
     (forall l1 a l2 b l3, l = (l1 ++ a :: l2 ++ b :: l3)%list -> forall sa sb, feeds (g_graph three_graph) a i sa -> feeds (g_graph three_graph) b i sb -> sa <= sb) ->
     inputs_in_slot_order (g_graph three_graph) i l) by (intros; split; auto).
  assert (S1 : scene Debug demo safe_disk frame0 three_graph 0 seen1).
  { apply (scene_node _ _ _ _ three_graph 0 kept_read [] []); [reflexivity| |constructor|].
    - apply ORD; [constructor| |intros [|] a l2 b l3 Q; discriminate Q]. intro m. split; [intros []|]. intros ((s & F) & _). cbn in F.
      destruct F as [F|[F|[F|[F|[F|[]]]]]]; discriminate F.
    - apply (STEP 0%nat); [reflexivity|discriminate|constructor|]. do 2 eexists. vm_compute. reflexivity. }
  assert (S2 : scene Debug demo safe_disk frame0 three_graph 1 seen2).
  { apply (scene_node _ _ _ _ three_graph 1 kept_other [] []); [reflexivity| |constructor|].
    - apply ORD; [constructor| |intros [|] a l2 b l3 Q; discriminate Q]. intro m. split; [intros []|]. intros ((s & F) & _). cbn in F.
      destruct F as [F|[F|[F|[F|[F|[]]]]]]; discriminate F.
    - apply (STEP 1%nat); [reflexivity|discriminate|constructor|]. do 2 eexists. vm_compute. reflexivity. }
  assert (S3 : scene Debug demo safe_disk frame0 three_graph 2 seen1).
  { apply (scene_node _ _ _ _ three_graph 2 pass1 [0%nat] [seen1]); [reflexivity| |repeat constructor; exact S1|].
    - apply ORD; [repeat constructor; intros []| |intros [|? [|]] a [|] b l3 Q; discriminate Q]. intro m. split.
      + intros [<-|[]]. split; [exists 0; cbn; tauto|discriminate].
      + intros ((s & F) & _). cbn in F. destruct F as [F|[F|[F|[F|[F|[]]]]]]; try discriminate F. injection F as <- _. now left.
    - apply (STEP 2%nat); [reflexivity|discriminate|repeat constructor; apply F1|]. do 2 eexists. vm_compute. reflexivity. }
  assert (S4 : scene Debug demo safe_disk frame0 three_graph 3 seen2).
  { apply (scene_node _ _ _ _ three_graph 3 pass2 [1%nat] [seen2]); [reflexivity| |repeat constructor; exact S2|].
    - apply ORD; [repeat constructor; intros []| |intros [|? [|]] a [|] b l3 Q; discriminate Q]. intro m. split.
      + intros [<-|[]]. split; [exists 0; cbn; tauto|discriminate].
      + intros ((s & F) & _). cbn in F. destruct F as [F|[F|[F|[F|[F|[]]]]]]; try discriminate F. injection F as <- _. now left.
    - apply (STEP 3%nat); [reflexivity|discriminate|repeat constructor; apply F2|]. do 2 eexists. vm_compute. reflexivity. }
  apply (scene_node _ _ _ _ three_graph 4 three_merge [2%nat; 3%nat; 0%nat] [seen1; seen2; seen1]);
    [reflexivity| |constructor; [exact S3|constructor; [exact S4|constructor; [exact S1|constructor]]]|].
  - apply ORD.
    + repeat constructor; cbn; intuition congruence.
    + intro m. split.
      * intros [<-|[<-|[<-|[]]]]; (split; [|discriminate]); [exists 0|exists 1|exists 2]; cbn; tauto.
      * intros ((s & F) & _). cbn in F. destruct F as [F|[F|[F|[F|[F|[]]]]]]; try discriminate F; injection F as <- _; cbn; tauto.
    + intros l1 a l2 b l3 Q sa sb FA FB. cbn in FA, FB.
      assert (P : a = 2%nat /\ b = 3%nat \/ a = 2%nat /\ b = 0%nat \/ a = 3%nat /\ b = 0%nat).
      { destruct l1 as [|q1 [|q2 [|q3 l1]]]; cbn in Q.
        - injection Q as <- Q. destruct l2 as [|r1 [|r2 l2]]; cbn in Q; injection Q; [intros _ <-; tauto|intros _ <- _; tauto|destruct l2; discriminate].
        - injection Q as _ <- Q. destruct l2 as [|r1 l2]; cbn in Q; injection Q; [intros _ <-; tauto|destruct l2; discriminate].
        - injection Q as _ _ _ Q. destruct l2; discriminate Q.
        - injection Q as _ _ _ Q. destruct l1; discriminate Q. }
      destruct P as [(-> & ->)|[(-> & ->)|(-> & ->)]];
        destruct FA as [FA|[FA|[FA|[FA|[FA|[]]]]]]; try discriminate FA; injection FA as <-;
        destruct FB as [FB|[FB|[FB|[FB|[FB|[]]]]]]; try discriminate FB; injection FB as <-; lia.
  - apply (STEP 4%nat); [reflexivity|discriminate|repeat constructor; apply seen_fine|]. do 2 eexists. vm_compute. reflexivity.
Qed.

(** Without the condition on inputs the claim is false: connecting a picture also
    to a slot the node does not use makes the node show another picture in
    its place. *)
Theorem C104_unused_input_refuted : exists (x : externals disk) E B ok_disk srt G w id start fr g' w' log,
  clean_paths (x_expand x) /\ no_collisions (x_digest x) (SoundSpec.used E) /\ digest_u64 (x_digest x) /\
  (forall l, In l (SoundSpec.used E) -> x_digest x l <> 0) /\ keeps_sources x E /\
  roomy B /\ sane x B ok_disk /\ sorts srt /\ session Debug x E srt G w /\ ok_disk (w_disk w) /\ careful_graph Debug B (G 0%nat) /\
  fine_stream B (g_output (G 0%nat)) /\ find_index (G 0%nat) id = Some start /\ determined x (w_disk w) fr (G 0%nat) /\
  execute (recording (node_ops Debug x)) srt 99 (G 0%nat) id [fr] (w, []) = Some (Ok (g', (w', log), ExSuccess)) /\
  Forall (tame Debug x E) log /\
  ~ scene Debug x (w_disk w) fr (G 0%nat) start (g_output g').
Proof.
  destruct kept_surroundings as (CP & DU & KS).
  exists demo, three_setting, area, fine_disk, insertion_sort, (only three_graph), three_world, 5, 4%nat, frame0.
  destruct three_result as [[[[g' [w' log]] e]|]|] eqn:E; try (exfalso; revert E; vm_compute; discriminate).
  assert (Q : log = three_log /\ e = ExSuccess /\ st_data (g_output g') = BBox 1 1 3 2).
  { unfold three_result in E. injection E as <- <- <- <-. repeat split. }
  destruct Q as (-> & -> & SD). exists g', w', three_log.
  split; [exact CP|]. split; [apply collision_check; vm_compute; reflexivity|]. split; [exact DU|].
  split; [intros l IL; unfold three_setting, SoundSpec.used, three_keys in IL; repeat (destruct IL as [<-|IL]; [vm_compute; discriminate|]); destruct IL|].
  split; [exact (KS _)|]. split; [exact area_roomy|]. split; [exact demo_sane|]. split; [exact insertion_sorts|].
  split; [exact three_session|]. split; [exact (proj2 safe_world)|]. split; [exact three_careful|]. split; [exact (fine_new area area_roomy)|].
  split; [reflexivity|]. split; [exact three_determined|]. split; [rewrite <- E; vm_compute; reflexivity|]. split; [exact three_tame|].
  intro SC. pose proof (scene_unique Debug demo safe_disk frame0 three_graph 4 _ _ three_determined SC three_scene) as ((_ & _ & L & _) & _).
  rewrite SD in L. revert L. vm_compute. discriminate.
Qed.
Print Assumptions C104_unused_input_refuted.

(** C66, C67 for merges and crops that use the image cache. *)
From Coq Require String.
Import String.StringSyntax.
From Coq Require Import Floats.SpecFloat.
From Verif Require Import Machine CacheModel FloatModel BBoxModel BBoxSpec PixelModel PixelSpec MergeModel MergeSpec EnumModel AttrModel
  HashModel HashSpec HashProofs StreamModel DeformModel BakeModel BakeProofs GraphModel GraphSpec GraphSim GraphWalk GraphHistory GraphFacts AttrProofs NodeModel NodeExamples
  NodeSpec LutSpec LutHistory LutProofs3 ChainSpec RunSpec SafeSpec SafeProofs SafeFacts ShowSpec UncachedSpec ShowProofs SoundSpec ShowCacheProofs
  PropertiesNode PropertiesSafe PropertiesShow PropertiesSound.
Local Open Scope string_scope.

(** A fine world in which nothing is kept. *)
Definition keeping_nothing {D} p B (ok_disk : D -> Prop) (w : world D) : Prop := fine_world p B ok_disk w /\ uncached w.

(** In any session whose computations are tame (C54), executing an enabled merge
    shows its first input, flattened, put on its second, flattened, whether or
    not it uses the image cache and whatever the cache holds.  The inputs are
    those made without a cache. *)
Theorem C66_session : forall D p (x : externals D) (E : setting D),
  clean_paths (x_expand x) -> no_collisions (x_digest x) (SoundSpec.used E) -> digest_u64 (x_digest x) ->
  (forall l, In l (SoundSpec.used E) -> x_digest x l <> 0) -> keeps_sources x E ->
  forall B ok_disk, roomy B -> sane x B ok_disk -> forall srt, sorts srt ->
  forall G w i fuel id start n frames fr g' w' log m,
  session p x E srt G w -> ok_disk (w_disk w) -> careful_graph p B (G i) -> fine_stream B (g_output (G i)) ->
  find_index (G i) id = Some start -> nth_error (g_nodes (G i)) start = Some n -> nd_type n = TMerge ->
  node_get_i32 n "enable" = 1 -> selects (node_get_i32 n "mode") m ->
  (exists k, link (g_graph (G i)) k start /\ k <> start) ->
  execute (recording (node_ops p x)) srt fuel (G i) id (frames ++ [fr])%list (w, []) = Some (Ok (g', (w', log), ExSuccess)) ->
  Forall (tame p x E) log ->
  exists inputs a rest ma sa wa wa' sb A C,
    (forall j, inputs_in_slot_order (g_graph (G i)) j (inputs j)) /\ inputs start = a :: rest /\
    made (node_ops p x) node_key (keeping_nothing p B ok_disk) (fine_stream B) (g_nodes (G i)) inputs fr start a ma sa wa wa' /\
    match rest with
    | [] => sb = stream_new
    | b :: _ => exists mb wb wb',
        made (node_ops p x) node_key (keeping_nothing p B ok_disk) (fine_stream B) (g_nodes (G i)) inputs fr start b mb sb wb wb'
    end /\
    flattened p x sa A /\ flattened p x sb C /\ ShowSpec.nothing_pending (g_output g') /\
    merged m (f32_of_bits (node_get_f32 n "mix")) A C (picture (g_output g')) /\ st_spec (g_output g') = spec_new.
Proof. exact @merge_session. Qed.
Print Assumptions C66_session.

(** So does executing an enabled crop. *)
Theorem C67_session : forall D p (x : externals D) (E : setting D),
  clean_paths (x_expand x) -> no_collisions (x_digest x) (SoundSpec.used E) -> digest_u64 (x_digest x) ->
  (forall l, In l (SoundSpec.used E) -> x_digest x l <> 0) -> keeps_sources x E ->
  forall B ok_disk, roomy B -> sane x B ok_disk -> forall srt, sorts srt ->
  forall G w i fuel id start n frames fr g' w' log,
  session p x E srt G w -> ok_disk (w_disk w) -> careful_graph p B (G i) -> fine_stream B (g_output (G i)) ->
  find_index (G i) id = Some start -> nth_error (g_nodes (G i)) start = Some n -> nd_type n = TCrop ->
  node_get_i32 n "enable" = 1 ->
  (exists k, link (g_graph (G i)) k start /\ k <> start) ->
  execute (recording (node_ops p x)) srt fuel (G i) id (frames ++ [fr])%list (w, []) = Some (Ok (g', (w', log), ExSuccess)) ->
  Forall (tame p x E) log ->
  exists inputs a rest ma s wa wa' A,
    (forall j, inputs_in_slot_order (g_graph (G i)) j (inputs j)) /\ inputs start = a :: rest /\
    made (node_ops p x) node_key (keeping_nothing p B ok_disk) (fine_stream B) (g_nodes (G i)) inputs fr start a ma s wa wa' /\
    flattened p x s A /\ ShowSpec.nothing_pending (g_output g') /\
    cut A (BBox (node_get_i32 n "window_min_x") (node_get_i32 n "window_min_y") (node_get_i32 n "window_max_x") (node_get_i32 n "window_max_y"))
        (picture (g_output g')) /\
    st_display (g_output g') = (if node_get_i32 n "reformat" =? 1 then st_data (g_output g') else st_display s) /\
    st_spec (g_output g') = st_spec s.
Proof. exact @crop_session. Qed.
Print Assumptions C67_session.

(* ------------------------------ a session ------------------------------ *)

(** Two readers, a merge and a crop, all using the cache. *)
Definition kept_read : node := setup TRead 1 [WStr "file_path" [97]].
Definition kept_other : node := setup TRead 2 [WStr "file_path" [98]].
Definition kept_merge : node := setup TMerge 3 [].
Definition kept_crop : node := setup TCrop 4 [WI32 "window_min_x" 1; WI32 "window_max_x" 5; WI32 "window_max_y" 5].
Definition key_of (n : node) (ins : list Z) : list Z :=
  match cache_hash_bytes Debug (x_expand demo) (nd_type n) (nd_attrs n) frame0 ins with Ok l => l | Panic => [] end.
Definition kb1 : list Z := key_of kept_read [].
Definition kb2 : list Z := key_of kept_other [].
Definition kb3 : list Z := key_of kept_merge [demo_digest kb1; demo_digest kb2].
Definition kb4 : list Z := key_of kept_crop [demo_digest kb3].
Definition kept_setting : setting disk :=
  Setting [kb1; kb2; kb3; kb4] (fun q => bytes_eqb [97] q || bytes_eqb [98] q) safe_disk 0.

Definition kept_graph : graph node stream :=
  Graph [kept_read; kept_other; kept_merge; kept_crop] [1; 2; 3; 4]
    (Stable [true; true; true; true] [] [Edge 2 3 0; Edge 1 2 1; Edge 0 2 0]) stream_new GsDirty ExUninitialized.
Definition kept_calls : list (gcall node spec_float awrite) :=
  [GAdd kept_read; GAdd kept_other; GAdd kept_merge; GAdd kept_crop; GConnect 1 3 0; GConnect 2 3 1; GConnect 3 4 0].
Definition kept_run (id : Z) (g : graph node stream) (w : world disk) :=
  match execute (recording (node_ops Debug demo)) insertion_sort 99 g id [frame0] (w, []) with
  | Some (Ok (g, (w, log), _)) => (g, w, log)
  | _ => (g, w, [])
  end.
Definition kept_first := kept_run 4 kept_graph (demo_world safe_disk 193600).
Definition only (g : graph node stream) (j : nat) : graph node stream := match j with O => g | _ => graph_new stream_new end.
Definition alike (n n0 : node) : Prop := nd_type n = nd_type n0 /\ nd_attrs n = nd_attrs n0.

Lemma kept_wf t id ws : (forall w, In w ws -> ok_write w) -> HashSpec.wf_block (nd_attrs (setup t id ws)).
Proof. intro H. unfold setup. apply setup_wf; [apply default_wf|exact H]. Qed.

(** A computation of one of the four nodes is tame. *)
Definition expected (q : node * spec_float * list stream) : Prop :=
  let '(n, fr, ins) := q in
  fr = frame0 /\
  (alike n kept_read /\ ins = [] \/ alike n kept_other /\ ins = [] \/
   alike n kept_merge /\ map st_hash ins = [demo_digest kb1; demo_digest kb2] \/
   alike n kept_crop /\ map st_hash ins = [demo_digest kb3] /\ NodeSpec.nothing_pending (fst (first_input ins))).
Lemma expected_tame q : expected q -> tame Debug demo kept_setting q.
Proof.
  destruct q as [[n fr] ins]. intros (-> & [((T & A) & ->)|[((T & A) & ->)|[((T & A) & H)|((T & A) & H & P)]]]);
    unfold tame; cbv zeta; rewrite T, A; cbn [map]; rewrite ?H.
  - split; [apply kept_wf; intros w [<-|[]] c [<-|[]]; lia|].
    split; [exists kb1; split; [vm_compute; reflexivity|now left]|].
    split; [intros _ _; exact I|]. right. split; [reflexivity|]. intros path Q. vm_compute in Q. injection Q as <-. reflexivity.
  - split; [apply kept_wf; intros w [<-|[]] c [<-|[]]; lia|].
    split; [exists kb2; split; [vm_compute; reflexivity|right; now left]|].
    split; [intros _ _; exact I|]. right. split; [reflexivity|]. intros path Q. vm_compute in Q. injection Q as <-. reflexivity.
  - split; [apply kept_wf; intros w []|].
    split; [exists kb3; split; [vm_compute; reflexivity|right; right; now left]|].
    split; [intros _ _; exact I|exact I].
  - split; [apply kept_wf; intros w Q; repeat (destruct Q as [<-|Q]; [cbn; lia|]); destruct Q|].
    split; [exists kb4; split; [vm_compute; reflexivity|right; right; right; now left]|].
    split; [intros _ _; exact P|exact I].
Qed.
Lemma all_tame log : Forall expected log -> Forall (tame Debug demo kept_setting) log.
Proof. apply Forall_impl. exact expected_tame. Qed.

Lemma only_call g w call g' w' log : session Debug demo kept_setting insertion_sort (only g) w ->
  calls (recording (node_ops Debug demo)) insertion_sort g (w, []) call g' (w', log) -> Forall expected log ->
  session Debug demo kept_setting insertion_sort (only g') w'.
Proof.
  intros S C L. apply (ss_call Debug demo kept_setting insertion_sort (only g) w 0 call g' w' log) with (1 := S) (2 := C);
    [exact (all_tame _ L)|reflexivity|intros [|j] H; [easy|reflexivity]].
Qed.

Lemma kept_built : session Debug demo kept_setting insertion_sort (only kept_graph) (demo_world safe_disk 193600).
Proof.
  assert (S0 : session Debug demo kept_setting insertion_sort (only (graph_new stream_new)) (demo_world safe_disk 193600)).
  { assert (X : session Debug demo kept_setting insertion_sort (fun _ => graph_new stream_new) (demo_world safe_disk 193600))
      by (apply ss_start; intros path _; now split).
    refine (ss_call Debug demo kept_setting insertion_sort _ _ 0 (GDisconnect 1 0) _ _ [] _ X _ (Forall_nil _) eq_refl _).
    - split; reflexivity.
    - intros [|j] H; [easy|reflexivity]. }
  pose (st := fun l es => Graph (firstn l [kept_read; kept_other; kept_merge; kept_crop]) (firstn l [1; 2; 3; 4])
    (Stable (firstn l [true; true; true; true]) [] (skipn es [Edge 2 3 0; Edge 1 2 1; Edge 0 2 0])) stream_new GsDirty ExUninitialized).
  assert (ADD : forall n g g', session Debug demo kept_setting insertion_sort (only g) (demo_world safe_disk 193600) ->
     (exists j, add_node (node_ops Debug demo) g n = Ok (g', j)) ->
     session Debug demo kept_setting insertion_sort (only g') (demo_world safe_disk 193600)).
  { intros n g g' S X. refine (only_call _ _ (GAdd n) _ _ [] S _ (Forall_nil _)). split; [reflexivity|exact X]. }
  assert (CON : forall a b k g g', session Debug demo kept_setting insertion_sort (only g) (demo_world safe_disk 193600) ->
     connect g a b k = Ok g' -> session Debug demo kept_setting insertion_sort (only g') (demo_world safe_disk 193600)).
  { intros a b k g g' S X. refine (only_call _ _ (GConnect a b k) _ _ [] S _ (Forall_nil _)). split; [reflexivity|exact X]. }
  change kept_graph with (st 4%nat 0%nat).
  apply (CON 3 4 0 (st 4%nat 1%nat)); [|vm_compute; reflexivity]. apply (CON 2 3 1 (st 4%nat 2%nat)); [|vm_compute; reflexivity].
  apply (CON 1 3 0 (st 4%nat 3%nat)); [|vm_compute; reflexivity].
  apply (ADD kept_crop (st 3%nat 3%nat)); [|eexists; vm_compute; reflexivity].
  apply (ADD kept_merge (st 2%nat 3%nat)); [|eexists; vm_compute; reflexivity].
  apply (ADD kept_other (st 1%nat 3%nat)); [|eexists; vm_compute; reflexivity].
  apply (ADD kept_read (graph_new stream_new)); [|eexists; vm_compute; reflexivity]. exact S0.
Qed.

Lemma kept_careful : careful_graph Debug area kept_graph.
Proof.
  intros i n ms N _. destruct i as [|[|[|[|i]]]]; try (injection N as <-).
  - split; [apply kept_wf; intros w [<-|[]] c [<-|[]]; lia|exact I].
  - split; [apply kept_wf; intros w [<-|[]] c [<-|[]]; lia|exact I].
  - split; [apply kept_wf; intros w []|exact I].
  - split; [apply kept_wf; intros w H; repeat (destruct H as [<-|H]; [cbn; lia|]); destruct H|].
    intros _. split; [vm_compute; discriminate|].
    change (within (BBox 1 0 5 5) area). unfold within, window_in. cbn. lia.
  - destruct i; discriminate N.
Qed.

Definition log_ok (log : list (node * spec_float * list stream)) : Prop :=
  match log with
  | (n1, f1, []) :: (n2, f2, []) :: (n3, f3, i3) :: rest =>
      (alike n1 kept_other /\ f1 = frame0) /\ (alike n2 kept_read /\ f2 = frame0) /\
      (alike n3 kept_merge /\ f3 = frame0 /\ map st_hash i3 = [demo_digest kb1; demo_digest kb2]) /\
      match rest with
      | [] => True
      | [(n4, f4, i4)] => alike n4 kept_crop /\ f4 = frame0 /\ map st_hash i4 = [demo_digest kb3] /\
                          NodeSpec.nothing_pending (fst (first_input i4))
      | _ => False
      end
  | _ => False
  end.
Lemma log_expected log : log_ok log -> Forall expected log.
Proof.
  destruct log as [|[[n1 f1] [|]] [|[[n2 f2] [|]] [|[[n3 f3] i3] rest]]]; try (intros []; fail).
  intros ((A1 & F1) & (A2 & F2) & (A3 & F3 & H3) & K).
  apply Forall_cons; [split; auto|]. apply Forall_cons; [split; auto|]. apply Forall_cons; [split; auto|].
  destruct rest as [|[[n4 f4] i4] [|]]; [apply Forall_nil| |destruct K]. destruct K as (A4 & F4 & H4 & P4).
  apply Forall_cons; [split; auto 7|apply Forall_nil].
Qed.

(** The conditions on the surroundings, and on the graph after all four nodes
    have been executed once. *)
Lemma kept_surroundings : clean_paths (x_expand demo) /\ digest_u64 (x_digest demo) /\
  forall E : setting disk, keeps_sources demo E.
Proof.
  split; [intros v H I; specialize (H _ I); lia|].
  split; [intro a; unfold x_digest, demo, demo_digest; rewrite <- fold_left_rev_right;
          destruct (rev a); cbn [fold_right]; [vm_compute; split; [discriminate|reflexivity]|apply Z.mod_pos_bound; reflexivity]|].
  intros E d path img co S DO q Q. specialize (DO q Q). cbn [demo x_write fst x_kind x_read disk_find] in *.
  assert (BakeModel.bytes_eqb path q = false) as ->; [|exact DO].
  destruct (BakeModel.bytes_eqb path q) eqn:BE; [|reflexivity]. apply bytes_eqb_true in BE. subst q. congruence.
Qed.
Lemma kept_keys : no_collisions (x_digest demo) (SoundSpec.used kept_setting) /\
  forall l, In l (SoundSpec.used kept_setting) -> x_digest demo l <> 0.
Proof.
  split; [apply collision_check; vm_compute; reflexivity|]. intros l [<-|[<-|[<-|[<-|[]]]]]; vm_compute; discriminate.
Qed.
Lemma kept_session : session Debug demo kept_setting insertion_sort (only (fst (fst kept_first))) (snd (fst kept_first)).
Proof.
  assert (FIRST : execute (recording (node_ops Debug demo)) insertion_sort 99 kept_graph 4 [frame0] (demo_world safe_disk 193600, [])
    = Some (Ok (fst (fst kept_first), (snd (fst kept_first), snd kept_first), ExSuccess))) by (vm_compute; reflexivity).
  apply (only_call kept_graph (demo_world safe_disk 193600) (GExecute 4 [frame0]) _ _ (snd kept_first) kept_built).
  - exists 99%nat, ExSuccess. exact FIRST.
  - apply log_expected. vm_compute. repeat split.
Qed.
Lemma kept_fine : fine_disk (w_disk (snd (fst kept_first))) /\ careful_graph Debug area (fst (fst kept_first)) /\
  fine_stream area (g_output (fst (fst kept_first))).
Proof.
  split; [assert (w_disk (snd (fst kept_first)) = w_disk (demo_world safe_disk 193600)) as -> by (vm_compute; reflexivity); exact (proj2 safe_world)|].
  split.
  { intros i n ms N IO.
    assert (X : exists n0, nth_error (g_nodes kept_graph) i = Some n0 /\ alike n n0).
    { destruct i as [|[|[|[|i]]]]; try (vm_compute in N; injection N as <-; eexists; split; [reflexivity|split; vm_compute; reflexivity]).
      vm_compute in N. destruct i; discriminate N. }
    destruct X as (n0 & N0 & T & A). apply (careful_key Debug area n0); auto. apply (kept_careful i n0 ms N0).
    assert (g_graph (fst (fst kept_first)) = g_graph kept_graph) as Q by (vm_compute; reflexivity). now rewrite <- Q. }
  split; [|split].
  - split; [split; [vm_compute; discriminate|split; [vm_compute; discriminate|split; [vm_compute; discriminate|vm_compute; reflexivity]]]|].
    split; [split; vm_compute; reflexivity|]. split; [right; vm_compute; reflexivity|].
    split; [vm_compute; reflexivity|]. split; [vm_compute; reflexivity|].
    split; [vm_compute; discriminate|split; [vm_compute; discriminate|split; vm_compute; discriminate]].
  - split; [vm_compute; reflexivity|]. split; [vm_compute; reflexivity|].
    split; [vm_compute; discriminate|split; [vm_compute; discriminate|split; vm_compute; discriminate]].
  - assert (st_deformers (g_output (fst (fst kept_first))) = []) as -> by (vm_compute; reflexivity). intros d [].
Qed.

(** After all four have been executed once, all conditions hold of executing the
    merge again and of executing the crop again, and every picture is taken
    from the cache. *)
Example C66_session_example :
  clean_paths (x_expand demo) /\ no_collisions (x_digest demo) (SoundSpec.used kept_setting) /\ digest_u64 (x_digest demo) /\
  (forall l, In l (SoundSpec.used kept_setting) -> x_digest demo l <> 0) /\ keeps_sources demo kept_setting /\
  roomy area /\ sane demo area fine_disk /\ sorts insertion_sort /\
  exists g w, session Debug demo kept_setting insertion_sort (only g) w /\ fine_disk (w_disk w) /\
    careful_graph Debug area g /\ fine_stream area (g_output g) /\ find_index g 3 = Some 2%nat /\ find_index g 4 = Some 3%nat /\
    (exists n, nth_error (g_nodes g) 2 = Some n /\ nd_type n = TMerge /\ node_get_i32 n "enable" = 1 /\
       node_get_i32 n "use_cache" = 1 /\ selects (node_get_i32 n "mode") MOver) /\
    (exists n, nth_error (g_nodes g) 3 = Some n /\ nd_type n = TCrop /\ node_get_i32 n "enable" = 1 /\ node_get_i32 n "use_cache" = 1) /\
    link (g_graph g) 0 2 /\ link (g_graph g) 2 3 /\ hits (w_cache w) = 0 /\
    (exists g' w' log, execute (recording (node_ops Debug demo)) insertion_sort 99 g 3 [frame0] (w, []) = Some (Ok (g', (w', log), ExSuccess)) /\
       Forall (tame Debug demo kept_setting) log /\ hits (w_cache w') = 3 /\ st_data (g_output g') = BBox 0 0 3 2) /\
    (exists g' w' log, execute (recording (node_ops Debug demo)) insertion_sort 99 g 4 [frame0] (w, []) = Some (Ok (g', (w', log), ExSuccess)) /\
       Forall (tame Debug demo kept_setting) log /\ hits (w_cache w') = 4 /\ st_data (g_output g') = BBox 1 0 5 5).
Proof.
  destruct kept_surroundings as (CP & DU & KS). destruct kept_keys as (NC & NZ). destruct kept_fine as (FD & CG & FS).
  split; [exact CP|]. split; [exact NC|]. split; [exact DU|]. split; [exact NZ|]. split; [exact (KS _)|].
  split; [exact area_roomy|]. split; [exact demo_sane|]. split; [exact insertion_sorts|].
  exists (fst (fst kept_first)), (snd (fst kept_first)).
  split; [exact kept_session|]. split; [exact FD|]. split; [exact CG|]. split; [exact FS|]. clear.
  do 2 (split; [vm_compute; reflexivity|]).
  split; [eexists; do 4 (split; [vm_compute; reflexivity|]); right; left; split; vm_compute; reflexivity|].
  split; [eexists; do 3 (split; [vm_compute; reflexivity|]); vm_compute; reflexivity|].
  split; [exists 0; vm_compute; auto|]. split; [exists 0; vm_compute; auto|]. split; [vm_compute; reflexivity|].
  split; do 3 eexists; (split; [vm_compute; reflexivity|]);
    (split; [apply all_tame, log_expected; vm_compute; repeat split|]); split; vm_compute; reflexivity.
Qed.

(** C59, C60, C85 for chains whose reader uses the image cache. *)
From Coq Require String.
Import String.StringSyntax.
From Coq Require Import Floats.SpecFloat.
From Verif Require Import Machine CacheModel PathModel PathSpec FloatModel BBoxModel PixelModel EnumModel AttrModel AttrSpec
  HashModel HashSpec HashProofs StreamModel DeformModel BakeModel BakeProofs GraphModel GraphSpec GraphSim GraphWalk GraphHistory AttrProofs
  NodeModel NodeExamples NodeSpec LutSpec LutHistory LutProofs3 ChainSpec FrameModel FrameSpec SafeFacts SoundSpec RunCacheProofs
  PropertiesNode PropertiesSafe PropertiesRun PropertiesSound PropertiesShow2.
Local Open Scope string_scope.

(** In any session whose computations are tame (C54), along a chain of Null,
    Grade, Transform and Lens nodes from an enabled reader: the picture is the
    file's with the chain's operations waiting, whether or not the reader uses
    the image cache and whatever the cache holds; no file changes. *)
Theorem C59_session : forall D p (x : externals D) (E : setting D),
  clean_paths (x_expand x) -> no_collisions (x_digest x) (SoundSpec.used E) -> digest_u64 (x_digest x) ->
  (forall l, In l (SoundSpec.used E) -> x_digest x l <> 0) -> keeps_sources x E ->
  forall srt, sorts srt ->
  forall G w i fuel id start src l nr frames fr g' w' log,
  session p x E srt G w -> find_index (G i) id = Some start ->
  leads (g_graph (G i)) src l start -> (forall m, ~ link (g_graph (G i)) m src) ->
  nth_error (g_nodes (G i)) src = Some nr -> nd_type nr = TRead -> node_get_i32 nr "enable" <> 0 ->
  (forall j n, In j l -> nth_error (g_nodes (G i)) j = Some n -> adding (nd_type n)) ->
  execute (recording (node_ops p x)) srt fuel (G i) id (frames ++ [fr])%list (w, []) = Some (Ok (g', (w', log), ExSuccess)) ->
  Forall (tame p x E) log ->
  processed x (g_nodes (G i)) nr l (w_disk w) fr (g_output g') /\ w_disk w' = w_disk w.
Proof. exact @source_session. Qed.
Print Assumptions C59_session.

(** With an enabled writer at the end: the files are the source's frames with
    the chain's operations applied, one after the other. *)
Theorem C60_session : forall D p (x : externals D) (E : setting D),
  clean_paths (x_expand x) -> no_collisions (x_digest x) (SoundSpec.used E) -> digest_u64 (x_digest x) ->
  (forall l, In l (SoundSpec.used E) -> x_digest x l <> 0) -> keeps_sources x E ->
  forall srt, sorts srt ->
  forall G w i fuel id start src l a nr nw frames g' w' log,
  session p x E srt G w -> find_index (G i) id = Some start ->
  leads (g_graph (G i)) src l a -> only_input (g_graph (G i)) a start -> (forall m, ~ link (g_graph (G i)) m src) ->
  nth_error (g_nodes (G i)) src = Some nr -> nd_type nr = TRead -> node_get_i32 nr "enable" <> 0 ->
  (forall j n, In j l -> nth_error (g_nodes (G i)) j = Some n -> adding (nd_type n)) ->
  nth_error (g_nodes (G i)) start = Some nw -> nd_type nw = TWrite ->
  node_get_i32 nw "enable" <> 0 -> node_get_i32 nw "execute" <> 0 ->
  execute (recording (node_ops p x)) srt fuel (G i) id frames (w, []) = Some (Ok (g', (w', log), ExSuccess)) ->
  Forall (tame p x E) log ->
  rendered p x nw (processed x (g_nodes (G i)) nr l) frames (w_disk w) (w_disk w').
Proof. exact @render_session. Qed.
Print Assumptions C60_session.

(** Whole frames go to the files numbered after them. *)
Theorem C85_session : forall D p (x : externals D) (E : setting D),
  clean_paths (x_expand x) -> no_collisions (x_digest x) (SoundSpec.used E) -> digest_u64 (x_digest x) ->
  (forall l, In l (SoundSpec.used E) -> x_digest x l <> 0) -> keeps_sources x E ->
  forall srt, sorts srt ->
  forall G w i fuel id start src l a nr nw ks g' w' log pre width post,
  session p x E srt G w -> find_index (G i) id = Some start ->
  leads (g_graph (G i)) src l a -> only_input (g_graph (G i)) a start -> (forall m, ~ link (g_graph (G i)) m src) ->
  nth_error (g_nodes (G i)) src = Some nr -> nd_type nr = TRead -> node_get_i32 nr "enable" <> 0 ->
  (forall j n, In j l -> nth_error (g_nodes (G i)) j = Some n -> adding (nd_type n)) ->
  nth_error (g_nodes (G i)) start = Some nw -> nd_type nw = TWrite ->
  node_get_i32 nw "enable" <> 0 -> node_get_i32 nw "execute" <> 0 ->
  PathSpec.first_run (x_expand x (node_get_str nw "file_path")) pre width post -> 1 <= width <= 9 -> Forall in_i32 ks ->
  execute_whole (recording (node_ops p x)) srt fuel (G i) id ks (w, []) = Some (Ok (g', (w', log), ExSuccess)) ->
  Forall (tame p x E) log ->
  sequence p x nw (processed x (g_nodes (G i)) nr l) f64_of_Z pre width post ks (w_disk w) (w_disk w').
Proof. exact @sequence_session. Qed.
Print Assumptions C85_session.

(* ------------------------------ a session ------------------------------ *)

(** read -> grade -> transform -> write, the reader using the cache, for frames
    7 and 12. *)
Definition line_read : node := setup TRead 1 [WStr "file_path" [97]].
Definition line_nodes : list node := [line_read; ex_grade; ex_move; ex_write].
Definition line_key (fr : spec_float) (n : node) (ins : list Z) : list Z :=
  match cache_hash_bytes Debug (x_expand demo) (nd_type n) (nd_attrs n) fr ins with Ok l => l | Panic => [] end.

(** The computations of one frame: the node, the frame and its inputs' keys. *)
Fixpoint line_steps (fr : spec_float) (ns : list node) (ins : list Z) : list (node * spec_float * list Z) :=
  match ns with
  | [] => []
  | n :: ns => (n, fr, ins) :: line_steps fr ns [demo_digest (line_key fr n ins)]
  end.
Definition line_table : list (node * spec_float * list Z) :=
  line_steps (f64_of_Z 7) line_nodes [] ++ line_steps (f64_of_Z 12) line_nodes [].
Definition line_setting : setting disk :=
  Setting (map (fun e => line_key (snd (fst e)) (fst (fst e)) (snd e)) line_table) (fun q => bytes_eqb [97] q) dot_disk 0.
Definition line_world : world disk := demo_world dot_disk 193600.
Definition line_graph : graph node stream :=
  Graph line_nodes [1; 2; 3; 4] (Stable [true; true; true; true] [] [Edge 2 3 0; Edge 1 2 0; Edge 0 1 0]) stream_new GsDirty ExUninitialized.
Definition line_run (id : Z) (g : graph node stream) (w : world disk) :=
  match execute_whole (recording (node_ops Debug demo)) insertion_sort 99 g id [7; 12] (w, []) with
  | Some (Ok (g, (w, log), _)) => (g, w, log)
  | _ => (g, w, [])
  end.
Definition line_first := line_run 4 line_graph line_world.

Definition matches (q : node * spec_float * list stream) (e : node * spec_float * list Z) : Prop :=
  alike (fst (fst q)) (fst (fst e)) /\ snd (fst q) = snd (fst e) /\ map st_hash (snd q) = snd e.

Lemma line_tame q e : In e line_table -> matches q e -> tame Debug demo line_setting q.
Proof.
  destruct q as [[n fr] ins], e as [[n0 fr0] hs]. intros I ((T & A) & F & H). cbn [fst snd] in T, A, F, H. subst fr0 hs.
  unfold tame; cbv zeta. rewrite T, A. split; [|split; [|split]].
  - assert (I0 : In n0 line_nodes) by (cbn [line_table line_steps line_nodes app In] in I |- *; 
      repeat (destruct I as [I|I]; [injection I as <- _ _; auto 6|]); destruct I).
    destruct I0 as [<-|[<-|[<-|[<-|[]]]]]; apply kept_wf; intros w Q;
      repeat (destruct Q as [<-|Q]; [first [exact I0 | intros c C; cbn in C; lia | cbn; lia]|]); destruct Q.
  - exists (line_key fr n0 (map st_hash ins)). split.
    + unfold line_table in I. cbn [line_nodes line_steps app In] in I.
      repeat (destruct I as [I|I]; [injection I as <- <- <-; vm_compute; reflexivity|]); destruct I.
    + change (line_key fr n0 (map st_hash ins)) with ((fun e => line_key (snd (fst e)) (fst (fst e)) (snd e)) (n0, fr, map st_hash ins)).
      apply (in_map (fun e : node * spec_float * list Z => line_key (snd (fst e)) (fst (fst e)) (snd e)) line_table). exact I.
  - intros _ _. unfold line_table in I. cbn [line_nodes line_steps app In] in I.
    repeat (destruct I as [I|I]; [injection I as <- _ _; exact Logic.I|]); destruct I.
  - unfold line_table in I. cbn [line_nodes line_steps app In] in I.
    repeat (destruct I as [I|I]; [injection I as <- <- _|]); [..|destruct I];
      first [exact Logic.I
            | right; split; [reflexivity|]; intros path Q; vm_compute in Q; injection Q as <-; reflexivity
            | intros _ _ path Q; vm_compute in Q; injection Q as <-; reflexivity
            | intros flag suffix [Q|[Q|[Q|[Q|[]]]]] Z; injection Q as <- <-; vm_compute in Z;
              first [discriminate Z | intros u U; repeat (destruct U as [<-|U]; [vm_compute; reflexivity|]); destruct U]].
Qed.
Lemma all_line_tame log l : incl l line_table -> Forall2 matches log l -> Forall (tame Debug demo line_setting) log.
Proof.
  intros I F. induction F as [|q e log l M F IH]; [constructor|]. constructor; [exact (line_tame q e (I e (or_introl eq_refl)) M)|].
  apply IH. intros a A. apply I. now right.
Qed.
Lemma line_call g w call g' w' log l : session Debug demo line_setting insertion_sort (only g) w ->
  calls (recording (node_ops Debug demo)) insertion_sort g (w, []) call g' (w', log) -> incl l line_table -> Forall2 matches log l ->
  session Debug demo line_setting insertion_sort (only g') w'.
Proof.
  intros S C I L. apply (ss_call Debug demo line_setting insertion_sort (only g) w 0 call g' w' log) with (1 := S) (2 := C);
    [exact (all_line_tame _ _ I L)|reflexivity|intros [|j] H; [easy|reflexivity]].
Qed.

Lemma line_built : session Debug demo line_setting insertion_sort (only line_graph) line_world.
Proof.
  assert (S0 : session Debug demo line_setting insertion_sort (only (graph_new stream_new)) line_world).
  { assert (X : session Debug demo line_setting insertion_sort (fun _ => graph_new stream_new) line_world)
      by (apply ss_start; intros path _; now split).
    refine (ss_call Debug demo line_setting insertion_sort _ _ 0 (GDisconnect 1 0) _ _ [] _ X _ (Forall_nil _) eq_refl _).
    - split; reflexivity.
    - intros [|j] H; [easy|reflexivity]. }
  pose (st := fun l es => Graph (firstn l line_nodes) (firstn l [1; 2; 3; 4])
    (Stable (firstn l [true; true; true; true]) [] (skipn es [Edge 2 3 0; Edge 1 2 0; Edge 0 1 0])) stream_new GsDirty ExUninitialized).
  assert (ADD : forall n g g', session Debug demo line_setting insertion_sort (only g) line_world ->
     (exists j, add_node (node_ops Debug demo) g n = Ok (g', j)) ->
     session Debug demo line_setting insertion_sort (only g') line_world).
  { intros n g g' S X. refine (line_call _ _ (GAdd n) _ _ [] [] S _ (incl_nil_l _) (Forall2_nil _)). split; [reflexivity|exact X]. }
  assert (CON : forall a b k g g', session Debug demo line_setting insertion_sort (only g) line_world ->
     connect g a b k = Ok g' -> session Debug demo line_setting insertion_sort (only g') line_world).
  { intros a b k g g' S X. refine (line_call _ _ (GConnect a b k) _ _ [] [] S _ (incl_nil_l _) (Forall2_nil _)). split; [reflexivity|exact X]. }
  change line_graph with (st 4%nat 0%nat).
  apply (CON 3 4 0 (st 4%nat 1%nat)); [|vm_compute; reflexivity]. apply (CON 2 3 0 (st 4%nat 2%nat)); [|vm_compute; reflexivity].
  apply (CON 1 2 0 (st 4%nat 3%nat)); [|vm_compute; reflexivity].
  apply (ADD ex_write (st 3%nat 3%nat)); [|eexists; vm_compute; reflexivity].
  apply (ADD ex_move (st 2%nat 3%nat)); [|eexists; vm_compute; reflexivity].
  apply (ADD ex_grade (st 1%nat 3%nat)); [|eexists; vm_compute; reflexivity].
  apply (ADD line_read (graph_new stream_new)); [|eexists; vm_compute; reflexivity]. exact S0.
Qed.

Lemma line_edges (g : graph node stream) : g_graph g = g_graph line_graph -> forall m n, link (g_graph g) m n <-> (n = S m /\ (n <= 3)%nat).
Proof.
  intros -> m n. unfold link, feeds. cbn [g_graph line_graph sg_edges]. split.
  - intros (s & [E|[E|[E|[]]]]); injection E as <- <- _; lia.
  - intros (-> & L). exists 0. destruct m as [|[|[|m]]]; cbn; [tauto|tauto|tauto|lia].
Qed.

(** After the range has been written once, all conditions hold of executing it
    again; the reader finds both frames' picture in the cache. *)
Example C60_session_example :
  clean_paths (x_expand demo) /\ no_collisions (x_digest demo) (SoundSpec.used line_setting) /\ digest_u64 (x_digest demo) /\
  (forall l, In l (SoundSpec.used line_setting) -> x_digest demo l <> 0) /\ keeps_sources demo line_setting /\ sorts insertion_sort /\
  exists g w, session Debug demo line_setting insertion_sort (only g) w /\ find_index g 4 = Some 3%nat /\ find_index g 3 = Some 2%nat /\
    leads (g_graph g) 0 [1; 2]%nat 2 /\ only_input (g_graph g) 2 3 /\ (forall m, ~ link (g_graph g) m 0) /\
    (exists n, nth_error (g_nodes g) 0 = Some n /\ nd_type n = TRead /\ node_get_i32 n "enable" = 1 /\ node_get_i32 n "use_cache" = 1) /\
    (forall j n, In j [1; 2]%nat -> nth_error (g_nodes g) j = Some n -> adding (nd_type n)) /\
    (exists n, nth_error (g_nodes g) 3 = Some n /\ nd_type n = TWrite /\ node_get_i32 n "enable" = 1 /\ node_get_i32 n "execute" = 1 /\
       PathSpec.first_run (x_expand demo (node_get_str n "file_path")) [111; 46] 1 [46; 101; 120; 114]) /\
    (exists g' w' log, execute_whole (recording (node_ops Debug demo)) insertion_sort 99 g 4 [7; 12] (w, []) = Some (Ok (g', (w', log), ExSuccess)) /\
       Forall (tame Debug demo line_setting) log /\ hits (w_cache w) < hits (w_cache w') /\
       map (fun f => pb_data (sh_block (snd f))) (firstn 1 (w_disk w')) = [DF32 [f32_of_bits 1073741824; f32_zero; f32_one]]).
Proof.
  split; [intros v H I; specialize (H _ I); lia|].
  split; [apply collision_check; vm_compute; reflexivity|].
  split; [intro a; unfold x_digest, demo, demo_digest; rewrite <- fold_left_rev_right;
          destruct (rev a); cbn [fold_right]; [vm_compute; split; [discriminate|reflexivity]|apply Z.mod_pos_bound; reflexivity]|].
  split; [intros l I; repeat (destruct I as [<-|I]; [vm_compute; discriminate|]); destruct I|].
  split.
  { intros d path img co S DO q Q. specialize (DO q Q). cbn [demo x_write fst x_kind x_read disk_find] in *.
    assert (BakeModel.bytes_eqb path q = false) as ->; [|exact DO].
    destruct (BakeModel.bytes_eqb path q) eqn:BE; [|reflexivity]. apply bytes_eqb_true in BE. subst q.
    cbn [line_setting sources] in S, Q. congruence. }
  split; [exact insertion_sorts|].
  exists (fst (fst line_first)), (snd (fst line_first)).
  assert (FIRST : execute (recording (node_ops Debug demo)) insertion_sort 99 line_graph 4 (map f64_of_Z [7; 12]) (line_world, [])
    = Some (Ok (fst (fst line_first), (snd (fst line_first), snd line_first), ExSuccess))) by (vm_compute; reflexivity).
  assert (GG : g_graph (fst (fst line_first)) = g_graph line_graph) by (vm_compute; reflexivity).
  split.
  { apply (line_call line_graph line_world (GExecute 4 (map f64_of_Z [7; 12])) _ _ (snd line_first) line_table line_built).
    - exists 99%nat, ExSuccess. exact FIRST.
    - apply incl_refl.
    - vm_compute. repeat (constructor; [repeat split|]). constructor. }
  do 2 (split; [vm_compute; reflexivity|]).
  assert (ON : forall a, (a <= 2)%nat -> only_input (g_graph (fst (fst line_first))) a (S a))
    by (intros a H; split; [lia|]; intros m; rewrite (line_edges _ GG); lia).
  split; [apply (leads_snoc _ _ [1%nat] 1 2); [|apply ON; lia]; apply (leads_snoc _ _ [] 0 1); [constructor|apply ON; lia]|].
  split; [apply ON; lia|]. split; [intros m; rewrite (line_edges _ GG); lia|].
  split; [eexists; do 3 (split; [vm_compute; reflexivity|]); vm_compute; reflexivity|].
  split; [intros j n [<-|[<-|[]]] H; vm_compute in H; injection H as <-; [right; left|right; right; left]; reflexivity|].
  split.
  { eexists. do 4 (split; [vm_compute; reflexivity|]).
    split; [lia|]. split; [vm_compute; reflexivity|]. split; [intros [E|[E|[]]]; discriminate E|discriminate]. }
  do 3 eexists. split; [vm_compute; reflexivity|].
  split; [apply (all_line_tame _ line_table (incl_refl _)); vm_compute; repeat (constructor; [repeat split|]); constructor|].
  split; vm_compute; reflexivity.
Qed.

(** C106: rendering a graph writes the composition its nodes describe. *)
From Coq Require String.
Import String.StringSyntax.
From Coq Require Import Lia Floats.SpecFloat.
From Verif Require Import Machine CacheModel FloatModel BBoxModel BBoxSpec PixelModel PixelSpec PathModel PathSpec MergeModel MergeSpec EnumModel AttrModel
  HashModel HashSpec HashProofs StreamModel DeformModel BakeModel BakeProofs GraphModel GraphSpec GraphSim GraphWalk GraphHistory GraphFacts AttrProofs NodeModel NodeExamples
  NodeSpec LutSpec LutHistory LutProofs3 ChainSpec RunSpec SafeSpec SafeProofs SafeFacts ShowSpec UncachedSpec ShowProofs SoundSpec ShowCacheProofs ViewSpec FrameModel FrameSpec
  SceneSpec SceneProofs SceneProofs2 AlikeSpec AlikeProofs WriteSpec SceneWrite PropertiesNode PropertiesSafe PropertiesShow PropertiesSound PropertiesShow2 PropertiesScene PropertiesAlike.
Local Open Scope string_scope.

(** Executing a writer for a range of frames writes, frame by frame, the
    composition the nodes before it describe, with everything applied. *)
Theorem C106_session : forall D p (x : externals D) (E : setting D),
  clean_paths (x_expand x) -> no_collisions (x_digest x) (SoundSpec.used E) -> digest_u64 (x_digest x) ->
  (forall l, In l (SoundSpec.used E) -> x_digest x l <> 0) -> keeps_sources x E ->
  forall B ok_disk, roomy B -> sane x B ok_disk -> forall srt, sorts srt ->
  forall G w i fuel id start k nw frames g' w' log,
  session p x E srt G w -> ok_disk (w_disk w) -> careful_graph p B (G i) -> fine_stream B (g_output (G i)) ->
  find_index (G i) id = Some start -> all_asked (G i) start -> writes (G i) start nw k ->
  execute (recording (node_ops p x)) srt fuel (G i) id frames (w, []) = Some (Ok (g', (w', log), ExSuccess)) ->
  Forall (tame p x E) log ->
  rendered p x nw (fun d fr => scene p x d fr (G i) k) frames (w_disk w) (w_disk w').
Proof. exact @write_session. Qed.
Print Assumptions C106_session.

(** Whole frames go to the files numbered after them. *)
Theorem C106_numbered : forall D p (x : externals D) (E : setting D),
  clean_paths (x_expand x) -> no_collisions (x_digest x) (SoundSpec.used E) -> digest_u64 (x_digest x) ->
  (forall l, In l (SoundSpec.used E) -> x_digest x l <> 0) -> keeps_sources x E ->
  forall B ok_disk, roomy B -> sane x B ok_disk -> forall srt, sorts srt ->
  forall G w i fuel id start k nw ks g' w' log pre width post,
  session p x E srt G w -> ok_disk (w_disk w) -> careful_graph p B (G i) -> fine_stream B (g_output (G i)) ->
  find_index (G i) id = Some start -> all_asked (G i) start -> writes (G i) start nw k ->
  PathSpec.first_run (x_expand x (node_get_str nw "file_path")) pre width post -> 1 <= width <= 9 -> Forall in_i32 ks ->
  execute_whole (recording (node_ops p x)) srt fuel (G i) id ks (w, []) = Some (Ok (g', (w', log), ExSuccess)) ->
  Forall (tame p x E) log ->
  sequence p x nw (fun d fr => scene p x d fr (G i) k) f64_of_Z pre width post ks (w_disk w) (w_disk w').
Proof. exact @write_numbered. Qed.
Print Assumptions C106_numbered.

(** Rendering graphs that describe the same composition leaves the same files. *)
Theorem C106_same_files : forall D p (x : externals D) (E1 E2 : setting D),
  clean_paths (x_expand x) -> digest_u64 (x_digest x) ->
  (forall E, E = E1 \/ E = E2 -> no_collisions (x_digest x) (SoundSpec.used E) /\
     (forall l, In l (SoundSpec.used E) -> x_digest x l <> 0) /\ keeps_sources x E) ->
  forall B1 B2 ok_disk1 ok_disk2, roomy B1 -> roomy B2 -> sane x B1 ok_disk1 -> sane x B2 ok_disk2 ->
  forall srt1 srt2, sorts srt1 -> sorts srt2 ->
  forall G1 G2 w1 w2 i1 i2 fuel1 fuel2 id1 id2 start1 start2 k1 k2 nw1 nw2 frames g1' g2' w1' w2' log1 log2,
  session p x E1 srt1 G1 w1 -> ok_disk1 (w_disk w1) -> careful_graph p B1 (G1 i1) -> fine_stream B1 (g_output (G1 i1)) ->
  session p x E2 srt2 G2 w2 -> ok_disk2 (w_disk w2) -> careful_graph p B2 (G2 i2) -> fine_stream B2 (g_output (G2 i2)) ->
  find_index (G1 i1) id1 = Some start1 -> all_asked (G1 i1) start1 -> writes (G1 i1) start1 nw1 k1 ->
  find_index (G2 i2) id2 = Some start2 -> all_asked (G2 i2) start2 -> writes (G2 i2) start2 nw2 k2 ->
  nd_attrs nw1 = nd_attrs nw2 -> w_disk w1 = w_disk w2 ->
  forall R, (forall fr d, same_composition x fr fr d d (G1 i1) (G2 i2) R) -> R k1 k2 ->
  (forall d fr, after_writes x (w_disk w2) d -> In fr frames -> determined x d fr (G2 i2)) ->
  execute (recording (node_ops p x)) srt1 fuel1 (G1 i1) id1 frames (w1, []) = Some (Ok (g1', (w1', log1), ExSuccess)) ->
  Forall (tame p x E1) log1 ->
  execute (recording (node_ops p x)) srt2 fuel2 (G2 i2) id2 frames (w2, []) = Some (Ok (g2', (w2', log2), ExSuccess)) ->
  Forall (tame p x E2) log2 ->
  w_disk w1' = w_disk w2'.
Proof. exact alike_files. Qed.
Print Assumptions C106_same_files.

(* ------------------------------ an example ------------------------------ *)

(** Building graphs call by call. *)
Fixpoint play (g : graph node stream) (l : list (gcall node spec_float awrite)) : option (graph node stream) :=
  match l with
  | [] => Some g
  | GAdd n :: l => match add_node (node_ops Debug demo) g n with Ok (g', _) => play g' l | Panic => None end
  | GConnect a b k :: l => match connect g a b k with Ok g' => play g' l | Panic => None end
  | _ :: _ => None
  end.
Lemma play_session E w : disk_ok demo E (w_disk w) -> w_cache w = with_capacity (capacity (w_cache w)) ->
  forall l g, play (graph_new stream_new) l = Some g -> session Debug demo E insertion_sort (only g) w.
Proof.
  intros DO CW. assert (S0 : session Debug demo E insertion_sort (only (graph_new stream_new)) w).
  { assert (X : session Debug demo E insertion_sort (fun _ => graph_new stream_new) w).
    { destruct w as [c d]. cbn [w_cache w_disk] in *. rewrite CW. now apply ss_start. }
    refine (ss_call Debug demo E insertion_sort _ _ 0 (GDisconnect 1 0) _ _ [] _ X _ (Forall_nil _) eq_refl _).
    - split; reflexivity.
    - intros [|j] H; [easy|reflexivity]. }
  intro l. generalize (graph_new stream_new : graph node stream) S0. clear S0. induction l as [|c l IH]; intros g0 S g H; cbn [play] in H.
  { injection H as <-. exact S. }
  assert (ONE : forall call g', calls (recording (node_ops Debug demo)) insertion_sort g0 (w, []) call g' (w, []) ->
    session Debug demo E insertion_sort (only g') w).
  { intros call g' C. apply (ss_call Debug demo E insertion_sort (only g0) w 0 call g' w []) with (1 := S) (2 := C);
      [apply Forall_nil|reflexivity|intros [|j] Q; [easy|reflexivity]]. }
  destruct c; try discriminate H.
  - destruct (add_node (node_ops Debug demo) g0 n) as [[g1 j]|] eqn:EA; [|discriminate H]. apply (IH g1); [|exact H].
    apply (ONE (GAdd n)). split; [reflexivity|]. exists j. exact EA.
  - match type of H with match ?c with _ => _ end = _ => destruct c as [g1|] eqn:EC; [|discriminate H] end. apply (IH g1); [|exact H].
    eapply (ONE (GConnect _ _ _)). split; [reflexivity|exact EC].
Qed.

(** Two readers, a merge and a writer; the merge has been executed before.  And
    the same with a null node after each reader, never executed. *)
Definition frame1 : spec_float := S754_finite false 4503599627370496 (-52).
(** out.#.exr *)
Definition out_path : list Z := [111; 46; 35; 46; 101; 120; 114].
Definition out_write (id : Z) : node := setup TWrite id [WStr "file_path" out_path; WI32 "execute" 1; WI32 "enable" 1].
Definition short_graph : graph node stream := Eval vm_compute in
  match play (graph_new stream_new) [GAdd kept_read; GAdd kept_other; GAdd kept_merge; GAdd (out_write 4);
    GConnect 1 3 0; GConnect 2 3 1; GConnect 3 4 0] with Some g => g | None => graph_new stream_new end.
Definition long_graph : graph node stream := Eval vm_compute in
  match play (graph_new stream_new) [GAdd kept_read; GAdd kept_other; GAdd pass1; GAdd pass2; GAdd three_merge; GAdd (out_write 6);
    GConnect 1 3 0; GConnect 2 4 0; GConnect 3 5 0; GConnect 4 5 1; GConnect 5 6 0] with Some g => g | None => graph_new stream_new end.

Definition outcome (g : graph node stream) (id : Z) (frames : list spec_float) (w : world disk) :=
  match execute (recording (node_ops Debug demo)) insertion_sort 99 g id frames (w, []) with
  | Some (Ok (g', (w', log), ExSuccess)) => (g', w', log)
  | _ => (g, w, [])
  end.
Definition keys_of (log : list (node * spec_float * list stream)) : list (list Z) :=
  map (fun q : node * spec_float * list stream => let '(n, fr, ins) := q in
    match cache_hash_bytes Debug (x_expand demo) (nd_type n) (nd_attrs n) fr (map st_hash ins) with Ok l => l | Panic => [] end) log.

Definition short_first := Eval vm_compute in outcome short_graph 3 [frame0] three_world.
Definition short_run := Eval vm_compute in outcome (fst (fst short_first)) 4 [frame0; frame1] (snd (fst short_first)).
Definition long_run := Eval vm_compute in outcome long_graph 6 [frame0; frame1] three_world.
Definition short_keys : list (list Z) := Eval vm_compute in nodup (list_eq_dec Z.eq_dec) (keys_of (snd short_first ++ snd short_run)).
Definition long_keys : list (list Z) := Eval vm_compute in nodup (list_eq_dec Z.eq_dec) (keys_of (snd long_run)).
Definition with_keys (l : list (list Z)) : setting disk := Setting l (fun q => bytes_eqb [97] q || bytes_eqb [98] q) safe_disk 0.

Definition all_nodes : list node := [kept_read; kept_other; kept_merge; pass1; out_write 4].
Lemma all_wf n : In n all_nodes -> HashSpec.wf_block (nd_attrs n).
Proof.
  intros [<-|[<-|[<-|[<-|[<-|[]]]]]]; apply kept_wf; [intros w [<-|[]] c [<-|[]]; lia|intros w [<-|[]] c [<-|[]]; lia|intros w []|intros w []|].
  intros w Q. repeat (destruct Q as [<-|Q]; [cbn; intuition lia|]). destruct Q.
Qed.
(** A computation of one of these nodes, at one of the two frames, with a key
    among these. *)
Definition usual (keys : list (list Z)) (q : node * spec_float * list stream) : Prop :=
  let '(n, fr, ins) := q in
  (exists n0, In n0 all_nodes /\ alike n n0) /\ (fr = frame0 \/ fr = frame1) /\
  exists l, cache_hash_bytes Debug (x_expand demo) (nd_type n) (nd_attrs n) fr (map st_hash ins) = Ok l /\ In l keys.
Lemma usual_tame keys log : Forall (usual keys) log -> Forall (tame Debug demo (with_keys keys)) log.
Proof.
  apply Forall_impl. intros [[n fr] ins] ((n0 & I0 & T & A) & F & K).
  unfold tame. cbv zeta. split; [rewrite A; exact (all_wf _ I0)|]. split; [exact K|]. rewrite T, A. clear K.
  destruct I0 as [<-|[<-|[<-|[<-|[<-|[]]]]]]; (split; [intros _ _; exact I|]).
  - right. split; [reflexivity|]. intros path Q. destruct F as [-> | ->]; vm_compute in Q; injection Q as <-; reflexivity.
  - right. split; [reflexivity|]. intros path Q. destruct F as [-> | ->]; vm_compute in Q; injection Q as <-; reflexivity.
  - exact I.
  - exact I.
  - intros _ _ path Q. destruct F as [-> | ->]; vm_compute in Q; injection Q as <-; reflexivity.
Qed.
Ltac usual_log := repeat apply Forall_cons; try apply Forall_nil;
  (split; [first [exists kept_read; split; [now apply (nth_error_In _ 0)|split; vm_compute; reflexivity]
               |exists kept_other; split; [now apply (nth_error_In _ 1)|split; vm_compute; reflexivity]
               |exists kept_merge; split; [now apply (nth_error_In _ 2)|split; vm_compute; reflexivity]
               |exists pass1; split; [now apply (nth_error_In _ 3)|split; vm_compute; reflexivity]
               |exists (out_write 4); split; [now apply (nth_error_In _ 4)|split; vm_compute; reflexivity]]
   |split; [first [left; reflexivity|right; reflexivity]|eexists; split; [vm_compute; reflexivity|vm_compute; tauto]]]).
Lemma short_usual : Forall (usual short_keys) (snd short_first) /\ Forall (usual short_keys) (snd short_run).
Proof. unfold short_first, short_run. cbn [snd]. split; usual_log. Qed.
Lemma long_usual : Forall (usual long_keys) (snd long_run).
Proof. unfold long_run. cbn [snd]. usual_log. Qed.

Definition short_warm : graph node stream := fst (fst short_first).
Definition short_world : world disk := snd (fst short_first).
Lemma short_session : session Debug demo (with_keys short_keys) insertion_sort (only short_warm) short_world.
Proof.
  assert (S : session Debug demo (with_keys short_keys) insertion_sort (only short_graph) three_world).
  { apply (play_session (with_keys short_keys) three_world) with (l := [GAdd kept_read; GAdd kept_other; GAdd kept_merge; GAdd (out_write 4);
    GConnect 1 3 0; GConnect 2 3 1; GConnect 3 4 0]); [intros path _; now split|reflexivity|vm_compute; reflexivity]. }
  refine (ss_call Debug demo (with_keys short_keys) insertion_sort (only short_graph) three_world 0 (GExecute 3 [frame0]) short_warm short_world (snd short_first) _ S _
    (usual_tame _ _ (proj1 short_usual)) eq_refl _).
  - exists 99%nat, ExSuccess. vm_compute. reflexivity.
  - intros [|j] H; [easy|reflexivity].
Qed.
Lemma long_session : session Debug demo (with_keys long_keys) insertion_sort (only long_graph) three_world.
Proof.
  apply (play_session (with_keys long_keys) three_world) with (l := [GAdd kept_read; GAdd kept_other; GAdd pass1; GAdd pass2; GAdd three_merge; GAdd (out_write 6);
    GConnect 1 3 0; GConnect 2 4 0; GConnect 3 5 0; GConnect 4 5 1; GConnect 5 6 0]); [intros path _; now split|reflexivity|vm_compute; reflexivity].
Qed.

Lemma all_careful n k : In n all_nodes -> careful Debug area n k.
Proof.
  intro I0. split; [exact (all_wf _ I0)|]. destruct I0 as [<-|[<-|[<-|[<-|[<-|[]]]]]]; try exact I. intros _ _. vm_compute. discriminate.
Qed.
Lemma short_nodes i n : nth_error (g_nodes short_warm) i = Some n -> exists n0, In n0 all_nodes /\ alike n n0.
Proof.
  intro N. destruct i as [|[|[|[|i]]]]; [exists kept_read|exists kept_other|exists kept_merge|exists (out_write 4)|];
    try (vm_compute in N; injection N as <-; split; [cbn [In all_nodes]; tauto|split; vm_compute; reflexivity]).
  vm_compute in N. destruct i; discriminate N.
Qed.
Lemma long_nodes i n : nth_error (g_nodes long_graph) i = Some n -> exists n0, In n0 all_nodes /\ alike n n0.
Proof.
  intro N. destruct i as [|[|[|[|[|[|i]]]]]]; [exists kept_read|exists kept_other|exists pass1|exists pass1|exists kept_merge|exists (out_write 4)|];
    try (vm_compute in N; injection N as <-; split; [cbn [In all_nodes]; tauto|split; vm_compute; reflexivity]).
  vm_compute in N. destruct i; discriminate N.
Qed.
Lemma careful_all (g : graph node stream) : (forall i n, nth_error (g_nodes g) i = Some n -> exists n0, In n0 all_nodes /\ alike n n0) -> careful_graph Debug area g.
Proof. intros H i n ms N _. destruct (H i n N) as (n0 & I0 & T & A). apply (careful_key Debug area n0); auto. now apply all_careful. Qed.
Lemma short_fine : fine_stream area (g_output short_warm).
Proof.
  split; [|split].
  - split; [split; [vm_compute; discriminate|split; [vm_compute; discriminate|split; [vm_compute; discriminate|vm_compute; reflexivity]]]|].
    split; [split; vm_compute; reflexivity|]. split; [right; vm_compute; reflexivity|].
    split; [vm_compute; reflexivity|]. split; [vm_compute; reflexivity|].
    split; [vm_compute; discriminate|split; [vm_compute; discriminate|split; vm_compute; discriminate]].
  - split; [vm_compute; reflexivity|]. split; [vm_compute; reflexivity|].
    split; [vm_compute; discriminate|split; [vm_compute; discriminate|split; vm_compute; discriminate]].
  - assert (st_deformers (g_output short_warm) = []) as -> by (vm_compute; reflexivity). intros d [].
Qed.
Lemma all_asked_few (g : graph node stream) start : (forall i n, nth_error (g_nodes g) i = Some n -> exists n0, In n0 all_nodes /\ alike n n0) ->
  (forall i n, nth_error (g_nodes g) i = Some n -> (length (into (g_graph g) i) <= uses (nd_type n))%nat) -> all_asked g start.
Proof.
  intros H L i n l _ N IO. apply few_inputs in IO. split; [etransitivity; [exact IO|exact (L i n N)]|].
  destruct (H i n N) as (n0 & I0 & T & _). rewrite T. destruct I0 as [<-|[<-|[<-|[<-|[<-|[]]]]]]; discriminate.
Qed.
Lemma determined_all (g : graph node stream) d fr : (forall i n, nth_error (g_nodes g) i = Some n -> exists n0, In n0 all_nodes /\ alike n n0) ->
  (forall n a b s, feeds (g_graph g) a n s -> feeds (g_graph g) b n s -> a = b) -> determined demo d fr g.
Proof.
  intros H U. split; [exact U|]. intros i n N. destruct (H i n N) as (n0 & I0 & T & _).
  split; [rewrite T; destruct I0 as [<-|[<-|[<-|[<-|[<-|[]]]]]]; discriminate|]. intros _ _ path _. cbn [demo x_kind]. destruct (disk_find _ _); discriminate.
Qed.
Lemma only_one g i a s : into g i = [Edge a i s] -> a <> i -> only_input g a i.
Proof.
  intros E NE. split; [exact NE|]. intro m. split.
  - intros (t & F). apply feeds_into in F. rewrite E in F. destruct F as [F|[]]. now injection F.
  - intros ->. exists s. apply feeds_into. rewrite E. now left.
Qed.
Lemma writes_last (g : graph node stream) start n k : (forall i n, nth_error (g_nodes g) i = Some n -> exists n0, In n0 all_nodes /\ alike n n0) ->
  nth_error (g_nodes g) start = Some n -> nd_type n = TWrite -> only_input (g_graph g) k start ->
  (forall i m, i <> start -> nth_error (g_nodes g) i = Some m -> nd_type m <> TWrite) -> writes g start n k.
Proof.
  intros H N T OI OTH. destruct (H start n N) as (n0 & I0 & T0 & A0).
  split; [exact N|]. split; [exact T|].
  assert (Q : nd_attrs n = nd_attrs (out_write 4)).
  { rewrite T in T0. destruct I0 as [<-|[<-|[<-|[<-|[<-|[]]]]]]; try discriminate T0. exact A0. }
  assert (GI : forall a, node_get_i32 n a = node_get_i32 (out_write 4) a) by (intro a; unfold node_get_i32; now rewrite T, Q).
  split; [rewrite GI; vm_compute; discriminate|]. split; [rewrite GI; vm_compute; discriminate|]. split; [exact OI|].
  intros i m _ NE M TM. destruct (OTH i m NE M TM).
Qed.

Definition short_pairs (i j : nat) : Prop := In (i, j) [(2, 4); (0, 2); (1, 3)]%nat.
Lemma none_in g i l : into g i = [] -> inputs_in_slot_order g i l -> l = [].
Proof.
  intros E (_ & A & _). destruct l as [|a l]; [reflexivity|]. destruct (proj1 (A a) (or_introl eq_refl)) as ((s & F) & _).
  apply feeds_into in F. now rewrite E in F.
Qed.
Lemma short_long fr d : same_composition demo fr fr d d short_warm long_graph short_pairs.
Proof.
  intros i j [E|[E|[E|[]]]]; injection E as <- <-.
  - eexists 2%nat, 4%nat, _, _. split; [constructor|]. split; [constructor|].
    split; [vm_compute; reflexivity|]. split; [vm_compute; reflexivity|]. split; [vm_compute; reflexivity|]. split; [vm_compute; reflexivity|].
    split; [vm_compute; discriminate|]. intros l O. exists [2; 3]%nat.
    split; [apply (order_two _ 4 2 3 0 1); [vm_compute; reflexivity|discriminate|discriminate|discriminate|lia]|].
    assert (l = [0; 1]%nat) as ->.
    { apply (order_once (g_graph short_warm) 2); [|exact O|apply (order_two _ 2 0 1 0 1); [vm_compute; reflexivity|discriminate|discriminate|discriminate|lia]].
      intros a b s FA FB. vm_compute in FA, FB. destruct FA as [FA|[FA|[FA|[]]]]; try discriminate FA; destruct FB as [FB|[FB|[FB|[]]]]; congruence. }
    constructor; [right; now left|]. constructor; [right; right; now left|constructor].
  - eexists 0%nat, 0%nat, _, _. split; [constructor|].
    split; [apply (through_idle _ 2 pass1 0); [vm_compute; reflexivity|exact I|apply (order_one _ 2 0 0); [vm_compute; reflexivity|discriminate]|constructor]|].
    split; [vm_compute; reflexivity|]. split; [vm_compute; reflexivity|]. split; [vm_compute; reflexivity|]. split; [vm_compute; reflexivity|].
    split; [intros _ path P; exists path; split; [exact P|split; reflexivity]|].
    intros l O. exists []. split; [apply order_none; vm_compute; reflexivity|]. rewrite (none_in (g_graph short_warm) 0 l); [constructor|vm_compute; reflexivity|exact O].
  - eexists 1%nat, 1%nat, _, _. split; [constructor|].
    split; [apply (through_idle _ 3 pass2 1); [vm_compute; reflexivity|exact I|apply (order_one _ 3 1 0); [vm_compute; reflexivity|discriminate]|constructor]|].
    split; [vm_compute; reflexivity|]. split; [vm_compute; reflexivity|]. split; [vm_compute; reflexivity|]. split; [vm_compute; reflexivity|].
    split; [intros _ path P; exists path; split; [exact P|split; reflexivity]|].
    intros l O. exists []. split; [apply order_none; vm_compute; reflexivity|]. rewrite (none_in (g_graph short_warm) 1 l); [constructor|vm_compute; reflexivity|exact O].
Qed.

(** All conditions hold of rendering two frames of either graph; the first takes
    its pictures from the cache; both end with the same files. *)
Example C106_example :
  clean_paths (x_expand demo) /\ digest_u64 (x_digest demo) /\
  (forall E, E = with_keys short_keys \/ E = with_keys long_keys -> no_collisions (x_digest demo) (SoundSpec.used E) /\
     (forall l, In l (SoundSpec.used E) -> x_digest demo l <> 0) /\ keeps_sources demo E) /\
  roomy area /\ sane demo area fine_disk /\ sorts insertion_sort /\
  session Debug demo (with_keys short_keys) insertion_sort (only short_warm) short_world /\ fine_disk (w_disk short_world) /\
  careful_graph Debug area short_warm /\ fine_stream area (g_output short_warm) /\
  session Debug demo (with_keys long_keys) insertion_sort (only long_graph) three_world /\ fine_disk (w_disk three_world) /\
  careful_graph Debug area long_graph /\ fine_stream area (g_output long_graph) /\
  find_index short_warm 4 = Some 3%nat /\ all_asked short_warm 3 /\ find_index long_graph 6 = Some 5%nat /\ all_asked long_graph 5 /\
  (exists nw1 nw2, writes short_warm 3 nw1 2 /\ writes long_graph 5 nw2 4 /\ nd_attrs nw1 = nd_attrs nw2 /\
     PathSpec.first_run (x_expand demo (node_get_str nw1 "file_path")) [111; 46] 1 [46; 101; 120; 114]) /\
  w_disk short_world = w_disk three_world /\
  (exists R, (forall fr d, same_composition demo fr fr d d short_warm long_graph R) /\ R 2%nat 4%nat) /\
  (forall d fr, determined demo d fr long_graph) /\
  map f64_of_Z [0; 1] = [frame0; frame1] /\
  exists g1' w1' log1 g2' w2' log2,
    execute (recording (node_ops Debug demo)) insertion_sort 99 short_warm 4 [frame0; frame1] (short_world, []) = Some (Ok (g1', (w1', log1), ExSuccess)) /\
    Forall (tame Debug demo (with_keys short_keys)) log1 /\
    execute (recording (node_ops Debug demo)) insertion_sort 99 long_graph 6 [frame0; frame1] (three_world, []) = Some (Ok (g2', (w2', log2), ExSuccess)) /\
    Forall (tame Debug demo (with_keys long_keys)) log2 /\
    hits (w_cache short_world) < hits (w_cache w1') /\
    map fst (w_disk w1') = [[111; 46; 49; 46; 101; 120; 114]; [111; 46; 48; 46; 101; 120; 114]; [97]; [98]].
Proof.
  destruct kept_surroundings as (CP & DU & KS).
  split; [exact CP|]. split; [exact DU|].
  split.
  { intros E [->| ->]; (split; [apply collision_check; vm_compute; reflexivity|]); (split; [|exact (KS _)]);
      intros l IL; unfold with_keys, SoundSpec.used, short_keys, long_keys in IL; repeat (destruct IL as [<-|IL]; [vm_compute; discriminate|]); destruct IL. }
  split; [exact area_roomy|]. split; [exact demo_sane|]. split; [exact insertion_sorts|].
  split; [exact short_session|].
  split; [assert (w_disk short_world = w_disk three_world) as -> by (vm_compute; reflexivity); exact (proj2 safe_world)|].
  split; [exact (careful_all _ short_nodes)|]. split; [exact short_fine|]. split; [exact long_session|]. split; [exact (proj2 safe_world)|].
  split; [exact (careful_all _ long_nodes)|]. split; [exact (fine_new area area_roomy)|]. split; [vm_compute; reflexivity|].
  split.
  { apply all_asked_few; [exact short_nodes|]. intros i n N. destruct i as [|[|[|[|i]]]]; try (vm_compute in N; injection N as <-; vm_compute; lia).
    vm_compute in N. destruct i; discriminate N. }
  split; [vm_compute; reflexivity|].
  split.
  { apply all_asked_few; [exact long_nodes|]. intros i n N. destruct i as [|[|[|[|[|[|i]]]]]]; try (vm_compute in N; injection N as <-; vm_compute; lia).
    vm_compute in N. destruct i; discriminate N. }
  split.
  { do 2 eexists. split; [|split; [|split]].
    - apply writes_last; [exact short_nodes|vm_compute; reflexivity|vm_compute; reflexivity|apply (only_one _ 3 2 0); [vm_compute; reflexivity|discriminate]|].
      intros i m NE N. destruct i as [|[|[|[|i]]]]; try contradiction; try (vm_compute in N; injection N as <-; discriminate). vm_compute in N. destruct i; discriminate N.
    - apply writes_last; [exact long_nodes|vm_compute; reflexivity|vm_compute; reflexivity|apply (only_one _ 5 4 0); [vm_compute; reflexivity|discriminate]|].
      intros i m NE N. destruct i as [|[|[|[|[|[|i]]]]]]; try contradiction; try (vm_compute in N; injection N as <-; discriminate). vm_compute in N. destruct i; discriminate N.
    - vm_compute. reflexivity.
    - vm_compute. repeat split; intuition discriminate. }
  split; [vm_compute; reflexivity|].
  split; [exists short_pairs; split; [exact short_long|now left]|].
  split.
  { intros d fr. apply determined_all; [exact long_nodes|]. intros n a b s FA FB. vm_compute in FA, FB.
    destruct FA as [FA|[FA|[FA|[FA|[FA|[]]]]]]; injection FA as <- <- <-; destruct FB as [FB|[FB|[FB|[FB|[FB|[]]]]]]; congruence. }
  split; [vm_compute; reflexivity|].
  exists (fst (fst short_run)), (snd (fst short_run)), (snd short_run), (fst (fst long_run)), (snd (fst long_run)), (snd long_run).
  split; [vm_compute; reflexivity|]. split; [exact (usual_tame _ _ (proj2 short_usual))|].
  split; [vm_compute; reflexivity|]. split; [exact (usual_tame _ _ long_usual)|]. split; vm_compute; reflexivity.
Qed.

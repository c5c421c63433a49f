(** C105: graphs that describe the same composition show the same. *)
From Coq Require String.
Import String.StringSyntax.
From Coq Require Import Lia Floats.SpecFloat.
From Verif Require Import Machine CacheModel FloatModel BBoxModel BBoxSpec PixelModel PixelSpec MergeModel MergeSpec EnumModel AttrModel
  HashModel HashSpec HashProofs StreamModel DeformModel BakeModel BakeProofs GraphModel GraphSpec GraphSim GraphWalk GraphHistory GraphFacts AttrProofs NodeModel NodeExamples
  NodeSpec LutSpec LutHistory LutProofs3 ChainSpec RunSpec SafeSpec SafeProofs SafeFacts ShowSpec UncachedSpec ShowProofs SoundSpec ShowCacheProofs ViewSpec
  SceneSpec SceneProofs SceneProofs2 AlikeSpec AlikeProofs PropertiesNode PropertiesSafe PropertiesShow PropertiesSound PropertiesShow2 PropertiesScene.
Local Open Scope string_scope.

(** Two graphs, in two sessions with caches of their own, that describe the same
    composition of files with the same contents show the same: node ids, the
    order of building, shared or duplicated nodes, nodes that contribute
    nothing, idle nodes in between, and what was executed before make no
    difference. *)
Theorem C105_sessions : forall D p (x : externals D) (E1 E2 : setting D),
  clean_paths (x_expand x) -> digest_u64 (x_digest x) ->
  (forall E, E = E1 \/ E = E2 -> no_collisions (x_digest x) (SoundSpec.used E) /\
     (forall l, In l (SoundSpec.used E) -> x_digest x l <> 0) /\ keeps_sources x E) ->
  forall B1 B2 ok_disk1 ok_disk2, roomy B1 -> roomy B2 -> sane x B1 ok_disk1 -> sane x B2 ok_disk2 ->
  forall srt1 srt2, sorts srt1 -> sorts srt2 ->
  forall G1 G2 w1 w2 i1 i2 fuel1 fuel2 id1 id2 start1 start2 frames1 frames2 fr1 fr2 g1' g2' w1' w2' log1 log2,
  session p x E1 srt1 G1 w1 -> ok_disk1 (w_disk w1) -> careful_graph p B1 (G1 i1) -> fine_stream B1 (g_output (G1 i1)) ->
  session p x E2 srt2 G2 w2 -> ok_disk2 (w_disk w2) -> careful_graph p B2 (G2 i2) -> fine_stream B2 (g_output (G2 i2)) ->
  find_index (G1 i1) id1 = Some start1 -> all_asked (G1 i1) start1 ->
  find_index (G2 i2) id2 = Some start2 -> all_asked (G2 i2) start2 ->
  forall R, same_composition x fr1 fr2 (w_disk w1) (w_disk w2) (G1 i1) (G2 i2) R -> R start1 start2 ->
  determined x (w_disk w2) fr2 (G2 i2) ->
  execute (recording (node_ops p x)) srt1 fuel1 (G1 i1) id1 (frames1 ++ [fr1])%list (w1, []) = Some (Ok (g1', (w1', log1), ExSuccess)) ->
  Forall (tame p x E1) log1 ->
  execute (recording (node_ops p x)) srt2 fuel2 (G2 i2) id2 (frames2 ++ [fr2])%list (w2, []) = Some (Ok (g2', (w2', log2), ExSuccess)) ->
  Forall (tame p x E2) log2 ->
  looks_like (g_output g1') (g_output g2').
Proof. exact alike_sessions. Qed.
Print Assumptions C105_sessions.

(** The same of what the graphs describe. *)
Theorem C105_scene : forall D p (x : externals D) fr1 fr2 d1 d2 (g1 g2 : graph node stream) R,
  same_composition x fr1 fr2 d1 d2 g1 g2 R -> forall i j v, R i j ->
  scene p x d1 fr1 g1 i v -> exists v', scene p x d2 fr2 g2 j v' /\ looks_like v v'.
Proof. exact @scene_alike. Qed.
Print Assumptions C105_scene.

(* ------------------------------ an example ------------------------------ *)

(** The merge of C66, executed before; and the same merge in another session,
    never executed, with a null node between it and each reader. *)
Definition null_graph : graph node stream := Eval vm_compute in three_part 5 1.
Definition null_result := Eval vm_compute in
  execute (recording (node_ops Debug demo)) insertion_sort 99 null_graph 5 [frame0] (three_world, []).
Definition null_log : list (node * spec_float * list stream) := Eval vm_compute in
  match null_result with Some (Ok (_, (_, log), _)) => log | _ => [] end.
Definition null_keys : list (list Z) := Eval vm_compute in
  map (fun q : node * spec_float * list stream => let '(n, fr, ins) := q in key_of n (map st_hash ins)) null_log.
Definition null_setting : setting disk :=
  Setting null_keys (fun q => bytes_eqb [97] q || bytes_eqb [98] q) safe_disk 0.

Lemma null_tame : Forall (tame Debug demo null_setting) null_log.
Proof.
  assert (Q : Forall (fun q : node * spec_float * list stream => let '(n, fr, ins) := q in
    (exists n0, In n0 three_nodes /\ alike n n0) /\ fr = frame0 /\
    cache_hash_bytes Debug (x_expand demo) (nd_type n) (nd_attrs n) fr (map st_hash ins) = Ok (key_of n (map st_hash ins)) /\
    In (key_of n (map st_hash ins)) null_keys) null_log).
  { assert (K : forall k n, nth_error three_nodes k = Some n -> In n three_nodes) by (intros k n; apply nth_error_In).
    unfold null_log. repeat apply Forall_cons; try apply Forall_nil.
    all: split; [|split; [reflexivity|split; [vm_compute; reflexivity|vm_compute; tauto]]].
    all: first [exists kept_read; split; [now apply (K 0%nat)|split; vm_compute; reflexivity]
               |exists kept_other; split; [now apply (K 1%nat)|split; vm_compute; reflexivity]
               |exists pass1; split; [now apply (K 2%nat)|split; vm_compute; reflexivity]
               |exists three_merge; split; [now apply (K 4%nat)|split; vm_compute; reflexivity]]. }
  revert Q. apply Forall_impl. intros [[n fr] ins] ((n0 & I0 & T & A) & -> & K & KI).
  unfold tame. cbv zeta. split; [rewrite A; exact (three_wf _ I0)|]. split; [eexists; split; [exact K|exact KI]|]. rewrite T, A. clear K KI.
  destruct I0 as [<-|[<-|[<-|[<-|[<-|[]]]]]]; (split; [intros _ _; exact I|]).
  - right. split; [reflexivity|]. intros path Q. vm_compute in Q. injection Q as <-. reflexivity.
  - right. split; [reflexivity|]. intros path Q. vm_compute in Q. injection Q as <-. reflexivity.
  - exact I.
  - exact I.
  - exact I.
Qed.

Definition paired (i j : nat) : Prop := In (i, j) [(2, 4); (0, 2); (1, 3)]%nat.

(** The inputs of nodes with one and with two connections. *)
Definition into (g : stable) (i : nat) : list edge := filter (fun e => Nat.eqb (e_dst e) i) (sg_edges g).
Lemma feeds_into g a i s : feeds g a i s <-> In (Edge a i s) (into g i).
Proof. unfold feeds, into. rewrite filter_In. cbn. rewrite Nat.eqb_refl. tauto. Qed.
Lemma order_none g i : into g i = [] -> inputs_in_slot_order g i [].
Proof.
  intro E. split; [constructor|]. split.
  - intro m. split; [intros []|]. intros ((s & F) & _). apply feeds_into in F. now rewrite E in F.
  - intros [|] a l2 b l3 Q; discriminate Q.
Qed.
Lemma order_one g i a s : into g i = [Edge a i s] -> a <> i -> inputs_in_slot_order g i [a].
Proof.
  intros E NE. split; [repeat constructor; intros []|]. split.
  - intro m. split.
    + intros [<-|[]]. split; [exists s; apply feeds_into; rewrite E; now left|exact NE].
    + intros ((t & F) & _). apply feeds_into in F. rewrite E in F. destruct F as [F|[]]. injection F as -> _. now left.
  - intros [|? [|]] q [|] b l3 Q; discriminate Q.
Qed.
Lemma order_two g i a b s t : into g i = [Edge b i t; Edge a i s] -> a <> i -> b <> i -> a <> b -> s <= t -> inputs_in_slot_order g i [a; b].
Proof.
  intros E NA NB NE ST. split; [|split].
  - constructor; [intros [H|[]]; congruence|repeat constructor; intros []].
  - intro m. split.
    + intros [<-|[<-|[]]]; (split; [|assumption]); [exists s|exists t]; apply feeds_into; rewrite E; cbn; auto.
    + intros ((u & F) & _). apply feeds_into in F. rewrite E in F. destruct F as [F|[F|[]]]; injection F as <- _; cbn; auto.
  - intros l1 c l2 d l3 Q sa sb FA FB. apply feeds_into in FA, FB. rewrite E in FA, FB.
    assert (P : c = a /\ d = b).
    { destruct l1 as [|q1 [|q2 l1]]; cbn in Q.
      - injection Q as <- Q. destruct l2 as [|r1 l2]; [injection Q as <- _; auto|injection Q as _ Q; destruct l2; discriminate Q].
      - injection Q as _ _ Q. destruct l2; discriminate Q.
      - injection Q as _ _ Q. destruct l1; discriminate Q. }
    destruct P as (-> & ->). destruct FA as [FA|[FA|[]]]; [congruence|]. destruct FB as [FB|[FB|[]]]; congruence.
Qed.

Lemma paired_same : same_composition demo frame0 frame0 (w_disk (snd (fst kept_first))) safe_disk (fst (fst kept_first)) null_graph paired.
Proof.
  assert (DK : w_disk (snd (fst kept_first)) = safe_disk) by (vm_compute; reflexivity). rewrite DK.
  assert (GK : g_graph (fst (fst kept_first)) = g_graph kept_graph) by (vm_compute; reflexivity).
  assert (NO : forall i l, into (g_graph kept_graph) i = [] -> inputs_in_slot_order (g_graph kept_graph) i l -> l = []).
  { intros i l E (_ & A & _). destruct l as [|a l]; [reflexivity|]. destruct (proj1 (A a) (or_introl eq_refl)) as ((s & F) & _).
    apply feeds_into in F. now rewrite E in F. }
  intros i j [E|[E|[E|[]]]]; injection E as <- <-.
  - eexists 2%nat, 4%nat, _, _. split; [constructor|]. split; [constructor|].
    split; [vm_compute; reflexivity|]. split; [vm_compute; reflexivity|]. split; [vm_compute; reflexivity|]. split; [vm_compute; reflexivity|].
    split; [vm_compute; discriminate|]. rewrite GK. intros l O. exists [2; 3]%nat.
    split; [apply (order_two _ 4 2 3 0 1); [vm_compute; reflexivity|discriminate|discriminate|discriminate|lia]|].
    assert (l = [0; 1]%nat) as ->.
    { apply (order_once (g_graph kept_graph) 2); [|exact O|apply (order_two _ 2 0 1 0 1); [vm_compute; reflexivity|discriminate|discriminate|discriminate|lia]].
      intros a b s FA FB. cbn in FA, FB. destruct FA as [FA|[FA|[FA|[]]]]; try discriminate FA; destruct FB as [FB|[FB|[FB|[]]]]; congruence. }
    constructor; [right; now left|]. constructor; [right; right; now left|constructor].
  - eexists 0%nat, 0%nat, _, _. split; [constructor|].
    split; [apply (through_idle _ 2 pass1 0); [reflexivity|exact I|apply (order_one _ 2 0 0); [vm_compute; reflexivity|discriminate]|constructor]|].
    split; [vm_compute; reflexivity|]. split; [vm_compute; reflexivity|]. split; [vm_compute; reflexivity|]. split; [vm_compute; reflexivity|].
    split; [intros _ path P; exists path; split; [exact P|split; reflexivity]|].
    rewrite GK. intros l O. exists []. split; [apply order_none; vm_compute; reflexivity|]. rewrite (NO 0%nat l eq_refl O). constructor.
  - eexists 1%nat, 1%nat, _, _. split; [constructor|].
    split; [apply (through_idle _ 3 pass2 1); [reflexivity|exact I|apply (order_one _ 3 1 0); [vm_compute; reflexivity|discriminate]|constructor]|].
    split; [vm_compute; reflexivity|]. split; [vm_compute; reflexivity|]. split; [vm_compute; reflexivity|]. split; [vm_compute; reflexivity|].
    split; [intros _ path P; exists path; split; [exact P|split; reflexivity]|].
    rewrite GK. intros l O. exists []. split; [apply order_none; vm_compute; reflexivity|]. rewrite (NO 1%nat l eq_refl O). constructor.
Qed.

Example C105_sessions_example :
  clean_paths (x_expand demo) /\ digest_u64 (x_digest demo) /\
  (forall E, E = kept_setting \/ E = null_setting -> no_collisions (x_digest demo) (SoundSpec.used E) /\
     (forall l, In l (SoundSpec.used E) -> x_digest demo l <> 0) /\ keeps_sources demo E) /\
  roomy area /\ sane demo area fine_disk /\ sorts insertion_sort /\
  exists g w, session Debug demo kept_setting insertion_sort (only g) w /\ fine_disk (w_disk w) /\ careful_graph Debug area g /\ fine_stream area (g_output g) /\
    session Debug demo null_setting insertion_sort (only null_graph) three_world /\ fine_disk (w_disk three_world) /\
    careful_graph Debug area null_graph /\ fine_stream area (g_output null_graph) /\
    find_index g 3 = Some 2%nat /\ all_asked g 2 /\ find_index null_graph 5 = Some 4%nat /\ all_asked null_graph 4 /\
    (exists R, same_composition demo frame0 frame0 (w_disk w) (w_disk three_world) g null_graph R /\ R 2%nat 4%nat) /\
    determined demo (w_disk three_world) frame0 null_graph /\
    map nd_type (g_nodes g) = [TRead; TRead; TMerge; TCrop] /\ map nd_type (g_nodes null_graph) = [TRead; TRead; TNull; TNull; TMerge] /\
    exists g1' w1' log1 g2' w2' log2,
      execute (recording (node_ops Debug demo)) insertion_sort 99 g 3 [frame0] (w, []) = Some (Ok (g1', (w1', log1), ExSuccess)) /\
      Forall (tame Debug demo kept_setting) log1 /\
      execute (recording (node_ops Debug demo)) insertion_sort 99 null_graph 5 [frame0] (three_world, []) = Some (Ok (g2', (w2', log2), ExSuccess)) /\
      Forall (tame Debug demo null_setting) log2 /\ hits (w_cache w1') = 3 /\ hits (w_cache w2') = 0 /\ st_data (g_output g2') = BBox 0 0 3 2.
Proof.
  destruct kept_surroundings as (CP & DU & KS). destruct kept_keys as (NC & NZ). destruct kept_fine as (FD & CG & FS).
  split; [exact CP|]. split; [exact DU|].
  split.
  { intros E [->| ->].
    - split; [exact NC|]. split; [exact NZ|exact (KS _)].
    - split; [apply collision_check; vm_compute; reflexivity|]. split; [|exact (KS _)].
      intros l IL; unfold null_setting, SoundSpec.used, null_keys in IL; repeat (destruct IL as [<-|IL]; [vm_compute; discriminate|]); destruct IL. }
  split; [exact area_roomy|]. split; [exact demo_sane|]. split; [exact insertion_sorts|].
  exists (fst (fst kept_first)), (snd (fst kept_first)).
  split; [exact kept_session|]. split; [exact FD|]. split; [exact CG|]. split; [exact FS|].
  split; [exact (proj1 (three_building null_keys))|]. split; [exact (proj2 safe_world)|].
  split.
  { intros i n ms N _. assert (I : In n three_nodes) by (apply nth_error_In in N; exact N).
    split; [exact (three_wf _ I)|]. destruct I as [<-|[<-|[<-|[<-|[<-|[]]]]]]; exact Logic.I. }
  split; [exact (fine_new area area_roomy)|]. split; [vm_compute; reflexivity|]. clear NC NZ FD CG FS CP DU KS.
  split.
  { intros i n l _ N IO. apply few_inputs in IO.
    destruct i as [|[|[|[|i]]]]; try (vm_compute in N; injection N as <-; vm_compute in IO; split; [exact IO|discriminate]).
    - vm_compute in N, IO. injection N as <-. split; [etransitivity; [exact IO|apply le_S, le_n]|discriminate].
    - vm_compute in N, IO. injection N as <-. split; [etransitivity; [exact IO|apply le_S, le_n]|discriminate].
    - vm_compute in N. destruct i; discriminate N. }
  split; [reflexivity|].
  split.
  { intros i n l _ N IO. apply few_inputs in IO.
    destruct i as [|[|[|[|[|i]]]]]; try (vm_compute in N; injection N as <-; vm_compute in IO; split; [exact IO|discriminate]).
    - vm_compute in N, IO. injection N as <-. split; [etransitivity; [exact IO|apply le_S, le_n]|discriminate].
    - vm_compute in N, IO. injection N as <-. split; [etransitivity; [exact IO|apply le_S, le_n]|discriminate].
    - vm_compute in N. destruct i; discriminate N. }
  split; [exists paired; split; [exact paired_same|now left]|].
  split.
  { split.
    - intros n a b s FA FB. cbn in FA, FB.
      destruct FA as [FA|[FA|[FA|[FA|[]]]]]; injection FA as <- <- <-; destruct FB as [FB|[FB|[FB|[FB|[]]]]]; congruence.
    - intros i n N. assert (I : In n three_nodes) by (apply nth_error_In in N; exact N).
      destruct I as [<-|[<-|[<-|[<-|[<-|[]]]]]]; split; try discriminate; intros _ _ path P; vm_compute in P; injection P as <-; vm_compute; discriminate. }
  split; [vm_compute; reflexivity|]. split; [vm_compute; reflexivity|].
  do 6 eexists. split; [vm_compute; reflexivity|].
  split; [apply all_tame, log_expected; vm_compute; repeat split|].
  split; [vm_compute; reflexivity|]. split; [exact null_tame|]. split; [vm_compute; reflexivity|]. split; vm_compute; reflexivity.
Qed.

(** C110: a tidy graph of working nodes succeeds and shows its composition. *)
From Coq Require String.
Import String.StringSyntax.
From Coq Require Import Lia Floats.SpecFloat.
From Verif Require Import Machine CacheModel FloatModel BBoxModel BBoxSpec PixelModel PixelSpec EnumModel AttrModel
  HashModel HashSpec StreamModel BakeModel GraphModel GraphSpec GraphSim GraphWalk GraphHistory GraphFacts GraphPlay AttrProofs NodeModel NodeExamples
  NodeSpec LutSpec LutHistory LutProofs3 SafeSpec SafeProofs UncachedSpec SoundSpec ShowCacheProofs ViewSpec SceneSpec WriteSpec TotalSpec TotalProofs
  PropertiesNode PropertiesSafe PropertiesSound PropertiesShow2 PropertiesScene PropertiesAlike.
Local Open Scope string_scope.

(** Executing any node of a graph of sensibly set nodes, tree-shaped or levelled
    upstream of it, ends in success if the resampler works; and everything
    stays as the next execution needs it. *)
Theorem C110_succeeds : forall D p (x : externals D) B ok_disk, roomy B -> sane x B ok_disk -> resampler_works x B ->
  forall srt, sorts srt -> forall s0 c0 h g c id start frames w, GraphSpec.history (node_ops p x) srt s0 c0 h g c ->
  find_index g id = Some start -> well_shaped g id -> careful_graph p B g -> fine_stream B (g_output g) -> fine_world p B ok_disk w ->
  exists fuel0 g' w', (forall fuel, (fuel0 <= fuel)%nat -> execute (node_ops p x) srt fuel g id frames w = Some (Ok (g', w', ExSuccess))) /\
    careful_graph p B g' /\ fine_stream B (g_output g') /\ fine_world p B ok_disk w'.
Proof.
  intros D p x B ok_disk R SX RW srt HS s0 c0 h g c id start frames w H.
  exact (succeeds p x B ok_disk R SX RW srt HS g id start frames w (history_wf_graph _ srt (node_keeps_id p x) _ _ _ _ _ H)).
Qed.
Print Assumptions C110_succeeds.

(** Whatever the graph, its settings, the cache and the files: an execution of
    an existing node that returns, and in which nothing is resampled, has
    succeeded. *)
Theorem C110_only_resampling_fails : forall D p (x : externals D) srt, sorts srt ->
  forall s0 c0 h g c fuel id start frames w g' w' e, GraphSpec.history (node_ops p x) srt s0 c0 h g c ->
  find_index g id = Some start -> resamples_nothing g start ->
  execute (node_ops p x) srt fuel g id frames w = Some (Ok (g', w', e)) -> e = ExSuccess.
Proof. exact only_resampling_fails. Qed.
Print Assumptions C110_only_resampling_fails.

(** Every acyclic graph of sensibly set nodes that are all asked for their
    picture describes a composition, whatever the fine files. *)
Theorem C110_described : forall D p (x : externals D) B ok_disk, roomy B -> sane x B ok_disk -> resampler_works x B ->
  forall srt, sorts srt -> forall s0 c0 h g c d fr start, GraphSpec.history (node_ops p x) srt s0 c0 h g c ->
  sg_live (g_graph g) start = true -> acyclic_above (g_graph g) start -> careful_graph p B g -> ok_disk d -> all_asked g start ->
  exists v, scene p x d fr g start v /\ fine_stream B v.
Proof.
  intros D p x B ok_disk R SX RW srt HS s0 c0 h g c d fr start H.
  exact (described p x B ok_disk R SX RW srt HS d fr g start (history_wf_graph _ srt (node_keeps_id p x) _ _ _ _ _ H)).
Qed.
Print Assumptions C110_described.

(** With the cache off and nothing written: the execution succeeds, shows the
    composition, and leaves the files alone. *)
Theorem C110_shows : forall D p (x : externals D) B ok_disk, roomy B -> sane x B ok_disk -> resampler_works x B ->
  forall srt, sorts srt -> forall s0 c0 h g c id start frames fr w, GraphSpec.history (node_ops p x) srt s0 c0 h g c ->
  find_index g id = Some start -> well_shaped g id -> careful_graph p B g -> fine_stream B (g_output g) ->
  fine_world p B ok_disk w -> uncached w -> all_asked g start -> writes_nothing g start ->
  exists fuel0 g' w',
    (forall fuel, (fuel0 <= fuel)%nat -> execute (node_ops p x) srt fuel g id (frames ++ [fr])%list w = Some (Ok (g', w', ExSuccess))) /\
    scene p x (w_disk w) fr g start (g_output g') /\ w_disk w' = w_disk w.
Proof.
  intros D p x B ok_disk R SX RW srt HS s0 c0 h g c id start frames fr w H.
  exact (shows_scene p x B ok_disk R SX RW srt HS g id start frames fr w (history_wf_graph _ srt (node_keeps_id p x) _ _ _ _ _ H)).
Qed.
Print Assumptions C110_shows.

(** With any cache, in any session: the execution succeeds, and shows the
    composition if its computations were tame (C54). *)
Theorem C110_session : forall D p (x : externals D) B ok_disk, roomy B -> sane x B ok_disk -> resampler_works x B ->
  forall srt, sorts srt -> forall E : setting D,
  clean_paths (x_expand x) -> no_collisions (x_digest x) (SoundSpec.used E) -> digest_u64 (x_digest x) ->
  (forall l, In l (SoundSpec.used E) -> x_digest x l <> 0) -> keeps_sources x E ->
  forall G w i id start frames fr, session p x E srt G w -> find_index (G i) id = Some start -> well_shaped (G i) id ->
  careful_graph p B (G i) -> fine_stream B (g_output (G i)) -> fine_world p B ok_disk w -> all_asked (G i) start ->
  exists fuel0 g' w' log,
    (forall fuel, (fuel0 <= fuel)%nat ->
       execute (recording (node_ops p x)) srt fuel (G i) id (frames ++ [fr])%list (w, []) = Some (Ok (g', (w', log), ExSuccess))) /\
    careful_graph p B g' /\ fine_stream B (g_output g') /\ fine_world p B ok_disk w' /\
    (Forall (tame p x E) log -> scene p x (w_disk w) fr (G i) start (g_output g')).
Proof. exact @session_shows. Qed.
Print Assumptions C110_session.

(* ------------------------------ examples ------------------------------ *)

Lemma demo_resamples : resampler_works demo area.
Proof. intros src f i _ _. reflexivity. Qed.

(** Reading, grading, moving, merging, cropping and writing (the graph of C65). *)
Example C110_succeeds_example :
  roomy area /\ sane demo area fine_disk /\ resampler_works demo area /\ sorts insertion_sort /\
  (exists c, GraphSpec.history (node_ops Debug demo) insertion_sort stream_new (demo_world safe_disk 193600) safe_calls safe_graph c) /\
  find_index safe_graph 6 = Some 5%nat /\ well_shaped safe_graph 6 /\ careful_graph Debug area safe_graph /\
  fine_stream area (g_output safe_graph) /\ fine_world Debug area fine_disk (demo_world safe_disk 193600) /\ resamples_nothing safe_graph 5.
Proof.
  destruct C65_example as (c & H & WS & CG & FO & _).
  split; [exact area_roomy|]. split; [exact demo_sane|]. split; [exact demo_resamples|]. split; [exact insertion_sorts|].
  split; [exists c; exact H|]. split; [reflexivity|]. split; [exact WS|]. split; [exact CG|]. split; [exact FO|]. split; [exact safe_world|].
  intros i n _ N T. destruct i as [|[|[|[|[|[|[|i]]]]]]]; try (injection N as <-; discriminate T). destruct i; discriminate N.
Qed.

(** Two readers, a null node after each, and a merge. *)
Definition null_calls : list (gcall node spec_float awrite) :=
  [GAdd kept_read; GAdd kept_other; GAdd pass1; GAdd pass2; GAdd three_merge; GConnect 1 3 0; GConnect 2 4 0; GConnect 3 5 0; GConnect 4 5 1].
Lemma null_links m n : link (g_graph null_graph) m n -> (m = 3 /\ n = 4 \/ m = 2 /\ n = 4 \/ m = 1 /\ n = 3 \/ m = 0 /\ n = 2)%nat.
Proof. intros (s & H). cbn in H. destruct H as [H|[H|[H|[H|[]]]]]; injection H as <- <- _; auto 8. Qed.
Lemma null_careful : careful_graph Debug area null_graph.
Proof.
  intros i n ms N _. assert (I : In n three_nodes) by (apply nth_error_In in N; exact N).
  split; [exact (three_wf _ I)|]. destruct I as [<-|[<-|[<-|[<-|[<-|[]]]]]]; exact Logic.I.
Qed.
Lemma null_asked : all_asked null_graph 4.
Proof.
  intros i n l _ N IO. apply few_inputs in IO.
  destruct i as [|[|[|[|[|i]]]]]; try (vm_compute in N; injection N as <-; vm_compute in IO; split; [exact IO|discriminate]).
  - vm_compute in N, IO. injection N as <-. split; [etransitivity; [exact IO|apply le_S, le_n]|discriminate].
  - vm_compute in N, IO. injection N as <-. split; [etransitivity; [exact IO|apply le_S, le_n]|discriminate].
  - vm_compute in N. destruct i; discriminate N.
Qed.
Lemma null_shaped : well_shaped null_graph 5.
Proof.
  intros start FI. injection FI as <-. split; [reflexivity|right]. split.
  - intros m n n' _ _ L1 L2 _ _. apply null_links in L1, L2. lia.
  - intros n _ L. apply null_links in L. lia.
Qed.
Lemma null_acyclic : acyclic_above (g_graph null_graph) 4.
Proof.
  assert (Q : forall m n, chain (g_graph null_graph) m n -> (m < n)%nat).
  { induction 1 as [m n L _|m n q L _ _ IH]; apply null_links in L; lia. }
  intros n _ C. apply Q in C. lia.
Qed.
Lemma null_built w : GraphSpec.history (node_ops Debug demo) insertion_sort stream_new w null_calls null_graph w.
Proof. apply (played_history _ _ 99). reflexivity. Qed.

Example C110_shows_example :
  roomy area /\ sane demo area fine_disk /\ resampler_works demo area /\ sorts insertion_sort /\
  GraphSpec.history (node_ops Debug demo) insertion_sort stream_new (no_cache safe_disk) null_calls null_graph (no_cache safe_disk) /\
  find_index null_graph 5 = Some 4%nat /\ well_shaped null_graph 5 /\ sg_live (g_graph null_graph) 4 = true /\ acyclic_above (g_graph null_graph) 4 /\
  careful_graph Debug area null_graph /\ fine_stream area (g_output null_graph) /\ fine_disk safe_disk /\
  fine_world Debug area fine_disk (no_cache safe_disk) /\ uncached (no_cache safe_disk) /\ all_asked null_graph 4 /\ writes_nothing null_graph 4.
Proof.
  pose proof (held_none Debug area fine_disk area_roomy safe_disk (proj2 safe_world)) as (FW & UC).
  split; [exact area_roomy|]. split; [exact demo_sane|]. split; [exact demo_resamples|]. split; [exact insertion_sorts|].
  split; [exact (null_built _)|]. split; [reflexivity|]. split; [exact null_shaped|]. split; [reflexivity|]. split; [exact null_acyclic|].
  split; [exact null_careful|]. split; [exact (fine_new area area_roomy)|]. split; [exact (proj2 safe_world)|]. split; [exact FW|]. split; [exact UC|].
  split; [exact null_asked|].
  intros i n _ N T. assert (I : In n three_nodes) by (apply nth_error_In in N; exact N).
  destruct I as [<-|[<-|[<-|[<-|[<-|[]]]]]]; discriminate T.
Qed.

Example C110_session_example :
  clean_paths (x_expand demo) /\ no_collisions (x_digest demo) (SoundSpec.used null_setting) /\ digest_u64 (x_digest demo) /\
  (forall l, In l (SoundSpec.used null_setting) -> x_digest demo l <> 0) /\ keeps_sources demo null_setting /\
  session Debug demo null_setting insertion_sort (only null_graph) three_world /\ find_index null_graph 5 = Some 4%nat /\
  well_shaped null_graph 5 /\ careful_graph Debug area null_graph /\ fine_stream area (g_output null_graph) /\
  fine_world Debug area fine_disk three_world /\ all_asked null_graph 4 /\
  exists g' w' log, execute (recording (node_ops Debug demo)) insertion_sort 99 null_graph 5 [frame0] (three_world, []) = Some (Ok (g', (w', log), ExSuccess)) /\
    Forall (tame Debug demo null_setting) log /\ length log = 5%nat.
Proof.
  destruct kept_surroundings as (CP & DU & KS).
  split; [exact CP|]. split; [apply collision_check; vm_compute; reflexivity|]. split; [exact DU|].
  split; [intros l IL; unfold null_setting, SoundSpec.used, null_keys in IL; repeat (destruct IL as [<-|IL]; [vm_compute; discriminate|]); destruct IL|].
  split; [exact (KS _)|]. split; [exact (proj1 (three_building null_keys))|]. split; [reflexivity|]. split; [exact null_shaped|].
  split; [exact null_careful|]. split; [exact (fine_new area area_roomy)|]. split; [exact safe_world|]. split; [exact null_asked|].
  do 3 eexists. split; [vm_compute; reflexivity|]. split; [exact null_tame|reflexivity].
Qed.

(** The condition on the resampler is needed: if it reports a failure the
    execution fails, though everything else is in order. *)
Definition broken_resampler : externals disk :=
  Externals (x_expand demo) (x_digest demo) (x_numerics demo) (x_convert demo) (fun src _ _ _ => (false, src)) (x_lens_ok demo)
    (x_kind demo) (x_read demo) (x_write demo).
Definition resampled : list (gcall node spec_float awrite) := line [on_a; (TResample, [WI32 "enable" 1; WI32 "factor" 2])].
Theorem C110_resampler_refuted : exists (x : externals disk) B ok_disk h g w id start g' w',
  roomy B /\ sane x B ok_disk /\ GraphSpec.history (node_ops Debug x) insertion_sort stream_new w h g w /\
  find_index g id = Some start /\ well_shaped g id /\ careful_graph Debug B g /\ fine_stream B (g_output g) /\ fine_world Debug B ok_disk w /\
  execute (node_ops Debug x) insertion_sort 99 g id [frame0] w = Some (Ok (g', w', ExError)).
Proof.
  destruct (played (node_ops Debug broken_resampler) insertion_sort 99 stream_new (demo_world safe_disk 193600) resampled) as [[g w]|] eqn:E;
    [|exfalso; revert E; vm_compute; discriminate].
  assert (Q : w = demo_world safe_disk 193600 /\ g = Graph [setup TRead 1 [WStr "file_path" [97]]; setup TResample 2 [WI32 "enable" 1; WI32 "factor" 2]] [1; 2]
    (Stable [true; true] [] [Edge 0 1 0]) stream_new GsDirty ExUninitialized).
  { vm_compute in E. injection E as <- <-. split; vm_compute; reflexivity. }
  destruct Q as (-> & EG).
  exists broken_resampler, area, fine_disk, resampled, g, (demo_world safe_disk 193600), 2, 1%nat.
  assert (LK : forall m n, link (g_graph g) m n -> (m = 0 /\ n = 1)%nat).
  { intros m n (s & H). rewrite EG in H. cbn in H. destruct H as [H|[]]. injection H as <- <- _. auto. }
  assert (X : exists g' w', execute (node_ops Debug broken_resampler) insertion_sort 99 g 2 [frame0] (demo_world safe_disk 193600) = Some (Ok (g', w', ExError)))
    by (rewrite EG; do 2 eexists; vm_compute; reflexivity).
  destruct X as (g' & w' & X). exists g', w'.
  split; [exact area_roomy|]. split.
  { destruct demo_sane as [A1 A2 A3 A4]. split; [exact A1|exact A2| |exact A4]. intros src f i F. exact F. }
  split; [exact (played_history _ _ _ _ _ _ _ _ E)|]. split; [now rewrite EG|].
  split.
  { intros start FI. rewrite EG in FI. injection FI as <-. split; [now rewrite EG|right]. split.
    - intros m n n' _ _ L1 L2 _ _. apply LK in L1, L2. lia.
    - intros n _ L. apply LK in L. lia. }
  split.
  { assert (W : forall t id ws, (forall w, In w ws -> ok_write w) -> HashSpec.wf_block (nd_attrs (setup t id ws)))
      by (intros t id ws H; unfold setup; apply setup_wf; [apply HashProofs.default_wf|exact H]).
    intros i n ms N IO. pose proof (few_inputs _ _ _ IO) as FE. rewrite EG in N, FE. cbn [g_nodes] in N.
    destruct i as [|[|i]]; [injection N as <-|injection N as <-|destruct i; discriminate N].
    - split; [apply W; intros w [<-|[]] c [<-|[]]; lia|exact I].
    - split; [apply W; intros w [<-|[<-|[]]]; cbn; lia|]. intros _ _. vm_compute in FE. exact FE. }
  split; [rewrite EG; exact (fine_new area area_roomy)|]. split; [exact safe_world|exact X].
Qed.
Print Assumptions C110_resampler_refuted.

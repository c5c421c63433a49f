(** C111: what is shown before an edit is shown again once it is undone,
    whatever was executed in between. *)
From Coq Require String.
Import String.StringSyntax.
From Coq Require Import Lia Floats.SpecFloat.
From Verif Require Import Machine Loops FloatModel AttrModel AttrSpec AttrProofs HashModel HashSpec StreamModel GraphModel GraphSpec GraphWalk GraphExec GraphHistory GraphHistory2 GraphSim
  NodeModel ChainSpec RunSpec LutSpec LutHistory IsoSpec IsoProofs IsoFacts SafeSpec SoundSpec ShowCacheProofs SceneSpec SceneProofs SceneProofs2 AlikeSpec AlikeProofs EditSpec EditProofs.

Section Part.
Context {D : Type}.
Variable p : profile.
Variable x : externals D.
Variable srt : edge_sort.
Hypothesis HS : sorts srt.
Notation ops := (node_ops p x).
Notation graph := (graph node stream).

Lemma part_composition U fr1 fr2 d1 d2 (g1 g2 : graph) : wf_graph ops g1 -> wf_graph ops g2 -> NoDup (g_ids g1) -> NoDup (g_ids g2) ->
  same_part same_settings U g1 g2 ->
  (forall id n, U id -> has_node g1 id n -> same_file x fr1 fr2 d1 d2 n) ->
  same_composition x fr1 fr2 d1 d2 g1 g2 (corr U (g_ids g1) (g_ids g2)).
Proof.
  intros WG1 WG2 ND1 ND2 SP SF i j C.
  assert (NODE : forall i j, corr U (g_ids g1) (g_ids g2) i j -> sg_live (g_graph g1) i = true /\ sg_live (g_graph g2) j = true /\
     exists id n n', U id /\ has_node g1 id n /\ nth_error (g_nodes g1) i = Some n /\ nth_error (g_nodes g2) j = Some n' /\ same_settings n n').
  { intros a b (y & UX & Ei & Ej). destruct (sp_nodes _ _ _ _ SP y UX) as (n1 & n2 & (a' & A1 & A2 & A3) & (b' & B1 & B2 & B3) & AL).
    rewrite (nth_error_inj _ _ _ _ ND1 Ei A1), (nth_error_inj _ _ _ _ ND2 Ej B1). split; [exact A2|]. split; [exact B2|].
    exists y, n1, n2. split; [exact UX|]. split; [exists a'; auto|]. auto. }
  destruct (NODE i j C) as (L1 & L2 & id & n & n' & UI & HN & E1 & E2 & (T & _ & A)).
  exists i, j, n, n'. split; [constructor|]. split; [constructor|]. split; [exact E1|]. split; [exact E2|]. split; [exact T|]. split; [exact A|].
  split; [exact (SF id n UI HN)|]. intros l O.
  assert (LEN : forall g : graph, wf_graph ops g -> (length (sg_nodes (g_graph g)) <= length (g_ids g))%nat).
  { intros g WG. rewrite (wg_len _ _ WG), (wg_ids _ _ WG), map_length. lia. }
  destruct (direct_corr srt HS U (g_ids g1) (g_ids g2) (g_graph g1) (g_graph g2) ND1 ND2 (wg_stable _ _ WG1) (wg_stable _ _ WG2)
    (fun a b H => conj (proj1 (NODE a b H)) (proj1 (proj2 (NODE a b H)))) (LEN _ WG1) (LEN _ WG2)
    (sp_wires _ _ _ _ SP) (sp_closed _ _ _ _ SP) (sp_slots _ _ _ _ SP) i j C) as (l1 & l2 & D1 & D2 & F).
  rewrite (direct_upstream_ok srt (g_graph g1) HS (wg_stable _ _ WG1) i) in D1 by now apply live_lt_bound.
  rewrite (direct_upstream_ok srt (g_graph g2) HS (wg_stable _ _ WG2) j) in D2 by now apply live_lt_bound.
  injection D1 as <-. injection D2 as <-.
  exists (inputs_of srt (g_graph g2) j). split; [apply inputs_slot_order; [exact HS|exact (wg_stable _ _ WG2)]|].
  assert (ONE : forall a b s, feeds (g_graph g1) a i s -> feeds (g_graph g1) b i s -> a = b).
  { intros a b s FA FB. destruct C as (y & UY & Ei & _).
    assert (ID : forall a, feeds (g_graph g1) a i s -> exists ia, nth_error (g_ids g1) a = Some ia /\ wire g1 ia y s).
    { intros q FQ. pose proof (proj1 (ws_ends_live _ (wg_stable _ _ WG1) _ FQ)) as LQ. cbn [e_src] in LQ. apply live_lt_length in LQ.
      destruct (nth_error (g_ids g1) q) as [iq|] eqn:EQ; [|apply nth_error_None in EQ; pose proof (LEN _ WG1); lia].
      exists iq. split; [reflexivity|]. exists q, i. auto. }
    destruct (ID a FA) as (ia & EA & XA), (ID b FB) as (ib & EB & XB).
    pose proof (sp_slots _ _ _ _ SP _ _ _ _ UY XA XB) as ->. exact (nth_error_inj _ _ _ _ ND1 EA EB). }
  rewrite (order_once (g_graph g1) i ONE l (inputs_of srt (g_graph g1) i) O); [exact F|].
  apply inputs_slot_order; [exact HS|exact (wg_stable _ _ WG1)].
Qed.
End Part.

Theorem shown_again : forall D p (x : externals D) (E1 E2 : setting D),
  clean_paths (x_expand x) -> digest_u64 (x_digest x) ->
  (forall E, E = E1 \/ E = E2 -> no_collisions (x_digest x) (SoundSpec.used E) /\
     (forall l, In l (SoundSpec.used E) -> x_digest x l <> 0) /\ keeps_sources x E) ->
  forall B ok_disk, roomy B -> sane x B ok_disk -> forall srt, sorts srt ->
  forall G1 G2 w1 w2 i1 i2 fuel1 fuel2 id start1 start2 frames1 frames2 fr g1' g2' w1' w2' log1 log2 U,
  session p x E1 srt G1 w1 -> ok_disk (w_disk w1) -> careful_graph p B (G1 i1) -> fine_stream B (g_output (G1 i1)) ->
  session p x E2 srt G2 w2 -> ok_disk (w_disk w2) -> careful_graph p B (G2 i2) -> fine_stream B (g_output (G2 i2)) ->
  NoDup (g_ids (G1 i1)) -> NoDup (g_ids (G2 i2)) ->
  Forall configured (g_nodes (G1 i1)) -> Forall configured (g_nodes (G2 i2)) ->
  same_part same_readings U (G1 i1) (G2 i2) -> U id ->
  (forall m n, U m -> has_node (G1 i1) m n -> same_file x fr fr (w_disk w1) (w_disk w2) n) ->
  find_index (G1 i1) id = Some start1 -> all_asked (G1 i1) start1 ->
  find_index (G2 i2) id = Some start2 -> all_asked (G2 i2) start2 ->
  determined x (w_disk w2) fr (G2 i2) ->
  execute (recording (node_ops p x)) srt fuel1 (G1 i1) id (frames1 ++ [fr])%list (w1, []) = Some (Ok (g1', (w1', log1), ExSuccess)) ->
  Forall (tame p x E1) log1 ->
  execute (recording (node_ops p x)) srt fuel2 (G2 i2) id (frames2 ++ [fr])%list (w2, []) = Some (Ok (g2', (w2', log2), ExSuccess)) ->
  Forall (tame p x E2) log2 ->
  looks_like (g_output g1') (g_output g2').
Proof.
  intros D p x E1 E2 CP DU K B ok R X srt HS G1 G2 w1 w2 i1 i2 fuel1 fuel2 id start1 start2 frames1 frames2 fr g1' g2' w1' w2' log1 log2 U
    S1 O1 C1 F1 S2 O2 C2 F2 N1 N2 Q1 Q2 SP UI SF I1 A1 I2 A2 DE R1 T1 R2 T2.
  pose proof (session_wf p x E1 srt G1 w1 S1 i1) as WG1. pose proof (session_wf p x E2 srt G2 w2 S2 i2) as WG2.
  pose proof (part_composition p x srt HS U fr fr (w_disk w1) (w_disk w2) (G1 i1) (G2 i2) WG1 WG2 N1 N2 (part_settings U _ _ Q1 Q2 SP) SF) as SC.
  refine (alike_sessions D p x E1 E2 CP DU K B B ok ok R R X X srt srt HS HS G1 G2 w1 w2 i1 i2 fuel1 fuel2 id id start1 start2 frames1 frames2 fr fr
    g1' g2' w1' w2' log1 log2 S1 O1 C1 F1 S2 O2 C2 F2 I1 A1 I2 A2 _ SC _ DE R1 T1 R2 T2).
  exists id. split; [exact UI|]. split; [exact (proj1 (position_lt _ _ _ I1))|exact (proj1 (position_lt _ _ _ I2))].
Qed.

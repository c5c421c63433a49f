(** Executions of sensibly set graphs. *)
From Coq Require Import Floats.SpecFloat.
From Verif Require Import Machine BBoxModel PixelModel AttrModel AttrProofs StreamModel GraphModel GraphSpec GraphWalk GraphExec GraphHistory
  GraphHistory2 GraphCount GraphFacts NodeModel IsoSpec SafeSpec GraphSafe SafeProofs.

Section Facts.
Context {D : Type}.
Variable p : profile.
Variable x : externals D.
Variable B : bbox.
Variable ok_disk : D -> Prop.
Variable srt : edge_sort.
Hypothesis HS : sorts srt.
Hypothesis R : roomy B.
Hypothesis SX : sane x B ok_disk.
Notation ops := (node_ops p x).
Notation fine_world := (fine_world p B ok_disk).

Lemma careful_key n n' k : nd_type n' = nd_type n -> nd_attrs n' = nd_attrs n -> careful p B n k -> careful p B n' k.
Proof. unfold careful. intros -> ->. auto. Qed.

Lemma compute_key n fr mode ins out w n' st out' w' : node_compute p x n fr mode ins out w = Ok (n', st, out', w') ->
  (nd_type n', nd_attrs n') = (nd_type n, nd_attrs n).
Proof.
  unfold node_compute. destruct (HashModel.cache_hash _ _ _ _ _ _ _); cbn [bind]; [|discriminate].
  destruct (compute_op _ _ _ _ _ _ _ _ _ _) as [[[? ?] ?]|]; cbn [bind]; [|discriminate]. intros [= <- _ _ _]. reflexivity.
Qed.

Lemma execute_careful fuel g id frames w g' w' st : execute ops srt fuel g id frames w = Some (Ok (g', w', st)) ->
  careful_graph p B g -> careful_graph p B g'.
Proof.
  intros H C. destruct (execute_result ops srt (node_keeps_id p x) fuel g id frames w g' w' st H) as (EG & _).
  pose proof (execute_keys ops srt (fun n : node => (nd_type n, nd_attrs n)) compute_key fuel g id frames w g' w' st H) as K.
  intros i n ms N I. rewrite EG in I.
  assert (Q : nth_error (map (fun n : node => (nd_type n, nd_attrs n)) (g_nodes g)) i = Some (nd_type n, nd_attrs n))
    by (rewrite <- K, nth_error_map, N; reflexivity).
  rewrite nth_error_map in Q. destruct (nth_error (g_nodes g) i) as [n0|] eqn:N0; [|discriminate Q].
  injection Q as E1 E2. apply (careful_key n0); auto. exact (C i n0 ms N0 I).
Qed.

Lemma no_abort s0 c0 h g c id frames w : history ops srt s0 c0 h g c ->
  well_shaped g id -> careful_graph p B g -> fine_stream B (g_output g) -> fine_world w ->
  exists fuel0 g' w' st, (forall fuel, (fuel0 <= fuel)%nat -> execute ops srt fuel g id frames w = Some (Ok (g', w', st))) /\
    careful_graph p B g' /\ fine_stream B (g_output g') /\ fine_world w'.
Proof.
  intros H WS C FO FW. pose proof (history_wf_graph ops srt (node_keeps_id p x) _ _ _ _ _ H) as WG.
  destruct (find_index g id) as [start|] eqn:FI.
  - destruct (WS start FI) as (L & SH).
    destruct (no_panic ops srt HS (careful p B) (fine_stream B) fine_world (node_behaves p x B ok_disk R SX) g id start frames w WG FI L SH)
      as (f0 & g' & w' & st & E & MO & GC & _); auto.
    { intros i n ms _ N I. exact (C i n ms N I). }
    exists f0, g', w', st. split; [exact E|]. split; [exact (execute_careful _ _ _ _ _ _ _ _ (E f0 (Nat.le_refl _)) C)|]. split; assumption.
  - exists O. do 3 eexists. split; [intros fuel _; unfold execute; rewrite FI; reflexivity|]. split; [exact C|]. split; assumption.
Qed.

Lemma whole_session qs : forall s0 c0 h g w, history ops srt s0 c0 h g w ->
  (forall q, In q qs -> well_shaped g (fst q)) -> careful_graph p B g -> fine_stream B (g_output g) -> fine_world w ->
  exists g' w', then_calls ops srt (map (fun q => GExecute (fst q) (snd q)) qs) g w g' w' /\
    careful_graph p B g' /\ fine_stream B (g_output g') /\ fine_world w'.
Proof.
  induction qs as [|q qs IH]; intros s0 c0 h g w H WS C FO FW; [exists g, w; split; [constructor|auto]|].
  destruct (no_abort s0 c0 h g w (fst q) (snd q) w H (WS q (or_introl eq_refl)) C FO FW) as (f0 & g1 & w1 & st & E & C1 & FO1 & FW1).
  specialize (E f0 (Nat.le_refl _)). destruct (execute_result ops srt (node_keeps_id p x) _ _ _ _ _ _ _ _ E) as (EG & EI & _).
  assert (CC : calls ops srt g w (GExecute (fst q) (snd q)) g1 w1) by (cbn; eauto).
  destruct (IH s0 c0 _ g1 w1 (h_call _ _ _ _ _ _ _ _ _ _ H CC)) as (g' & w' & TC & X); auto.
  - intros q' Hq start FI. unfold find_index in FI. rewrite EI in FI. rewrite EG. exact (WS q' (or_intror Hq) start FI).
  - exists g', w'. split; [|exact X]. cbn [map]. econstructor; eassumption.
Qed.

Lemma only_by_order s0 c0 h g c id start frames w : history ops srt s0 c0 h g c ->
  find_index g id = Some start -> sg_live (g_graph g) start = true -> frames <> [] ->
  careful_graph p B g -> fine_stream B (g_output g) -> fine_world w ->
  exists l, all_upstream srt (g_graph g) start = Ok l /\
    ((exists fuel, execute ops srt fuel g id frames w = Some Panic) <->
     exists l1 m l2 n l3, map fst l = l1 ++ m :: l2 ++ n :: l3 /\ link (g_graph g) m n).
Proof.
  intros H FI L NF C FO FW. pose proof (history_wf_graph ops srt (node_keeps_id p x) _ _ _ _ _ H) as WG.
  apply (panic_is_order ops srt HS (careful p B) (fine_stream B) fine_world (node_behaves p x B ok_disk R SX)); auto.
  intros i n ms _ N I. exact (C i n ms N I).
Qed.
End Facts.

(** Executions whose every computation gives what the node stands for, given
    something that holds of cache and disk in the end, and therefore all the
    way. *)
From Coq Require Import Permutation Sorted.
From Verif Require Import Machine GraphModel GraphSpec GraphWalk GraphExec GraphHistory GraphHistory2 GraphFacts GraphMeaning RunSpec RunProofs.

Section Run.
Context {N St Ca F W K : Type}.
Variable ops : nodeops N St Ca F W.
Variable srt : edge_sort.
Variable key : N -> K.
Hypothesis HS : sorts srt.
(** [C], [S]: invariants; [G]: what is known in the end; [V]: what is made. *)
Variables (C G : Ca -> Prop) (S : St -> Prop) (V : F -> nat -> St -> Prop).
Notation ins g := (inputs_of srt (g_graph g)).

Hypothesis back : forall n fr m is out c n' st v c', n_compute ops n fr m is out c = Ok (n', st, v, c') -> G c' -> G c.

Definition steps (nodes : list N) (inputs : nat -> list nat) (start : nat) : Prop :=
  forall fr i m n is out c n' st v c', asks ops key nodes inputs start i m -> like key nodes i n ->
    n_compute ops n fr m is out c = Ok (n', st, v, c') -> G c' -> C c -> S out -> Forall2 (V fr) (inputs i) is ->
    key n' = key n /\ C c' /\ S v /\ ((st = NsValid \/ st = NsWarning) -> V fr i v).

Lemma output_back (g : graph N St) is i fr m c sc g' c' sc' e :
  compute_node_output ops g is i fr m c sc = Ok (g', c', sc', e) -> G c' -> G c.
Proof.
  unfold compute_node_output. destruct (get_node g i) as [n|]; cbn [bind]; [|discriminate].
  destruct (n_compute ops n fr m is (g_output g) c) as [[[[n' st] out] c1]|] eqn:E; cbn [bind]; [|discriminate].
  intros H GC. apply (back _ _ _ _ _ _ _ _ _ _ E). destruct st; injection H as _ <- _ _; exact GC.
Qed.
Lemma phase_back fr t : forall (g : graph N St) c sc g' c' e, compute_phase ops srt g fr t c sc = Ok (g', c', e) -> G c' -> G c.
Proof.
  induction t as [|[i m] t IH]; intros g c sc g' c' e H GC; cbn [compute_phase] in H.
  - injection H as _ <- _. exact GC.
  - destruct (input_streams srt g i sc) as [is|]; cbn [bind] in H; [|discriminate].
    destruct (compute_node_output ops g is i fr m c sc) as [[[[g1 c1] sc1] e1]|] eqn:E; cbn [bind] in H; [|discriminate].
    apply (output_back _ _ _ _ _ _ _ _ _ _ _ E). destruct e1; [injection H as _ <- _; exact GC|exact (IH _ _ _ _ _ _ H GC)].
Qed.
Lemma frame_back fuel (g : graph N St) order fr c g' c' e :
  execute_frame ops srt fuel g order fr c = Some (Ok (g', c', e)) -> G c' -> G c.
Proof.
  unfold execute_frame. destruct (hash_phase _ _ _ _ _ _) as [hc|]; [|discriminate]. destruct order; [discriminate|].
  destruct (validate_loop _ _ _ _ _ _ _) as [[v|]|]; try discriminate. intros H. injection H as H. exact (phase_back _ _ _ _ _ _ _ _ H).
Qed.
Lemma frames_back fuel order frames : forall (g : graph N St) c g' c' e,
  execute_frames ops srt fuel g order frames c = Some (Ok (g', c', e)) -> G c' -> G c.
Proof.
  induction frames as [|fr frames IH]; intros g c g' c' e H GC; cbn [execute_frames] in H.
  - injection H as _ <- _. exact GC.
  - destruct (execute_frame _ _ _ _ _ _ _) as [[((g1, c1), [e1|])|]|] eqn:E; try discriminate.
    + injection H as _ <- _. exact (frame_back _ _ _ _ _ _ _ _ E GC).
    + apply (frame_back _ _ _ _ _ _ _ _ E). exact (IH _ _ _ _ _ H GC).
Qed.

Section Phase.
Variables (nodes : list N) (inputs : nat -> list nat) (fr : F) (start : nat).
Hypothesis ST : steps nodes inputs start.

Lemma lookup_all_V : forall is sc vs, (forall i v, lookup i sc = Some v -> V fr i v) -> lookup_all is sc = Ok vs -> Forall2 (V fr) is vs.
Proof.
  induction is as [|i is IH]; intros sc vs SC H; cbn [lookup_all] in H.
  - injection H as <-. constructor.
  - destruct (lookup i sc) as [a|] eqn:E; [|discriminate].
    destruct (lookup_all is sc) as [r|] eqn:R; [|discriminate]. cbn [bind] in H. injection H as <-. constructor; eauto.
Qed.

Lemma phase_shows : forall t (g : graph N St) c sc g' c', runnable g -> C c -> S (g_output g) ->
  keyed key nodes (g_nodes g) -> (forall i, inputs i = ins g i) -> (forall i v, lookup i sc = Some v -> V fr i v) ->
  (forall i m, In (i, m) t -> asks ops key nodes inputs start i m /\ (i < node_bound (g_graph g))%nat) ->
  compute_phase ops srt g fr t c sc = Ok (g', c', None) -> G c' ->
  keyed key nodes (g_nodes g') /\ C c' /\ S (g_output g') /\
  (forall t' i m, t = t' ++ [(i, m)] -> V fr i (g_output g')).
Proof.
  induction t as [|(i, m) t IH]; intros g c sc g' c' HR CI SI KE EI SC HA H GC; cbn [compute_phase] in H.
  - injection H as <- <-. split; [exact KE|]. split; [exact CI|]. split; [exact SI|]. intros t' i m E. destruct t'; discriminate.
  - destruct (HA i m (or_introl eq_refl)) as (Ai & Bi). unfold input_streams in H.
    rewrite (direct_upstream_ok srt (g_graph g) HS (proj1 HR)) in H by exact Bi. cbn [bind] in H.
    destruct (lookup_all (ins g i) sc) as [vs|] eqn:L; [|discriminate]. cbn [bind] in H.
    pose proof (lookup_all_V _ _ _ SC L) as FV. rewrite <- EI in FV.
    unfold compute_node_output in H. unfold get_node in H.
    destruct (nth_error (g_nodes g) i) as [n|] eqn:En; [|discriminate]. cbn [bind] in H.
    destruct (n_compute ops n fr m vs (g_output g) c) as [(((n', st), out), c1)|] eqn:Ec; [|discriminate]. cbn [bind] in H.
    assert (LK : like key nodes i n).
    { destruct (keyed_nth _ _ _ _ _ KE En) as (n0 & E0 & E1). exists n0. auto. }
    assert (OK : st = NsValid \/ st = NsWarning) by (destruct st; cbn [bind] in H; try discriminate; auto).
    set (g1 := with_output (with_nodes g (set_nth (g_nodes g) i n')) out) in H.
    assert (H' : compute_phase ops srt g1 fr t c1 ((i, out) :: sc) = Ok (g', c', None)) by (destruct OK as [-> | ->]; exact H).
    destruct (ST _ _ _ _ _ _ _ _ _ _ _ Ai LK Ec (phase_back _ _ _ _ _ _ _ _ H' GC) CI SI FV) as (Kn & C1 & S1 & V1). specialize (V1 OK).
    assert (KE1 : keyed key nodes (g_nodes g1)).
    { unfold keyed. transitivity (map key (g_nodes g)); [exact KE|]. symmetry. cbn. eapply map_set_nth; eauto. }
    assert (SH : same_shape g g1) by (unfold same_shape, g1, with_output, with_nodes; cbn; rewrite set_nth_length; repeat split).
    destruct (IH g1 c1 ((i, out) :: sc) g' c') as (X1 & X2 & X3 & X4); auto.
    + eapply runnable_shape; eauto.
    + intros j v Hj. cbn in Hj. destruct (Nat.eqb_spec j i) as [->|]; [injection Hj as <-; exact V1|exact (SC j v Hj)].
    + intros j mj Hj. apply HA. now right.
    + split; [exact X1|]. split; [exact X2|]. split; [exact X3|]. intros t' j mj E. destruct t' as [|q t'].
      * cbn in E. injection E as <- <- ->. cbn in H'. injection H' as <- _. exact V1.
      * cbn in E. injection E as _ E. exact (X4 _ _ _ E).
Qed.
End Phase.

Lemma steps_keyed a b inputs start : keyed key a b -> steps a inputs start -> steps b inputs start.
Proof.
  intros E H fr i m n is out c n' st v c' A L. apply H with (m := m); [exact (asks_keyed _ _ _ _ _ _ _ _ E A)|exact (like_keyed _ _ _ _ _ E L)].
Qed.

Lemma frame_shows fuel (g : graph N St) start t fr c g' c' : runnable g -> C c -> S (g_output g) ->
  steps (g_nodes g) (ins g) start -> (start < node_bound (g_graph g))%nat ->
  execute_frame ops srt fuel g (start :: t) fr c = Some (Ok (g', c', None)) -> G c' ->
  keyed key (g_nodes g) (g_nodes g') /\ C c' /\ S (g_output g') /\ V fr start (g_output g').
Proof.
  intros HR CI SI ST HB H GC. unfold execute_frame in H.
  destruct (hash_phase _ _ _ _ _ _) as [hc|]; [|discriminate].
  destruct (validate_loop _ _ _ _ _ _ _) as [[v|]|] eqn:E; try discriminate. injection H as H.
  destruct (validate_loop_asks ops srt key HS fuel g hc start [(start, mode_all)] [(start, mode_all)] v HR) with (3 := E) as ((w & ->) & A).
  1,2: intros i m [Q|[]]; injection Q as <- <-; split; [constructor|exact HB].
  destruct (phase_shows (g_nodes g) (ins g) fr start ST (rev ([(start, mode_all)] ++ w)) g c [] g' c') as (X1 & X2 & X3 & X4); auto.
  - reflexivity.
  - discriminate.
  - intros i m Hi. apply A. now apply in_rev.
  - split; [exact X1|]. split; [exact X2|]. split; [exact X3|]. apply (X4 (rev w) start mode_all). reflexivity.
Qed.

Lemma frames_show : forall fuel start t frames (g : graph N St) c g' c' fr0, runnable g -> C c -> S (g_output g) ->
  steps (g_nodes g) (ins g) start -> (start < node_bound (g_graph g))%nat ->
  execute_frames ops srt fuel g (start :: t) (frames ++ [fr0]) c = Some (Ok (g', c', None)) -> G c' ->
  C c' /\ S (g_output g') /\ V fr0 start (g_output g').
Proof.
  intros fuel start t. induction frames as [|fr frames IH]; intros g c g' c' fr0 HR CI SI ST HB H GC; cbn [app execute_frames] in H.
  - destruct (execute_frame _ _ _ _ _ _ _) as [[((g1, c1), [e1|])|]|] eqn:E; try discriminate.
    injection H as <- <-. exact (proj2 (frame_shows _ _ _ _ _ _ _ _ HR CI SI ST HB E GC)).
  - destruct (execute_frame _ _ _ _ _ _ _) as [[((g1, c1), [e1|])|]|] eqn:E; try discriminate.
    pose proof (execute_frame_shape _ _ _ _ _ _ _ _ _ _ E) as S1.
    destruct (frame_shows _ _ _ _ _ _ _ _ HR CI SI ST HB E (frames_back _ _ _ _ _ _ _ _ H GC)) as (K1 & C1 & I1 & _).
    assert (G1 : g_graph g1 = g_graph g) by apply S1.
    apply (IH g1 c1 g' c' fr0); auto; try (now rewrite G1).
    + eapply runnable_shape; eauto.
    + rewrite G1. eapply steps_keyed; eauto.
Qed.

Theorem execute_shows fuel (g : graph N St) id start frames fr0 c g' c' : wf_graph ops g -> C c -> S (g_output g) ->
  find_index g id = Some start ->
  (forall inputs, (forall n, inputs_in_slot_order (g_graph g) n (inputs n)) -> steps (g_nodes g) inputs start) ->
  execute ops srt fuel g id (frames ++ [fr0]) c = Some (Ok (g', c', ExSuccess)) -> G c' ->
  (forall n, inputs_in_slot_order (g_graph g) n (ins g n)) /\ C c' /\ S (g_output g') /\ V fr0 start (g_output g').
Proof.
  intros WF CI SI HI ST H GC. pose proof (wf_runnable ops g WF) as HR.
  unfold execute in H. rewrite HI in H.
  destruct (Nat.lt_ge_cases start (node_bound (g_graph g))) as [HB|HB].
  2: { rewrite (all_upstream_panics srt (g_graph g) start HB) in H. discriminate. }
  destruct (all_upstream_ok srt (g_graph g) HS (proj1 HR) start HB) as (l & E & R). rewrite E in H.
  destruct (br_first _ _ _ R) as (t & ->). cbn [map fst] in H.
  destruct (execute_frames ops srt fuel g _ _ c) as [[((g1, c1), [e|])|]|] eqn:X; try discriminate.
  { destruct e; discriminate. }
  injection H as <- <-.
  assert (IO : forall n, inputs_in_slot_order (g_graph g) n (ins g n)).
  { intros n. exact (inputs_slot_order srt (g_graph g) HS (wg_stable _ _ WF) n). }
  split; [exact IO|]. exact (frames_show _ _ _ _ _ _ _ _ _ HR CI SI (ST _ IO) HB X GC).
Qed.
End Run.

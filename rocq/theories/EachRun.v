(** Executions as traces: which nodes are computed in a frame, in turn, and what
    each does to cache and disk. *)
From Coq Require Import Permutation Sorted.
From Verif Require Import Machine GraphModel GraphSpec GraphWalk GraphExec GraphHistory GraphHistory2 GraphFacts GraphMeaning RunSpec RunProofs SceneRun.

Section Run.
Context {N St Ca F W K : Type}.
Variable ops : nodeops N St Ca F W.
Variable srt : edge_sort.
Variable key : N -> K.
Hypothesis HS : sorts srt.
(** [C], [S]: invariants; [G]: what is known in the end; [V]: what is made;
    [T]: what a computation of a node does to cache and disk. *)
Variables (C G : Ca -> Prop) (S : St -> Prop) (V : F -> nat -> St -> Prop) (T : F -> nat -> Ca -> Ca -> Prop).
Notation ins g := (inputs_of srt (g_graph g)).

Hypothesis back : forall n fr m is out c n' st v c', n_compute ops n fr m is out c = Ok (n', st, v, c') -> G c' -> G c.

Definition steps (nodes : list N) (inputs : nat -> list nat) (start : nat) : Prop :=
  forall fr i m n is out c n' st v c', asks ops key nodes inputs start i m -> like key nodes i n ->
    n_compute ops n fr m is out c = Ok (n', st, v, c') -> G c' -> C c -> S out -> Forall2 (V fr) (inputs i) is ->
    key n' = key n /\ C c' /\ S v /\ ((st = NsValid \/ st = NsWarning) -> V fr i v /\ T fr i c c').

Inductive trace (fr : F) : list nat -> Ca -> Ca -> Prop :=
| tr_nil c : trace fr [] c c
| tr_cons i l c c1 c' : T fr i c c1 -> trace fr l c1 c' -> trace fr (i :: l) c c'.

(** Frame by frame, all nodes before [start]. *)
Inductive traces (sg : stable) (start : nat) : list F -> Ca -> Ca -> Prop :=
| ts_nil c : traces sg start [] c c
| ts_cons fr frs l c c1 c' : trace fr l c c1 -> (forall i, In i l <-> reaches sg i start) ->
    traces sg start frs c1 c' -> traces sg start (fr :: frs) c c'.

Section Phase.
Variables (nodes : list N) (inputs : nat -> list nat) (fr : F) (start : nat).
Hypothesis ST : steps nodes inputs start.

Lemma lookup_all_in : forall is (sc : list (nat * St)) vs, lookup_all is sc = Ok vs -> forall j, In j is -> exists v, lookup j sc = Some v.
Proof.
  induction is as [|i is IH]; intros sc vs H j J; [destruct J|]. cbn [lookup_all] in H.
  destruct (lookup i sc) as [a|] eqn:E; [|discriminate]. destruct (lookup_all is sc) as [r|] eqn:R; [|discriminate].
  destruct J as [<-|J]; [eauto|exact (IH _ _ R j J)].
Qed.

Lemma phase_trace : forall t (g : graph N St) c sc g' c', runnable g -> C c -> S (g_output g) ->
  keyed key nodes (g_nodes g) -> (forall i, inputs i = ins g i) -> (forall i v, lookup i sc = Some v -> V fr i v) ->
  (forall i m, In (i, m) t -> asks ops key nodes inputs start i m /\ (i < node_bound (g_graph g))%nat) ->
  compute_phase ops srt g fr t c sc = Ok (g', c', None) -> G c' ->
  keyed key nodes (g_nodes g') /\ C c' /\ S (g_output g') /\ trace fr (map fst t) c c' /\
  (forall i j, In i (map fst t) -> In j (inputs i) -> In j (map fst t) \/ exists v, lookup j sc = Some v).
Proof.
  induction t as [|(i, m) t IH]; intros g c sc g' c' HR CI SI KE EI SC HA H GC; cbn [compute_phase] in H.
  - injection H as <- <-. split; [exact KE|]. split; [exact CI|]. split; [exact SI|]. split; [constructor|intros ? ? []].
  - destruct (HA i m (or_introl eq_refl)) as (Ai & Bi). unfold input_streams in H.
    rewrite (direct_upstream_ok srt (g_graph g) HS (proj1 HR)) in H by exact Bi. cbn [bind] in H.
    destruct (lookup_all (ins g i) sc) as [vs|] eqn:L; [|discriminate]. cbn [bind] in H.
    pose proof (lookup_all_V V fr _ _ _ SC L) as FV. rewrite <- EI in FV.
    unfold compute_node_output in H. unfold get_node in H.
    destruct (nth_error (g_nodes g) i) as [n|] eqn:En; [|discriminate]. cbn [bind] in H.
    destruct (n_compute ops n fr m vs (g_output g) c) as [(((n', st), out), c1)|] eqn:Ec; [|discriminate]. cbn [bind] in H.
    assert (LK : like key nodes i n).
    { destruct (keyed_nth _ _ _ _ _ KE En) as (n0 & E0 & E1). exists n0. auto. }
    assert (OK : st = NsValid \/ st = NsWarning) by (destruct st; cbn [bind] in H; try discriminate; auto).
    set (g1 := with_output (with_nodes g (set_nth (g_nodes g) i n')) out) in H.
    assert (H' : compute_phase ops srt g1 fr t c1 ((i, out) :: sc) = Ok (g', c', None)) by (destruct OK as [-> | ->]; exact H).
    destruct (ST _ _ _ _ _ _ _ _ _ _ _ Ai LK Ec (phase_back ops srt G back _ _ _ _ _ _ _ _ H' GC) CI SI FV) as (Kn & C1 & S1 & V1).
    destruct (V1 OK) as (V2 & T2).
    assert (KE1 : keyed key nodes (g_nodes g1)).
    { unfold keyed. transitivity (map key (g_nodes g)); [exact KE|]. symmetry. cbn. eapply map_set_nth; eauto. }
    assert (SH : same_shape g g1) by (unfold same_shape, g1, with_output, with_nodes; cbn; rewrite set_nth_length; repeat split).
    destruct (IH g1 c1 ((i, out) :: sc) g' c') as (X1 & X2 & X3 & X4 & X5); auto.
    + eapply runnable_shape; eauto.
    + intros j v Hj. cbn in Hj. destruct (Nat.eqb_spec j i) as [->|]; [injection Hj as <-; exact V2|exact (SC j v Hj)].
    + intros j mj Hj. apply HA. now right.
    + split; [exact X1|]. split; [exact X2|]. split; [exact X3|]. split; [exact (tr_cons _ _ _ _ _ _ T2 X4)|].
      intros a b [<-|IA] IB.
      * right. rewrite EI in IB. exact (lookup_all_in _ _ _ L b IB).
      * destruct (X5 a b IA IB) as [Y|(v & Y)]; [left; now right|]. cbn in Y.
        destruct (Nat.eqb_spec b i) as [->|]; [left; now left|right; eauto].
Qed.
End Phase.

Lemma steps_keyed a b inputs start : keyed key a b -> steps a inputs start -> steps b inputs start.
Proof.
  intros E H fr i m n is out c n' st v c' A L. apply H with (m := m); [exact (asks_keyed _ _ _ _ _ _ _ _ E A)|exact (like_keyed _ _ _ _ _ E L)].
Qed.

Lemma asks_reach (g : graph N St) inputs start i m : (forall n, inputs_in_slot_order (g_graph g) n (inputs n)) ->
  asks ops key (g_nodes g) inputs start i m -> reaches (g_graph g) i start.
Proof.
  intros IO A. induction A as [|i mode n h ns modes j m A IH LK FN V0 Hj]; [exists 0%nat; constructor|].
  destruct IH as (k & U). exists (Datatypes.S k). eapply up_step; [exact U|]. apply in_combine_l in Hj. destruct (IO i) as (_ & IN & _). now apply IN in Hj.
Qed.

Lemma frame_trace fuel (g : graph N St) start t fr c g' c' : runnable g -> C c -> S (g_output g) ->
  (forall n, inputs_in_slot_order (g_graph g) n (ins g n)) ->
  steps (g_nodes g) (ins g) start -> (start < node_bound (g_graph g))%nat ->
  execute_frame ops srt fuel g (start :: t) fr c = Some (Ok (g', c', None)) -> G c' ->
  keyed key (g_nodes g) (g_nodes g') /\ C c' /\ S (g_output g') /\
  exists l, trace fr l c c' /\ forall i, In i l <-> reaches (g_graph g) i start.
Proof.
  intros HR CI SI IO ST HB H GC. unfold execute_frame in H.
  destruct (hash_phase _ _ _ _ _ _) as [hc|]; [|discriminate].
  destruct (validate_loop _ _ _ _ _ _ _) as [[v|]|] eqn:E; try discriminate. injection H as H.
  destruct (validate_loop_asks ops srt key HS fuel g hc start [(start, mode_all)] [(start, mode_all)] v HR) with (3 := E) as ((w & ->) & A).
  1,2: intros i m [Q|[]]; injection Q as <- <-; split; [constructor|exact HB].
  set (t0 := rev ([(start, mode_all)] ++ w)) in *.
  destruct (phase_trace (g_nodes g) (ins g) fr start ST t0 g c [] g' c') as (X1 & X2 & X3 & X4 & X5); auto.
  - reflexivity.
  - discriminate.
  - intros i m Hi. apply A. now apply in_rev.
  - split; [exact X1|]. split; [exact X2|]. split; [exact X3|]. exists (map fst t0). split; [exact X4|].
    intro i. split.
    + intro I. apply in_map_iff in I. destruct I as ((j & m) & <- & I). apply in_rev in I. exact (asks_reach g _ _ _ _ IO (proj1 (A _ _ I))).
    + intros (k & U). induction U as [|k i m U IH L].
      * apply in_map_iff. exists (start, mode_all). split; [reflexivity|]. apply -> in_rev. now left.
      * destruct (Nat.eq_dec m i) as [->|NE]; [exact IH|].
        destruct (X5 i m IH) as [Y|(v & Y)]; [|exact Y|discriminate Y]. destruct (IO i) as (_ & IN & _). now apply IN.
Qed.

Lemma frames_trace : forall fuel start t frames (g : graph N St) c g' c', runnable g -> C c -> S (g_output g) ->
  (forall n, inputs_in_slot_order (g_graph g) n (ins g n)) ->
  steps (g_nodes g) (ins g) start -> (start < node_bound (g_graph g))%nat ->
  execute_frames ops srt fuel g (start :: t) frames c = Some (Ok (g', c', None)) -> G c' ->
  traces (g_graph g) start frames c c'.
Proof.
  intros fuel start t. induction frames as [|fr frames IH]; intros g c g' c' HR CI SI IO ST HB H GC; cbn [execute_frames] in H.
  - injection H as _ <-. constructor.
  - destruct (execute_frame _ _ _ _ _ _ _) as [[((g1, c1), [e1|])|]|] eqn:E; try discriminate.
    pose proof (execute_frame_shape _ _ _ _ _ _ _ _ _ _ E) as S1.
    destruct (frame_trace _ _ _ _ _ _ _ _ HR CI SI IO ST HB E (frames_back ops srt G back _ _ _ _ _ _ _ _ H GC)) as (K1 & C1 & I1 & l & TR & AL).
    assert (G1 : g_graph g1 = g_graph g) by apply S1.
    apply (ts_cons _ _ _ _ l c c1); [exact TR|exact AL|]. rewrite <- G1. apply (IH g1 c1 g' c'); auto; try (now rewrite G1).
    + eapply runnable_shape; eauto.
    + rewrite G1. eapply steps_keyed; eauto.
Qed.

Theorem execute_traces fuel (g : graph N St) id start frames c g' c' : wf_graph ops g -> C c -> S (g_output g) ->
  find_index g id = Some start ->
  (forall inputs, (forall n, inputs_in_slot_order (g_graph g) n (inputs n)) -> steps (g_nodes g) inputs start) ->
  execute ops srt fuel g id frames c = Some (Ok (g', c', ExSuccess)) -> G c' ->
  traces (g_graph g) start frames c c'.
Proof.
  intros WF CI SI HI ST H GC. pose proof (wf_runnable ops g WF) as HR.
  unfold execute in H. rewrite HI in H.
  destruct (Nat.lt_ge_cases start (node_bound (g_graph g))) as [HB|HB].
  2: { rewrite (all_upstream_panics srt (g_graph g) start HB) in H. discriminate. }
  destruct (all_upstream_ok srt (g_graph g) HS (proj1 HR) start HB) as (l & E & R). rewrite E in H.
  destruct (br_first _ _ _ R) as (t & ->). cbn [map fst] in H.
  destruct (execute_frames ops srt fuel g _ _ c) as [[((g1, c1), [e|])|]|] eqn:X; try discriminate.
  { destruct e; discriminate. }
  injection H as <- <-.
  assert (IO : forall n, inputs_in_slot_order (g_graph g) n (ins g n)).
  { intros n. exact (inputs_slot_order srt (g_graph g) HS (wg_stable _ _ WF) n). }
  exact (frames_trace _ _ _ _ _ _ _ _ HR CI SI IO (ST _ IO) HB X GC).
Qed.
End Run.

(** Executing a node without inputs, and one that has been removed. *)
From Coq Require Import Permutation.
From Verif Require Import Machine Loops GraphModel GraphSpec GraphWalk GraphExec GraphHistory GraphHistory2 GraphFacts IsoProofs AloneSpec.

Lemma bound_below l : forall i k, (forall j, nth j l false = true -> (i + j < k)%nat) -> (node_bound_from i l <= k)%nat.
Proof.
  induction l as [|b l IH]; intros i k H; cbn [node_bound_from]; [lia|].
  assert (Q : (node_bound_from (S i) l <= k)%nat) by (apply IH; intros j J; specialize (H (S j) J); lia).
  destruct b; [|exact Q]. specialize (H 0%nat eq_refl). lia.
Qed.

Section Alone.
Context {N St Ca F W : Type}.
Variable ops : nodeops N St Ca F W.
Variable srt : edge_sort.
Hypothesis HS : sorts srt.

(** Executing a node without inputs is computing it on no inputs. *)
Lemma execute_within (g : graph N St) start id n fr c fuel : wf_graph ops g ->
  find_index g id = Some start -> nth_error (g_nodes g) start = Some n -> (start < node_bound (g_graph g))%nat ->
  (forall m, ~ link (g_graph g) m start) ->
  (forall h, n_validate ops n mode_all h [] = Ok []) ->
  execute ops srt (S (S fuel)) g id [fr] c = alone ops g start n fr c.
Proof.
  intros WF FI NN SB NL VA. pose proof (wg_stable _ _ WF) as WS.
  assert (NI : inputs_of srt (g_graph g) start = []).
  { destruct (inputs_of srt (g_graph g) start) as [|m l] eqn:E; [reflexivity|]. exfalso.
    apply (NL m). apply (in_inputs srt (g_graph g) HS WS). rewrite E. now left. }
  pose proof (direct_upstream_ok srt (g_graph g) HS WS start SB) as DU. rewrite NI in DU.
  destruct (all_upstream_ok srt (g_graph g) HS WS start SB) as (l & EL & RL).
  assert (AL : l = [(start, 0%nat)]).
  { unfold all_upstream, walker_new in EL. rewrite (proj2 (Nat.ltb_lt _ _) SB) in EL. cbn [bind] in EL.
    destruct (walk_all (walk_fuel (g_graph g)) srt (g_graph g) (Walker [(start, 0%nat)] [start])) as [r|] eqn:WA; [|discriminate]. subst r.
    pose proof (walk_mono srt (g_graph g) _ _ _ (walk_mono srt (g_graph g) _ _ _ WA)) as WM.
    change (walk_all (S (S (walk_fuel (g_graph g)))) srt (g_graph g) (Walker [(start, 0%nat)] [start]) = Some (Ok l)) in WM.
    cbn [walk_all] in WM. rewrite step_ok in WM by assumption. cbn [app] in WM.
    rewrite fresh_inputs, NI in WM by assumption. cbn [map rev app] in WM. cbn in WM. congruence. }
  subst l. unfold alone. unfold execute. rewrite FI, EL. cbn [map fst execute_frames].
  unfold execute_frame. cbn [rev app hash_phase]. unfold get_node at 1. rewrite NN. cbn [bind]. unfold input_hashes. rewrite DU. cbn [bind lookup_all hash_phase].
  cbn [validate_loop]. rewrite ?DU. cbn [bind get_nodes]. unfold get_node at 1. rewrite NN. cbn [bind lookup]. rewrite Nat.eqb_refl, VA. cbn [bind List.combine rev app validate_loop].
  cbn [compute_phase]. unfold input_streams. rewrite ?DU. cbn [bind lookup_all]. unfold compute_node_output, get_node. rewrite NN. cbn [bind].
  destruct (n_compute ops n fr mode_all [] (g_output g) c) as [(((n', st), out), c2)|]; [|reflexivity]. cbn [bind].
  destruct st; reflexivity.
Qed.

Theorem execute_alone (g : graph N St) start id n fr c fuel : wf_graph ops g ->
  find_index g id = Some start -> nth_error (g_nodes g) start = Some n -> sg_live (g_graph g) start = true ->
  (forall m, ~ link (g_graph g) m start) ->
  (forall h, n_validate ops n mode_all h [] = Ok []) ->
  execute ops srt (S (S fuel)) g id [fr] c = alone ops g start n fr c.
Proof. intros WF FI NN LV. apply execute_within; auto. now apply live_lt_bound. Qed.

(** A removed node. *)
Theorem execute_gone (g : graph N St) id g' i : wf_graph ops g -> find_index g id = Some i -> remove_node g id = (g', true) ->
  ((forall j, sg_live (g_graph g') j = true -> (j < i)%nat) ->
     forall fuel frames c, execute ops srt fuel g' id frames c = Some Panic) /\
  ((exists j, (i < j)%nat /\ sg_live (g_graph g') j = true) ->
     forall n fr c fuel, nth_error (g_nodes g) i = Some n -> (forall h, n_validate ops n mode_all h [] = Ok []) ->
       execute ops srt (S (S fuel)) g' id [fr] c = alone ops g' i n fr c).
Proof.
  intros WF FI RM. destruct (removed_vacant ops _ _ _ _ WF FI RM) as (FI' & DEAD).
  pose proof (remove_edges_only ops _ _ _ _ WF FI RM) as EO.
  assert (NG : g_nodes g' = g_nodes g).
  { unfold remove_node in RM. rewrite FI in RM. destruct (sg_remove_node (g_graph g) i) as [sg b]. now destruct b; injection RM as <-. }
  assert (WF' : wf_graph ops g').
  { destruct WF as [WS WI WL]. unfold remove_node in RM. rewrite FI in RM.
    destruct (sg_remove_node (g_graph g) i) as [sg b] eqn:SR. pose proof (wf_remove_node _ _ _ _ WS SR) as WS'.
    assert (LN : length (sg_nodes sg) = length (sg_nodes (g_graph g))).
    { unfold sg_remove_node in SR. destruct (sg_live (g_graph g) i); injection SR as <- _; [|reflexivity]. cbn [sg_nodes]. apply set_nth_length. }
    destruct b; [|discriminate RM]; injection RM as <-; (split; [exact WS'|exact WI|cbn [with_graph with_state g_graph g_nodes]; congruence]). }
  split.
  - intros LT fuel frames c. unfold execute. rewrite FI'. rewrite all_upstream_panics; [reflexivity|].
    apply (bound_below (sg_nodes (g_graph g')) 0 i). intros j J. exact (LT j J).
  - intros (j & LJ & LV) n fr c fuel NN VA. apply execute_within; auto; [now rewrite NG| |].
    + pose proof (live_lt_bound _ _ LV). lia.
    + intros m (s & L). apply (EO m i s) in L. tauto.
Qed.
End Alone.

(** Proofs: nodes that hand on their first input. *)
From Coq Require String.
Import String.StringSyntax.
From Coq Require Import Floats.SpecFloat.
From Verif Require Import Machine Loops CacheModel EnumModel AttrModel HashModel HashSpec HashProofs StreamModel DeformModel BakeModel
  GraphModel GraphSpec GraphWalk GraphExec GraphHistory NodeModel AttrProofs PeelSpec PeelProofs PassSpec.
Local Open Scope string_scope.

Section Pass.
Context {D : Type}.
Variable p : profile.
Variable x : externals D.
Variable srt : edge_sort.
Hypothesis HS : sorts srt.

Lemma get_gi t n name : nd_type n = t -> attr_exists (arms_of t) name = true -> node_get_i32 n name = gi t (nd_attrs n) name.
Proof. intros <- H. unfold node_get_i32. now rewrite H. Qed.

Lemma asks_all_validate n h m : asks_all n -> n_validate (node_ops p x) n mode_all h [m] = Ok [mode_all].
Proof.
  intros A. cbn [n_validate node_ops]. unfold node_validate. cbn [length]. unfold validate_op, asks_all in *.
  destruct (nd_type n) eqn:T; try reflexivity. unfold validate_viewer.
  destruct A as [A|[A|A]]; [congruence| |]; rewrite (get_gi _ n _ T) in A by reflexivity.
  - rewrite A. reflexivity.
  - unfold viewer_bake. rewrite A. destruct (_ =? 0); reflexivity.
Qed.

Lemma passes_asks n : passes n -> asks_all n.
Proof.
  unfold passes, asks_all. intros [E|[(E & _)|[(E & _)|[(E & _)|[(E & _)|(E & H)]]]]]; try (left; congruence); [|right; exact H].
  left. intros X. rewrite X in E. cbn in E. intuition discriminate.
Qed.

Lemma cache_hash_exists t b fr ins : wf_block b -> exists h, cache_hash p (x_expand x) (x_digest x) t b fr ins = Ok h.
Proof.
  intros W. destruct (key_exists p (x_expand x) t b fr ins W) as (k & E). unfold cache_hash. rewrite E. cbn [bind]. eauto.
Qed.

Lemma passes_compute n fr s w : wf_block (nd_attrs n) -> passes n ->
  exists n' t, node_compute p x n fr mode_all [s] s w = Ok (n', NsValid, t, w) /\ same_view t s.
Proof.
  intros W P. unfold node_compute. destruct (cache_hash_exists (nd_type n) (nd_attrs n) fr (map st_hash [s]) W) as (h & ->). cbn [bind].
  assert (K : exists t, compute_op p x (nd_type n) (nd_attrs n) fr h mode_all [s] s w = Ok (NsValid, t, w) /\ same_view t s).
  { assert (R : same_view s s) by (repeat split).
    assert (NE : forall v k, v <> k -> (v =? k) = false) by (intros; now apply Z.eqb_neq).
    unfold passes in P. unfold compute_op.
    destruct P as [E|[(E & H)|[(E & H)|[(E & H)|[(E & H & H')|(E & H)]]]]].
    - rewrite E. exists s. split; [reflexivity|exact R].
    - destruct (nd_type n) eqn:T; try (exfalso; cbn in E; intuition discriminate); eexists;
        rewrite (get_gi _ n _ T) in H by reflexivity;
        unfold crop_compute, grade_compute, transform_compute, lens_compute, resample_compute; cbn [first_input];
        rewrite (NE _ _ H); cbn [negb andb]; (split; [reflexivity|]); repeat split.
    - rewrite (get_gi _ n _ E) in H by reflexivity. rewrite E. unfold resample_compute. rewrite H. cbn [length Nat.eqb negb]. exists s.
      destruct (_ =? 1); cbn [negb]; [|split; [reflexivity|exact R]].
      destruct p; (split; [reflexivity|exact R]).
    - destruct H as (H1 & H2 & H3 & H4). rewrite (get_gi _ n _ E) in H1 by reflexivity; rewrite (get_gi _ n _ E) in H2 by reflexivity; rewrite (get_gi _ n _ E) in H3 by reflexivity; rewrite (get_gi _ n _ E) in H4 by reflexivity. rewrite E. unfold grade_compute. cbn [first_input]. rewrite H1, H2, H3, H4. exists s.
      destruct (_ =? 1); (split; [reflexivity|exact R]).
    - rewrite (get_gi _ n _ E) in H by reflexivity; rewrite (get_gi _ n _ E) in H' by reflexivity. rewrite E. unfold write_compute. rewrite (NE _ _ H), H'. exists s. split; [reflexivity|exact R].
    - rewrite E. unfold viewer_compute. cbn [first_input]. exists s. destruct H as [H|H]; rewrite (get_gi _ n _ E) in H by reflexivity; rewrite H.
      + split; [reflexivity|exact R].
      + destruct (_ =? 1); (split; [reflexivity|exact R]). }
  destruct K as (t & -> & V). cbn [bind]. eauto.
Qed.

Lemma writer_compute n fr s w n' st t w' : nd_type n = TWrite -> node_get_i32 n "enable" <> 0 ->
  node_compute p x n fr mode_all [s] s w = Ok (n', st, t, w') -> st = NsValid /\ t = s /\ w_cache w' = w_cache w.
Proof.
  unfold node_compute. intros E NE H. rewrite (get_gi _ n _ E) in NE by reflexivity. destruct (cache_hash _ _ _ _ _ _ _) as [h|]; [|discriminate]. cbn [bind] in H.
  unfold compute_op in H. rewrite E in H. unfold write_compute in H. rewrite (proj2 (Z.eqb_neq _ _) NE) in H.
  destruct (_ =? 0).
  - cbn [bind] in H. injection H as <- <- <- <-. auto.
  - destruct (write_process _ _ _ _ _ _) as [(d, ok)|]; [|discriminate]. cbn [bind] in H. injection H as <- <- <- <-. auto.
Qed.

Section At.
Variables (g : graph node stream) (start a : nat) (id ida : Z) (n : node).
Hypothesis WF : wf_graph (node_ops p x) g.
Hypothesis FI : find_index g id = Some start.
Hypothesis FA : find_index g ida = Some a.
Hypothesis NN : nth_error (g_nodes g) start = Some n.
Hypothesis IN : inputs_in_slot_order (g_graph g) start [a].
Hypothesis NC : ~ reaches (g_graph g) start a.

Lemma run_peel fr w fuel : asks_all n ->
  execute (node_ops p x) srt (S fuel) g id [fr] w =
  then_node (node_ops p x) start n fr (g_state g) (execute (node_ops p x) srt fuel g ida [fr] w).
Proof.
  intros A. apply (execute_peel (node_ops p x) srt HS g WF start a IN NC id ida n fr w fuel FI FA NN).
  intros h m. now apply asks_all_validate.
Qed.

Lemma run_passes fr w fuel g1 w1 : wf_block (nd_attrs n) -> passes n ->
  execute (node_ops p x) srt fuel g ida [fr] w = Some (Ok (g1, w1, ExSuccess)) ->
  exists g', execute (node_ops p x) srt (S fuel) g id [fr] w = Some (Ok (g', w1, ExSuccess)) /\
    same_view (g_output g') (g_output g1).
Proof.
  intros W P X. rewrite (run_peel fr w fuel (passes_asks n P)), X. cbn [then_node n_compute node_ops].
  destruct (passes_compute n fr (g_output g1) w1 W P) as (n' & t & -> & V). eexists. split; [reflexivity|]. exact V.
Qed.

Lemma run_writer fr w fuel g1 w1 g' w' st : nd_type n = TWrite -> node_get_i32 n "enable" <> 0 ->
  execute (node_ops p x) srt fuel g ida [fr] w = Some (Ok (g1, w1, ExSuccess)) ->
  execute (node_ops p x) srt (S fuel) g id [fr] w = Some (Ok (g', w', st)) ->
  st = ExSuccess /\ g_output g' = g_output g1 /\ w_cache w' = w_cache w1.
Proof.
  intros E NE X. rewrite (run_peel fr w fuel); [|left; congruence]. rewrite X. cbn [then_node n_compute node_ops].
  destruct (node_compute p x n fr mode_all [g_output g1] (g_output g1) w1) as [(((n', ns), t), w2)|] eqn:C; [|discriminate].
  destruct (writer_compute n fr _ _ _ _ _ _ E NE C) as (-> & -> & K). intros H. injection H as <- <- <-. auto.
Qed.
End At.
End Pass.

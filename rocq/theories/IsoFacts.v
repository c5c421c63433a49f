(** C64: results depend on the part of the graph upstream only. *)
From Coq Require Import Permutation Sorted.
From Verif Require Import Machine Loops GraphModel GraphSpec GraphWalk GraphExec GraphHistory GraphHistory2 IsoSpec IsoProofs
  AttrModel AttrProofs HashModel StreamModel NodeModel.

Lemma Forall2_size {A B} (R : A -> B -> Prop) l l' : Forall2 R l l' -> length l = length l'.
Proof. induction 1; cbn; congruence. Qed.
Arguments Forall2_size {A B R l l'}.

Section Facts.
Context {N St Ca F W : Type}.
Variable ops : nodeops N St Ca F W.
Variable srt : edge_sort.
Hypothesis HS : sorts srt.
Variable alike : N -> N -> Prop.
Hypothesis RE : respects ops alike.

Lemma nth_error_inj (l : list Z) i j v : NoDup l -> nth_error l i = Some v -> nth_error l j = Some v -> i = j.
Proof. intros ND A B. apply (proj1 (NoDup_nth_error l) ND); [|congruence]. apply nth_error_Some. congruence. Qed.

(** Executing a node of the common part: the same outcome, and the part stays
    common. *)
Theorem same_part_execute fuel (g1 g2 : graph N St) U id frames c :
  wf_graph ops g1 -> wf_graph ops g2 -> NoDup (g_ids g1) -> NoDup (g_ids g2) ->
  same_part alike U g1 g2 -> g_output g1 = g_output g2 -> U id ->
  same_outcome (fun r1 r2 => let '(g1', c1, st1) := r1 in let '(g2', c2, st2) := r2 in
      same_part alike U g1' g2' /\ g_output g1' = g_output g2' /\ c1 = c2 /\ st1 = st2)
    (execute ops srt fuel g1 id frames c) (execute ops srt fuel g2 id frames c).
Proof.
  intros WG1 WG2 ND1 ND2 SP OUT UI.
  assert (NODE : forall i j, corr U (g_ids g1) (g_ids g2) i j -> sg_live (g_graph g1) i = true /\ sg_live (g_graph g2) j = true /\
     exists n n', nth_error (g_nodes g1) i = Some n /\ nth_error (g_nodes g2) j = Some n' /\ alike n n').
  { intros i j (x & UX & Ei & Ej). destruct (sp_nodes _ _ _ _ SP x UX) as (n1 & n2 & (a & A1 & A2 & A3) & (b & B1 & B2 & B3) & AL).
    rewrite (nth_error_inj _ _ _ _ ND1 Ei A1), (nth_error_inj _ _ _ _ ND2 Ej B1). eauto 7. }
  assert (LEN : forall g : graph N St, wf_graph ops g -> (length (sg_nodes (g_graph g)) <= length (g_ids g))%nat).
  { intros g WG. rewrite (wg_len _ _ WG), (wg_ids _ _ WG), map_length. lia. }
  assert (X : same_outcome (step_rel alike U (g_ids g1) (g_ids g2) (g_graph g1) (g_graph g2))
    (execute ops srt fuel g1 id frames c) (execute ops srt fuel g2 id frames c)).
  { apply (execute_corr ops srt HS alike RE U _ _ _ _ ND1 ND2 (wg_stable _ _ WG1) (wg_stable _ _ WG2)).
    - intros i j C. destruct (NODE _ _ C) as (L1 & L2 & _). auto.
    - now apply LEN.
    - now apply LEN.
    - exact (sp_wires _ _ _ _ SP).
    - exact (sp_closed _ _ _ _ SP).
    - exact (sp_slots _ _ _ _ SP).
    - constructor; try reflexivity; [|exact OUT]. intros i j C. apply (NODE _ _ C).
    - exact UI.
    - destruct (sp_nodes _ _ _ _ SP id UI) as (n1 & n2 & (a & A1 & _) & (b & B1 & _) & _).
      exists a, b. split; [exists id|]; auto. }
  destruct (execute ops srt fuel g1 id frames c) as [[[[g1' c1] st1]|]|], (execute ops srt fuel g2 id frames c) as [[[[g2' c2] st2]|]|];
    try contradiction; try exact I.
  destruct X as (R & E1 & E2). cbn [fst snd] in R, E1, E2. cbn [same_outcome].
  split; [|split; [exact (rl_output _ _ _ _ _ _ _ _ R)|auto]].
  destruct R as [I1 I2 S1 S2 NO _]. constructor.
  - intros x UX. destruct (sp_nodes _ _ _ _ SP x UX) as (n1 & n2 & (a & A1 & A2 & A3) & (b & B1 & B2 & B3) & _).
    destruct (NO a b) as (m1 & m2 & M1 & M2 & AL); [exists x; auto|].
    exists m1, m2. split; [exists a; rewrite I1, S1; auto|]. split; [exists b; rewrite I2, S2; auto|exact AL].
  - intros s d k UD. unfold wire. rewrite I1, I2, S1, S2. apply (sp_wires _ _ _ _ SP s d k UD).
  - intros s d k UD. unfold wire. rewrite I1, S1. apply (sp_closed _ _ _ _ SP s d k UD).
  - intros s s' d k UD. unfold wire. rewrite I1, S1. apply (sp_slots _ _ _ _ SP s s' d k UD).
Qed.

(* ------------------------------ changes elsewhere ------------------------------ *)

Hypothesis AR : forall n, alike n n.
Hypothesis KI : keeps_id ops.

Lemma wire_node g src dst slot : wf_graph ops g -> wire (N := N) (St := St) g src dst slot ->
  (exists n, has_node g src n) /\ (exists n, has_node g dst n).
Proof.
  intros WG (a & b & A & B & H). pose proof (ws_ends_live _ (wg_stable _ _ WG) _ H) as (La & Lb). cbn [e_src e_dst] in La, Lb.
  assert (K : forall i, sg_live (g_graph g) i = true -> exists n, nth_error (g_nodes g) i = Some n).
  { intros i L. apply live_lt_length in L. rewrite (wg_len _ _ WG) in L.
    destruct (nth_error (g_nodes g) i) as [n|] eqn:E; [eauto|]. apply nth_error_None in E. lia. }
  destruct (K a La) as (na & Ea), (K b Lb) as (nb & Eb).
  split; [exists na, a|exists nb, b]; auto.
Qed.

Lemma upstream_node g id m : wf_graph ops g -> (exists n, has_node g id n) -> upstream (N := N) (St := St) g id m -> exists n, has_node g m n.
Proof. intros WG H U. destruct U as [|src dst slot U X]; [exact H|]. exact (proj1 (wire_node _ _ _ _ WG X)). Qed.

Lemma update_other (sg sg' : stable) a b slot m n s : wf_stable sg -> sg_update_edge sg a b slot = Ok sg' -> n <> b ->
  (feeds sg' m n s <-> feeds sg m n s).
Proof.
  intros WS H NE. unfold sg_update_edge in H.
  destruct (if sg_live sg a then overwrite_edge a b slot (sg_edges sg) else None) as [l|] eqn:E.
  - injection H as <-. destruct (sg_live sg a); [|discriminate].
    destruct (overwrite_spec _ _ _ _ _ E) as (l1 & e & l2 & E1 & -> & P). unfold feeds. cbn [sg_edges]. rewrite E1, !in_app_iff.
    cbn [In]. injection P as P1 P2. split; intros [X|[X|X]]; auto; exfalso; apply NE.
    + injection X as _ <- _. reflexivity.
    + subst e. cbn [e_dst] in P2. exact P2.
  - destruct (sg_live sg a && sg_live sg b); [|discriminate]. injection H as <-. unfold feeds. cbn [sg_edges In].
    split; [intros [X|X]|]; auto. exfalso. apply NE. injection X as _ <- _. reflexivity.
Qed.

Definition part_kept (g g' : graph N St) (t : Z) : Prop :=
  g_output g' = g_output g /\
  (forall i id, nth_error (g_ids g) i = Some id -> nth_error (g_ids g') i = Some id) /\
  (forall i id n, id <> t -> nth_error (g_ids g) i = Some id -> sg_live (g_graph g) i = true -> nth_error (g_nodes g) i = Some n ->
     sg_live (g_graph g') i = true /\ nth_error (g_nodes g') i = Some n) /\
  (forall a b id ia s, id <> t -> nth_error (g_ids g) b = Some id -> nth_error (g_ids g) a = Some ia -> ia <> t ->
     (feeds (g_graph g') a b s <-> feeds (g_graph g) a b s)) /\
  (forall a b id s, nth_error (g_ids g) b = Some id -> id <> t -> feeds (g_graph g') a b s -> feeds (g_graph g) a b s).

Lemma call_keeps g c call g' c' t : wf_graph ops g -> NoDup (g_ids g') -> calls ops srt g c call g' c' -> changes ops call = Some t ->
  part_kept g g' t.
Proof.
  intros WG ND' H CH.
  assert (SELF : part_kept g g t) by (unfold part_kept; repeat split; auto).
  destruct call as [n|id|src dst slot|dst slot|id w|id fs]; cbn [calls changes] in H, CH; try discriminate; injection CH as <-.
  - destruct H as (_ & i & H). unfold add_node in H. destruct (sg_add_node (g_graph g)) as [sg index] eqn:E.
    destruct (Nat.eqb_spec index (length (g_nodes g))) as [->|]; [|discriminate]. injection H as <- <-.
    cbn [g_ids g_nodes g_graph g_output] in *. unfold sg_add_node in E.
    assert (FR : sg_free (g_graph g) = []).
    { destruct (sg_free (g_graph g)) as [|j r] eqn:FR; [reflexivity|]. injection E as _ ->.
      assert (X : In (length (g_nodes g)) (sg_free (g_graph g))) by (rewrite FR; now left).
      apply (ws_free_vacant _ (wg_stable _ _ WG)) in X. rewrite (wg_len _ _ WG) in X. lia. }
    rewrite FR in E. injection E as <- _. unfold part_kept; cbn [g_ids g_nodes g_graph g_output sg_edges]. split; [reflexivity|].
    split; [|split; [|split]].
    + intros i id Hi. rewrite nth_error_app1; [exact Hi|]. apply nth_error_Some. congruence.
    + intros i id m _ Hi L Hn. split.
      * unfold sg_live in *. cbn [sg_nodes]. rewrite app_nth1; [exact L|]. destruct (Nat.ltb_spec i (length (sg_nodes (g_graph g)))); [lia|].
        rewrite nth_overflow in L by lia. discriminate.
      * rewrite nth_error_app1; [exact Hn|]. apply nth_error_Some. congruence.
    + reflexivity.
    + auto.
  - destruct H as (_ & ->). unfold remove_node in *. destruct (find_index g id) as [i|] eqn:FI; [|exact SELF].
    unfold sg_remove_node in *. destruct (sg_live (g_graph g) i) eqn:L; [|exact SELF].
    pose proof (proj1 (position_lt _ _ _ FI)) as Ei. cbn [fst] in *.
    unfold part_kept. cbn [with_state with_graph g_ids g_nodes g_graph g_output sg_edges]. split; [reflexivity|]. split; [auto|].
    split; [|split].
    + intros j x m NE Hj Lj Hm. split; [|exact Hm]. unfold sg_live in *. cbn [sg_nodes].
      rewrite nth_set_nth by (apply live_lt_length; exact L). destruct (Nat.eqb_spec j i) as [->|]; [congruence|exact Lj].
    + intros a b x ia s NE Hb Ha NEa. unfold feeds. cbn [sg_edges]. rewrite filter_In. cbn [e_src e_dst].
      split; [tauto|]. intro H. split; [exact H|].
      destruct (Nat.eqb_spec a i) as [->|]; [congruence|]. destruct (Nat.eqb_spec b i) as [->|]; [congruence|]. reflexivity.
    + intros a b x s Hb NE. unfold feeds. cbn [sg_edges]. rewrite filter_In. tauto.
  - destruct H as (_ & H). unfold connect in H. destruct (find_index g src) as [a|] eqn:Fa; [|injection H as <-; exact SELF].
    destruct (find_index g dst) as [b|] eqn:Fb; [|injection H as <-; exact SELF].
    destruct (disconnect_spec g dst slot b (wg_stable _ _ WG) Fb) as (W1 & O1 & C1 & _).
    set (g1 := disconnect_input g dst slot) in *.
    destruct (sg_update_edge (g_graph g1) a b slot) as [sg|] eqn:EU; [|discriminate]. cbn [bind] in H. injection H as <-.
    pose proof (proj1 (position_lt _ _ _ Fb)) as Eb. destruct O1 as (O1 & O2 & O3 & O4 & O5).
    assert (NS : sg_nodes sg = sg_nodes (g_graph g)).
    { rewrite <- O3. unfold sg_update_edge in EU. destruct (if sg_live _ a then _ else None); [injection EU as <-; reflexivity|].
      destruct (_ && _); [|discriminate]. injection EU as <-. reflexivity. }
    assert (FE : forall x y s, y <> b -> (feeds sg x y s <-> feeds (g_graph g) x y s)).
    { intros x y s NE. rewrite (update_other _ _ _ _ _ x y s W1 EU NE). unfold feeds. rewrite C1. split; [tauto|].
      intro H. split; [exact H|]. intro T. apply take_while_in in T. destruct T as (T & _).
      apply (in_incoming _ (wg_stable _ _ WG)) in T. cbn [e_dst] in T. tauto. }
    unfold part_kept. cbn [with_state with_graph g_ids g_nodes g_graph g_output]. rewrite O2.
    split; [exact (proj1 O5)|]. split; [auto|]. split; [|split].
    + intros i x m _ Hi L Hm. unfold sg_live in *. rewrite NS, O1. auto.
    + intros x y idy idx s NE Hy Hx _. apply FE. intros ->. congruence.
    + intros x y idy s Hy NE. apply FE. intros ->. congruence.
  - destruct H as (_ & ->). destruct (find_index g dst) as [b|] eqn:Fb.
    2:{ unfold disconnect_input. rewrite Fb. exact SELF. }
    destruct (disconnect_spec g dst slot b (wg_stable _ _ WG) Fb) as (W1 & O1 & C1 & _).
    set (g1 := disconnect_input g dst slot) in *. pose proof (proj1 (position_lt _ _ _ Fb)) as Eb. destruct O1 as (O1 & O2 & O3 & O4 & O5).
    unfold part_kept. rewrite O2. split; [exact (proj1 O5)|]. split; [auto|]. split; [|split].
    + intros i x m _ Hi L Hm. unfold sg_live in *. rewrite O3, O1. auto.
    + intros x y idy idx s NE Hy Hx _. unfold feeds. rewrite C1. split; [tauto|].
      intro H. split; [exact H|]. intro T. apply take_while_in in T. destruct T as (T & _).
      apply (in_incoming _ (wg_stable _ _ WG)) in T. cbn [e_dst] in T. destruct T as (_ & ->). congruence.
    + intros x y idy s Hy NE. unfold feeds. rewrite C1. tauto.
  - destruct H as (_ & H). unfold write_node in H. destruct (find_index g id) as [i|] eqn:FI; [|injection H as <-; exact SELF].
    destruct (nth_error (g_nodes g) i) as [n|] eqn:En; [|discriminate]. injection H as <-.
    pose proof (proj1 (position_lt _ _ _ FI)) as Ei. unfold part_kept. cbn [with_state with_nodes g_ids g_nodes g_graph g_output].
    split; [reflexivity|]. split; [auto|]. split; [|split; [reflexivity|auto]].
    intros j x m NE Hj L Hm. split; [exact L|]. rewrite set_nth_other; [exact Hm|]. intros <-. congruence.
Qed.

(** A call that changes a node elsewhere keeps the part upstream. *)
Theorem elsewhere g c call g' c' t id : wf_graph ops g -> NoDup (g_ids g') ->
  calls ops srt g c call g' c' -> changes ops call = Some t -> ~ upstream g id t ->
  (exists n, has_node g id n) ->
  (forall src src' dst slot, upstream g id dst -> wire g src dst slot -> wire g src' dst slot -> src = src') ->
  same_part alike (upstream g id) g g' /\ g_output g = g_output g'.
Proof.
  intros WG ND' H CH NU HN SL. destruct (call_keeps _ _ _ _ _ _ WG ND' H CH) as (K0 & K1 & K2 & K3 & K4).
  split; [|now symmetry]. constructor; [| |intros src dst slot UD X; now apply (us_source _ _ src dst slot)|exact SL].
  - intros x UX. destruct (upstream_node _ _ _ WG HN UX) as (n & i & E1 & E2 & E3).
    assert (NE : x <> t) by (intros ->; contradiction).
    destruct (K2 i x n NE E1 E2 E3) as (L & E). exists n, n. split; [exists i; auto|]. split; [|apply AR].
    exists i. auto.
  - intros src dst slot UD. assert (NE : dst <> t) by (intros ->; contradiction).
    destruct (upstream_node _ _ _ WG HN UD) as (nd & d & D1 & D2 & D3). split.
    + intros X. pose proof (us_source _ _ _ _ _ UD X) as US. assert (NEs : src <> t) by (intros ->; contradiction).
      destruct X as (a & b & A & B & X). exists a, b. split; [auto|]. split; [auto|]. apply (K3 a b dst src slot NE B A NEs). exact X.
    + intros (a & b & A & B & X). assert (b = d) by (apply (nth_error_inj _ _ _ _ ND' B); auto). subst b.
      pose proof (K4 a d dst slot D1 NE X) as X'. exists a, d.
      pose proof (ws_ends_live _ (wg_stable _ _ WG) _ X') as (La & _). cbn [e_src] in La.
      apply live_lt_length in La. rewrite (wg_len _ _ WG) in La.
      assert (A' : exists y, nth_error (g_ids g) a = Some y).
      { rewrite (wg_ids _ _ WG), nth_error_map. destruct (nth_error (g_nodes g) a) eqn:E; [cbn; eauto|]. apply nth_error_None in E. lia. }
      destruct A' as (y & A'). pose proof (K1 _ _ A') as A''. assert (y = src) by congruence. subst y. auto.
Qed.
End Facts.

Lemma settings_respected {D} p (x : externals D) : respects (node_ops p x) same_settings.
Proof.
  constructor.
  - intros n n' fr hs (T & _ & A). cbn [node_ops n_hash]. unfold node_hash. now rewrite T, A.
  - intros n n' mode h ins ins' (T & _ & A) L. cbn [node_ops n_validate]. unfold node_validate.
    now rewrite T, A, (Forall2_size L).
  - intros n n' fr mode ins out c (T & I & A). cbn [node_ops n_compute]. unfold node_compute. rewrite T, A.
    destruct (cache_hash _ _ _ _ _ _ _) as [h|]; cbn [bind]; [|exact Coq.Init.Logic.I].
    destruct (compute_op _ _ _ _ _ _ _ _ _ _) as [[[st o] w]|]; cbn [bind]; [|exact Coq.Init.Logic.I].
    split; [|auto]. split; [reflexivity|]. split; [exact I|reflexivity].
Qed.


(* ------------------------------ sessions ------------------------------ *)

Section Sessions.
Context {N St Ca F W : Type}.
Variable ops : nodeops N St Ca F W.
Variable srt : edge_sort.
Hypothesis HS : sorts srt.
Hypothesis KI : keeps_id ops.

Lemma has_node_inj (g : graph N St) x n n' : NoDup (g_ids g) -> has_node g x n -> has_node g x n' -> n = n'.
Proof.
  intros ND (i & A1 & _ & A2) (j & B1 & _ & B2). rewrite (nth_error_inj _ _ _ _ ND A1 B1) in A2. congruence.
Qed.

Lemma same_part_trans U (g1 g2 g3 : graph N St) : NoDup (g_ids g2) ->
  same_part eq U g1 g2 -> same_part eq U g2 g3 -> same_part eq U g1 g3.
Proof.
  intros ND A B. constructor.
  - intros x UX. destruct (sp_nodes _ _ _ _ A x UX) as (a & b & Ha & Hb & ->).
    destruct (sp_nodes _ _ _ _ B x UX) as (b' & c' & Hb' & Hc & <-).
    rewrite (has_node_inj _ _ _ _ ND Hb' Hb) in Hc. eauto.
  - intros s d k UD. rewrite (sp_wires _ _ _ _ A s d k UD). apply (sp_wires _ _ _ _ B s d k UD).
  - intros s d k UD. apply (sp_closed _ _ _ _ A s d k UD).
  - intros s s' d k UD. apply (sp_slots _ _ _ _ A s s' d k UD).
Qed.

Lemma same_part_upstream (g1 g2 : graph N St) id : same_part eq (upstream g1 id) g1 g2 ->
  forall x, upstream g1 id x <-> upstream g2 id x.
Proof.
  intros A x. split; intros U.
  - induction U as [|src dst slot U IH X]; [constructor|]. apply (us_source _ _ src dst slot); [exact IH|].
    now apply (sp_wires _ _ _ _ A).
  - induction U as [|src dst slot U IH X]; [constructor|]. apply (us_source _ _ src dst slot); [exact IH|].
    now apply (sp_wires _ _ _ _ A).
Qed.

Lemma same_part_ext alike U V (g1 g2 : graph N St) : (forall x, U x <-> V x) -> same_part alike U g1 g2 -> same_part alike V g1 g2.
Proof.
  intros E A. constructor.
  - intros x H. apply E in H. apply (sp_nodes _ _ _ _ A x H).
  - intros s d k H. apply E in H. apply (sp_wires _ _ _ _ A s d k H).
  - intros s d k H X. apply E. apply E in H. apply (sp_closed _ _ _ _ A s d k H X).
  - intros s s' d k H. apply E in H. apply (sp_slots _ _ _ _ A s s' d k H).
Qed.

Lemma history_nodup s0 c0 h h' (g : graph N St) c : history ops srt s0 c0 h g c -> NoDup (added ops (h ++ h')) -> NoDup (g_ids g).
Proof.
  intros H ND. destruct (history_wf ops srt KI _ _ _ _ _ H) as (_ & ->). rewrite added_app in ND.
  clear - ND. induction (added ops h) as [|a l IH]; [constructor|]. cbn in ND. inversion ND; subst. constructor; [|auto].
  intro X. apply H1, in_or_app. now left.
Qed.

Theorem calls_elsewhere cs : forall s0 c0 h (g : graph N St) c g' c' id,
  history ops srt s0 c0 h g c -> then_calls ops srt cs g c g' c' -> NoDup (added ops (h ++ cs)) ->
  (forall call, In call cs -> exists t, changes ops call = Some t /\ ~ upstream g id t) ->
  (exists n, has_node g id n) ->
  (forall src src' dst slot, upstream g id dst -> wire g src dst slot -> wire g src' dst slot -> src = src') ->
  same_part eq (upstream g id) g g' /\ g_output g = g_output g'.
Proof.
  induction cs as [|call cs IH]; intros s0 c0 h g c g' c' id H T ND CH HN SL; inversion T as [|? ? ? ? g1 c1 ? ? HC T']; subst.
  - split; [|reflexivity]. pose proof (history_wf ops srt KI _ _ _ _ _ H) as (WG & _). constructor.
    + intros x UX. destruct (upstream_node ops _ _ _ WG HN UX) as (n & X). eauto.
    + reflexivity.
    + intros s d k UD X. now apply (us_source _ _ s d k).
    + exact SL.
  - pose proof (history_wf ops srt KI _ _ _ _ _ H) as (WG & _).
    assert (H1 : history ops srt s0 c0 (h ++ [call]) g1 c1) by (econstructor; eauto).
    assert (ND' : NoDup (added ops ((h ++ [call]) ++ cs))) by (rewrite <- app_assoc; exact ND).
    pose proof (history_nodup _ _ _ _ _ _ H1 ND') as ND1.
    destruct (CH call) as (t & Ct & NU); [now left|].
    destruct (elsewhere ops srt eq (fun n => eq_refl) g c call g1 c1 t id WG ND1 HC Ct NU HN SL) as (SP & O1).
    pose proof (same_part_upstream _ _ _ SP) as UE.
    destruct (IH s0 c0 (h ++ [call]) g1 c1 g' c' id H1 T' ND') as (SP' & O2).
    + intros call' IN. destruct (CH call') as (t' & Ct' & NU'); [now right|]. exists t'. split; [exact Ct'|].
      intro X. apply NU', UE, X.
    + destruct (sp_nodes _ _ _ _ SP id (us_self _ _)) as (? & n & _ & X & _). eauto.
    + intros s s' d k UD X X'. apply UE in UD. apply (sp_wires _ _ _ _ SP _ _ _ UD) in X. apply (sp_wires _ _ _ _ SP _ _ _ UD) in X'.
      exact (SL _ _ _ _ UD X X').
    + split; [|congruence]. apply (same_part_trans _ _ g1 _ ND1 SP). apply (same_part_ext _ _ _ _ _ (fun x => iff_sym (UE x)) SP').
Qed.
End Sessions.

Lemma same_part_weaken {N St} (R R' : N -> N -> Prop) U (g1 g2 : graph N St) :
  (forall n n', R n n' -> R' n n') -> same_part R U g1 g2 -> same_part R' U g1 g2.
Proof.
  intros I [A B C E]. constructor; auto. intros x UX. destruct (A x UX) as (n & n' & X & Y & Z). eauto 6.
Qed.

Section Node.
Context {D : Type}.
Variable p : profile.
Variable x : externals D.
Variable srt : edge_sort.
Hypothesis HS : sorts srt.
Let ops := node_ops p x.

Theorem same_result s0 c0 s0' c0' h1 h2 g1 g2 c1 c2 U id frames w fuel :
  history ops srt s0 c0 h1 g1 c1 -> history ops srt s0' c0' h2 g2 c2 ->
  NoDup (added ops h1) -> NoDup (added ops h2) ->
  same_part same_settings U g1 g2 -> g_output g1 = g_output g2 -> U id ->
  same_outcome (fun r1 r2 => let '(g1', w1, st1) := r1 in let '(g2', w2, st2) := r2 in
      same_part same_settings U g1' g2' /\ g_output g1' = g_output g2' /\ w1 = w2 /\ st1 = st2)
    (execute ops srt fuel g1 id frames w) (execute ops srt fuel g2 id frames w).
Proof.
  intros H1 H2 N1 N2 SP O UI.
  destruct (history_wf ops srt (node_keeps_id p x) _ _ _ _ _ H1) as (W1 & I1).
  destruct (history_wf ops srt (node_keeps_id p x) _ _ _ _ _ H2) as (W2 & I2).
  apply (same_part_execute ops srt HS same_settings (settings_respected p x)); auto; [rewrite I1|rewrite I2]; auto.
Qed.

Theorem unaffected s0 c0 h g c cs g' c' id frames w fuel :
  history ops srt s0 c0 h g c -> then_calls ops srt cs g c g' c' -> NoDup (added ops (h ++ cs)) ->
  (forall call, In call cs -> exists t, changes ops call = Some t /\ ~ upstream g id t) ->
  (exists n, has_node g id n) ->
  (forall src src' dst slot, upstream g id dst -> wire g src dst slot -> wire g src' dst slot -> src = src') ->
  same_outcome (fun r1 r2 => let '(g1', w1, st1) := r1 in let '(g2', w2, st2) := r2 in
      same_part same_settings (upstream g id) g1' g2' /\ g_output g1' = g_output g2' /\ w1 = w2 /\ st1 = st2)
    (execute ops srt fuel g id frames w) (execute ops srt fuel g' id frames w).
Proof.
  intros H T ND CH HN SL.
  destruct (calls_elsewhere ops srt (node_keeps_id p x) cs _ _ _ _ _ _ _ _ H T ND CH HN SL) as (SP & O).
  assert (H' : history ops srt s0 c0 (h ++ cs) g' c').
  { clear - H T. revert h H. induction T as [|call cs g c g1 c1 g' c' HC T IH]; intros h H; [now rewrite app_nil_r|].
    change (call :: cs) with ([call] ++ cs). rewrite app_assoc. apply IH. econstructor; eauto. }
  assert (ND0 : NoDup (added ops h)).
  { pose proof (history_nodup ops srt (node_keeps_id p x) _ _ _ _ _ _ H ND) as X.
    now rewrite (proj2 (history_wf ops srt (node_keeps_id p x) _ _ _ _ _ H)) in X. }
  apply (same_result _ _ _ _ _ _ _ _ _ _ (upstream g id) id frames w fuel H H' ND0 ND); [|exact O|constructor].
  revert SP. apply same_part_weaken. intros n n' ->. repeat split.
Qed.
End Node.

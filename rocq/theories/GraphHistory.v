(** Invariants of graphs over call histories; identity, removal, connections,
    the state machine. *)
From Coq Require Import Permutation Sorted.
From Verif Require Import Machine GraphModel GraphSpec GraphWalk GraphExec.

(* ------------------------------ edge lists ------------------------------ *)

Notation pair_of e := (e_src e, e_dst e).

Lemma is_edge_iff : forall a b e, is_edge a b e = true <-> pair_of e = (a, b).
Proof.
  intros a b e. unfold is_edge. rewrite andb_true_iff, !Nat.eqb_eq. split.
  - intros (-> & ->). reflexivity.
  - intros E. injection E as -> ->. auto.
Qed.

Lemma remove_first_spec : forall a b l l', remove_first_edge a b l = Some l' ->
  exists l1 e l2, l = l1 ++ e :: l2 /\ l' = l1 ++ l2 /\ pair_of e = (a, b).
Proof.
  induction l as [|e l IH]; intros l' H; cbn in H; [discriminate|].
  destruct (is_edge a b e) eqn:E.
  - injection H as <-. exists [], e, l. apply is_edge_iff in E. auto.
  - destruct (remove_first_edge a b l) as [t|] eqn:R; [|discriminate]. injection H as <-.
    destruct (IH t eq_refl) as (l1 & e' & l2 & -> & -> & P). exists (e :: l1), e', l2. auto.
Qed.

Lemma remove_first_none : forall a b l, remove_first_edge a b l = None <->
  ~ In (a, b) (map (fun e => pair_of e) l).
Proof.
  induction l as [|e l IH]; cbn; [split; [intros _ []|reflexivity]|].
  destruct (is_edge a b e) eqn:E.
  - apply is_edge_iff in E. split; [discriminate|]. intros H. exfalso. apply H. now left.
  - assert (NE : pair_of e <> (a, b)) by (rewrite <- is_edge_iff, E; discriminate).
    destruct (remove_first_edge a b l) as [t|].
    + split; [discriminate|]. intros H. assert (Some t = None) by (apply IH; tauto). discriminate.
    + split; [|reflexivity]. intros _ [X|X]; [contradiction|]. revert X. now apply IH.
Qed.

Lemma overwrite_spec : forall a b w l l', overwrite_edge a b w l = Some l' ->
  exists l1 e l2, l = l1 ++ e :: l2 /\ l' = l1 ++ Edge a b w :: l2 /\ pair_of e = (a, b).
Proof.
  induction l as [|e l IH]; intros l' H; cbn in H; [discriminate|].
  destruct (is_edge a b e) eqn:E.
  - injection H as <-. exists [], e, l. apply is_edge_iff in E. auto.
  - destruct (overwrite_edge a b w l) as [t|] eqn:R; [|discriminate]. injection H as <-.
    destruct (IH t eq_refl) as (l1 & e' & l2 & -> & -> & P). exists (e :: l1), e', l2. auto.
Qed.

Lemma overwrite_none : forall a b w l, overwrite_edge a b w l = None <->
  ~ In (a, b) (map (fun e => pair_of e) l).
Proof.
  induction l as [|e l IH]; cbn; [split; [intros _ []|reflexivity]|].
  destruct (is_edge a b e) eqn:E.
  - apply is_edge_iff in E. split; [discriminate|]. intros H. exfalso. apply H. now left.
  - assert (NE : pair_of e <> (a, b)) by (rewrite <- is_edge_iff, E; discriminate).
    destruct (overwrite_edge a b w l) as [t|].
    + split; [discriminate|]. intros H. assert (Some t = None) by (apply IH; tauto). discriminate.
    + split; [|reflexivity]. intros _ [X|X]; [contradiction|]. revert X. now apply IH.
Qed.

(** With at most one edge per pair, removal removes exactly that pair. *)
Lemma remove_first_in : forall a b l l', NoDup (map (fun e => pair_of e) l) ->
  remove_first_edge a b l = Some l' ->
  forall e, In e l' <-> In e l /\ pair_of e <> (a, b).
Proof.
  intros a b l l' ND H e. destruct (remove_first_spec _ _ _ _ H) as (l1 & x & l2 & -> & -> & P).
  rewrite map_app in ND. cbn in ND. rewrite P in ND. apply NoDup_remove_2 in ND.
  rewrite <- map_app, in_map_iff in ND.
  rewrite !in_app_iff. cbn. split.
  - intros HI. split; [tauto|]. intros E. apply ND. exists e. split; [exact E|]. now apply in_app_iff.
  - intros ([?|[->|?]] & NE); [now left|contradiction|now right].
Qed.

Lemma remove_first_nodup : forall a b l l', NoDup (map (fun e => pair_of e) l) ->
  remove_first_edge a b l = Some l' -> NoDup (map (fun e => pair_of e) l').
Proof.
  intros a b l l' ND H. destruct (remove_first_spec _ _ _ _ H) as (l1 & x & l2 & -> & -> & P).
  rewrite map_app in *. cbn in ND. now apply NoDup_remove_1 in ND.
Qed.

Lemma filter_false_in : forall {A} (f : A -> bool) l, (forall x, In x l -> f x = true) -> filter f l = l.
Proof.
  induction l as [|a l IH]; intros H; cbn; [reflexivity|].
  rewrite (H a (or_introl eq_refl)). f_equal. apply IH. intros x Hx. apply H. now right.
Qed.

Definition dir_free (g : stable) : Prop := sg_free g = [].

(* ------------------------------ wf preserved ------------------------------ *)

Lemma wf_edges : forall g l, wf_stable g ->
  (forall e, In e l -> In e (sg_edges g)) -> NoDup (map (fun e => pair_of e) l) ->
  wf_stable (Stable (sg_nodes g) (sg_free g) l).
Proof.
  intros g l WF H ND. constructor; cbn.
  - apply (ws_free_vacant _ WF).
  - intros e He. apply (ws_ends_live _ WF), H, He.
  - exact ND.
Qed.

Lemma nth_set_nth : forall (l : list bool) i j b, (i < length l)%nat ->
  nth j (set_nth l i b) false = if Nat.eqb j i then b else nth j l false.
Proof.
  induction l as [|h l IH]; intros [|i] [|j] b H; cbn in *; try lia; try reflexivity.
  apply IH. lia.
Qed.

Lemma wf_remove_node : forall g i g' r, wf_stable g -> sg_remove_node g i = (g', r) -> wf_stable g'.
Proof.
  intros g i g' r WF H. unfold sg_remove_node in H. destruct (sg_live g i) eqn:L; injection H as <- _; [|exact WF].
  pose proof (live_lt_length g i L) as LT. constructor; cbn.
  - intros j. rewrite set_nth_length. unfold sg_live. cbn. rewrite nth_set_nth by exact LT. split.
    + intros [<-|H]; [rewrite Nat.eqb_refl; auto|].
      apply (ws_free_vacant _ WF) in H. destruct H as (H1 & H2).
      split; [exact H1|]. destruct (Nat.eqb j i); [reflexivity|exact H2].
    + intros (H1 & H2). destruct (Nat.eqb_spec j i) as [->|]; [now left|]. right.
      apply (ws_free_vacant _ WF). auto.
  - intros e He. apply filter_In in He. destruct He as (He & P). apply andb_true_iff in P.
    destruct P as (P1 & P2). apply negb_true_iff in P1, P2.
    unfold sg_live. cbn. rewrite !nth_set_nth by exact LT. rewrite P1, P2.
    apply (ws_ends_live _ WF), He.
  - apply nodup_map_filter, (ws_simple _ WF).
Qed.

Lemma wf_update_edge : forall g a b w g', wf_stable g -> sg_update_edge g a b w = Ok g' -> wf_stable g'.
Proof.
  intros g a b w g' WF H. unfold sg_update_edge in H.
  destruct (sg_live g a) eqn:La.
  - destruct (overwrite_edge a b w (sg_edges g)) as [l|] eqn:O.
    + injection H as <-. destruct (overwrite_spec _ _ _ _ _ O) as (l1 & e & l2 & E1 & E2 & P).
      pose proof (ws_simple _ WF) as ND. rewrite E1, map_app in ND. cbn in ND. rewrite P in ND.
      constructor; cbn.
      * apply (ws_free_vacant _ WF).
      * intros x Hx. rewrite E2, in_app_iff in Hx. cbn in Hx.
        assert (X : In e (sg_edges g)) by (rewrite E1, in_app_iff; right; now left).
        destruct Hx as [Hx|[<-|Hx]].
        -- apply (ws_ends_live _ WF). rewrite E1, in_app_iff. now left.
        -- apply (ws_ends_live _ WF) in X. injection P as P1 P2. cbn. rewrite P1, P2 in X. exact X.
        -- apply (ws_ends_live _ WF). rewrite E1, in_app_iff. right. now right.
      * rewrite E2, map_app. cbn. exact ND.
    + cbn in H. destruct (sg_live g b) eqn:Lb; [|discriminate]. injection H as <-.
      apply overwrite_none in O. constructor; cbn.
      * apply (ws_free_vacant _ WF).
      * intros x [<-|Hx]; [cbn; auto|]. apply (ws_ends_live _ WF), Hx.
      * constructor; [exact O|apply (ws_simple _ WF)].
  - cbn in H. discriminate.
Qed.

Section Hist.
Context {N St Ca F W : Type}.
Variable ops : nodeops N St Ca F W.
Variable srt : edge_sort.

Notation wfg := (wf_graph ops).

(** [remove_edges] changes only the edge list (and the state). *)
Definition only_edges (g g' : graph N St) : Prop :=
  g_nodes g' = g_nodes g /\ g_ids g' = g_ids g /\ sg_nodes (g_graph g') = sg_nodes (g_graph g) /\
  sg_free (g_graph g') = sg_free (g_graph g) /\ g_output g' = g_output g /\ g_status g' = g_status g.

Lemma only_edges_refl : forall g, only_edges g g.
Proof. intros; repeat split. Qed.

Lemma only_edges_trans : forall a b c, only_edges a b -> only_edges b c -> only_edges a c.
Proof.
  unfold only_edges. intros a b c (A1 & A2 & A3 & A4 & A5 & A6) (B1 & B2 & B3 & B4 & B5 & B6).
  repeat split; congruence.
Qed.

Lemma live_only_edges : forall g g' i, only_edges g g' -> sg_live (g_graph g') i = sg_live (g_graph g) i.
Proof. intros g g' i (_ & _ & E & _). unfold sg_live. now rewrite E. Qed.

(** Removing a list of edges of a well-formed graph removes exactly those pairs. *)
Lemma remove_edges_spec : forall es (g : graph N St), wf_stable (g_graph g) ->
  (forall e, In e es -> sg_live (g_graph g) (e_src e) = true) ->
  let g' := remove_edges g es in
  wf_stable (g_graph g') /\ only_edges g g' /\
  (forall e, In e (sg_edges (g_graph g')) <->
     In e (sg_edges (g_graph g)) /\ ~ In (pair_of e) (map (fun e => pair_of e) es)) /\
  (exists f, sg_edges (g_graph g') = filter f (sg_edges (g_graph g))) /\
  (g_state g' = if existsb (fun e => existsb (fun e' => is_edge (e_src e) (e_dst e) e') (sg_edges (g_graph g))) es
                then GsDirty else g_state g).
Proof.
  induction es as [|e es IH]; intros g WF HL; cbv zeta.
  - cbn. split; [exact WF|]. split; [apply only_edges_refl|]. split; [intros; tauto|].
    split; [|reflexivity]. exists (fun _ => true). clear. induction (sg_edges (g_graph g)); cbn; congruence.
  - cbn [remove_edges fold_left]. fold (remove_edges (N:=N) (St:=St)).
    rewrite (HL e (or_introl eq_refl)).
    destruct (remove_first_edge (e_src e) (e_dst e) (sg_edges (g_graph g))) as [l|] eqn:R.
    + set (g1 := with_state (with_graph g (Stable (sg_nodes (g_graph g)) (sg_free (g_graph g)) l)) GsDirty).
      assert (IN : forall x, In x l <-> In x (sg_edges (g_graph g)) /\ pair_of x <> pair_of e).
      { apply remove_first_in; [apply (ws_simple _ WF)|exact R]. }
      assert (W1 : wf_stable (g_graph g1)).
      { apply wf_edges; [exact WF|intros x Hx; apply IN, Hx|].
        eapply remove_first_nodup; [apply (ws_simple _ WF)|exact R]. }
      assert (O1 : only_edges g g1) by (repeat split).
      destruct (IH g1 W1) as (A & B & C & (f & D) & E).
      { intros x Hx. rewrite (live_only_edges g g1 _ O1). apply HL. now right. }
      split; [exact A|]. split; [exact (only_edges_trans _ _ _ O1 B)|]. split; [|split].
      * intros x. change (fold_left _ es g1) with (remove_edges g1 es). rewrite C.
        change (sg_edges (g_graph g1)) with l. rewrite IN. cbn [map In]. intuition congruence.
      * assert (exists f1, l = filter f1 (sg_edges (g_graph g))) as (f1 & F1).
        { destruct (remove_first_spec _ _ _ _ R) as (l1 & x & l2 & E1 & E2 & P).
          exists (fun y => negb (is_edge (e_src e) (e_dst e) y)). rewrite E1, E2.
          pose proof (ws_simple _ WF) as ND. rewrite E1, map_app in ND. cbn in ND. apply NoDup_remove_2 in ND.
          rewrite filter_app. cbn. rewrite (proj2 (is_edge_iff _ _ _) P). cbn.
          assert (X : forall y, In y (l1 ++ l2) -> negb (is_edge (e_src e) (e_dst e) y) = true).
          { intros y Hy. apply negb_true_iff. destruct (is_edge (e_src e) (e_dst e) y) eqn:Q; [|reflexivity].
            apply is_edge_iff in Q. exfalso. apply ND. rewrite <- map_app, in_map_iff. exists y.
            split; [congruence|exact Hy]. }
          rewrite !filter_false_in; [reflexivity| |]; intros y Hy; apply X, in_app_iff; auto. }
        exists (fun y => f1 y && f y). change (fold_left _ es g1) with (remove_edges g1 es). rewrite D.
        change (sg_edges (g_graph g1)) with l. rewrite F1. clear.
        induction (sg_edges (g_graph g)) as [|y t IHt]; cbn; [reflexivity|].
        destruct (f1 y); cbn; [|exact IHt]. destruct (f y); cbn; congruence.
      * change (fold_left _ es g1) with (remove_edges g1 es). rewrite E. cbn [existsb].
        assert (X : existsb (fun e' => is_edge (e_src e) (e_dst e) e') (sg_edges (g_graph g)) = true).
        { apply existsb_exists. destruct (remove_first_spec _ _ _ _ R) as (l1 & x & l2 & E1 & _ & P).
          exists x. split; [rewrite E1, in_app_iff; right; now left|]. now apply is_edge_iff. }
        rewrite X. cbn. destruct (existsb _ es); reflexivity.
    + destruct (IH g WF) as (A & B & C & D & E).
      { intros x Hx. apply HL. now right. }
      split; [exact A|]. split; [exact B|]. split; [|split].
      * intros x. change (fold_left _ es g) with (remove_edges g es). rewrite C. cbn [map In].
        apply remove_first_none in R. split; [|tauto].
        intros (H1 & H2). split; [exact H1|]. intros [X|X]; [|contradiction].
        apply R. rewrite X. apply (in_map (fun e => pair_of e)) in H1. exact H1.
      * exact D.
      * change (fold_left _ es g) with (remove_edges g es). rewrite E. cbn [existsb].
        assert (X : existsb (fun e' => is_edge (e_src e) (e_dst e) e') (sg_edges (g_graph g)) = false).
        { apply not_true_is_false. intros X. apply existsb_exists in X. destruct X as (x & Hx & P).
          apply is_edge_iff in P. apply remove_first_none in R. apply R. rewrite <- P.
          apply (in_map (fun e => pair_of e)) in Hx. exact Hx. }
        now rewrite X.
Qed.

Lemma take_while_in : forall {A} (f : A -> bool) l x, In x (take_while f l) -> In x l /\ f x = true.
Proof.
  induction l as [|a l IH]; intros x H; cbn in H; [destruct H|].
  destruct (f a) eqn:E; [|destruct H]. destruct H as [<-|H]; [split; [now left|exact E]|].
  destruct (IH x H). split; [now right|assumption].
Qed.

(** Disconnecting removes the edges in the leading run with that slot. *)
Lemma disconnect_spec : forall (g : graph N St) dst slot i, wf_stable (g_graph g) ->
  find_index g dst = Some i ->
  let run := take_while (fun e => e_slot e =? slot) (sg_incoming (g_graph g) i) in
  let g' := disconnect_input g dst slot in
  wf_stable (g_graph g') /\ only_edges g g' /\
  (forall e, In e (sg_edges (g_graph g')) <-> In e (sg_edges (g_graph g)) /\ ~ In e run) /\
  g_state g' = (if match run with [] => true | _ => false end then g_state g else GsDirty).
Proof.
  intros g dst slot i WF HI run g'. unfold g', disconnect_input. rewrite HI. fold run.
  assert (SUB : forall e, In e run -> In e (sg_edges (g_graph g)) /\ e_dst e = i /\ e_slot e = slot).
  { intros e He. apply take_while_in in He. destruct He as (H1 & H2). apply in_incoming in H1; [|exact WF].
    destruct H1. repeat split; try assumption. lia. }
  destruct (remove_edges_spec run g WF) as (A & B & C & _ & E).
  { intros e He. apply (ws_ends_live _ WF), SUB, He. }
  split; [exact A|]. split; [exact B|]. split.
  - intros e. rewrite C. split.
    + intros (H1 & H2). split; [exact H1|]. intros X. apply H2. apply (in_map (fun e => pair_of e)) in X. exact X.
    + intros (H1 & H2). split; [exact H1|]. intros X. apply in_map_iff in X. destruct X as (x & P & Hx).
      apply H2. replace e with x; [exact Hx|]. destruct (SUB x Hx) as (Hx' & _).
      pose proof (ws_simple _ WF) as ND. clear - ND P Hx' H1.
      induction (sg_edges (g_graph g)) as [|y l IH]; [destruct H1|]. cbn in ND. inversion ND; subst.
      destruct Hx' as [->|Hx'], H1 as [->|H1].
      * reflexivity.
      * exfalso. apply H2. rewrite P. apply (in_map (fun e => pair_of e)) in H1. exact H1.
      * exfalso. apply H2. rewrite <- P. apply (in_map (fun e => pair_of e)) in Hx'. exact Hx'.
      * now apply IH.
  - rewrite E. destruct run as [|e run'] eqn:ER; [reflexivity|]. cbn [existsb].
    assert (X : existsb (fun e' => is_edge (e_src e) (e_dst e) e') (sg_edges (g_graph g)) = true).
    { apply existsb_exists. exists e. split; [apply SUB; now left|]. now apply is_edge_iff. }
    now rewrite X.
Qed.

(* ------------------------------ histories ------------------------------ *)

Lemma position_lt : forall id l i, position id l = Some i -> nth_error l i = Some id /\ (i < length l)%nat.
Proof.
  induction l as [|h l IH]; intros i H; cbn in H; [discriminate|].
  destruct (Z.eqb_spec h id) as [->|].
  - injection H as <-. cbn. split; [reflexivity|lia].
  - destruct (position id l) as [j|]; [|discriminate]. injection H as <-.
    destruct (IH j eq_refl). cbn. split; [assumption|lia].
Qed.

Lemma position_none : forall id l, position id l = None <-> ~ In id l.
Proof.
  induction l as [|h l IH]; cbn; [split; [intros _ []|reflexivity]|].
  destruct (Z.eqb_spec h id) as [->|].
  - split; [discriminate|]. intros H. exfalso. apply H. now left.
  - destruct (position id l).
    + split; [discriminate|]. intros H. assert (Some n0 = None) by (apply IH; tauto). discriminate.
    + split; [|reflexivity]. intros _ [X|X]; [contradiction|]. revert X. now apply IH.
Qed.

Lemma position_in : forall id l, In id l -> exists i, position id l = Some i.
Proof.
  intros id l H. destruct (position id l) eqn:E; [eauto|]. apply position_none in E. contradiction.
Qed.

Lemma position_nodup : forall l i id, NoDup l -> nth_error l i = Some id -> position id l = Some i.
Proof.
  induction l as [|h l IH]; intros [|i] id ND H; cbn in *; try discriminate.
  - injection H as ->. now rewrite Z.eqb_refl.
  - inversion ND; subst. destruct (Z.eqb_spec h id) as [->|].
    + exfalso. apply H2. apply nth_error_In in H. exact H.
    + now rewrite (IH i id).
Qed.

Lemma position_app : forall id l x i, position id l = Some i -> position id (l ++ x) = Some i.
Proof.
  induction l as [|h l IH]; intros x i H; cbn in *; [discriminate|].
  destruct (h =? id); [exact H|]. destruct (position id l) as [j|]; [|discriminate].
  injection H as <-. now rewrite (IH x j).
Qed.

Lemma wf_runnable : forall g, wfg g -> runnable g.
Proof. intros g WG. split; [apply (wg_stable _ _ WG)|apply (wg_len _ _ WG)]. Qed.

Lemma wf_new : forall s0, wfg (graph_new s0).
Proof.
  intros s0. constructor; cbn; [|reflexivity|reflexivity].
  constructor; cbn.
  - intros i. split; [intros []|]. lia.
  - intros e [].
  - constructor.
Qed.

Lemma wf_same_shape : forall g g', wfg g -> same_shape g g' ->
  map (n_id ops) (g_nodes g') = map (n_id ops) (g_nodes g) -> wfg g'.
Proof.
  intros g g' WG (E1 & E2 & E3 & _) E4. constructor.
  - rewrite E1. apply (wg_stable _ _ WG).
  - rewrite E3, E4. apply (wg_ids _ _ WG).
  - rewrite E1, E2. apply (wg_len _ _ WG).
Qed.

Lemma wf_only_edges : forall g g', wfg g -> only_edges g g' -> wf_stable (g_graph g') -> wfg g'.
Proof.
  intros g g' WG (E1 & E2 & E3 & E4 & _) WS. constructor.
  - exact WS.
  - rewrite E1, E2. apply (wg_ids _ _ WG).
  - rewrite E1, E3. apply (wg_len _ _ WG).
Qed.

Hypothesis KI : keeps_id ops.

(** What computing a node keeps, executing the graph keeps. *)
Section Keeps.
Context {K : Type}.
Variable key : N -> K.
Hypothesis KK : forall n fr mode ins out c n' st out' c',
  n_compute ops n fr mode ins out c = Ok (n', st, out', c') -> key n' = key n.

Lemma compute_phase_keys : forall t (g : graph N St) fr c sc g' c' e,
  compute_phase ops srt g fr t c sc = Ok (g', c', e) ->
  map key (g_nodes g') = map key (g_nodes g).
Proof.
  induction t as [|(i, mode) t IH]; intros g fr c sc g' c' e H; cbn [compute_phase] in H.
  - injection H as <- _ _. reflexivity.
  - destruct (input_streams _ _ _ _) as [is|]; [|discriminate]. cbn [bind] in H.
    unfold compute_node_output in H. unfold get_node in H.
    destruct (nth_error (g_nodes g) i) as [n|] eqn:En; [|discriminate]. cbn [bind] in H.
    destruct (n_compute _ _ _ _ _ _ _) as [(((n', st), out), c1)|] eqn:Ec; [|discriminate]. cbn [bind] in H.
    assert (X : map key (set_nth (g_nodes g) i n') = map key (g_nodes g)).
    { eapply map_set_nth; [exact En|]. exact (KK _ _ _ _ _ _ _ _ _ _ Ec). }
    destruct st; cbn [bind] in H.
    + injection H as <- _ _. exact X.
    + apply IH in H. cbn in H. congruence.
    + apply IH in H. cbn in H. congruence.
    + injection H as <- _ _. exact X.
    + injection H as <- _ _. exact X.
Qed.

Lemma execute_frames_keys : forall fuel order frames (g : graph N St) c g' c' e,
  execute_frames ops srt fuel g order frames c = Some (Ok (g', c', e)) ->
  map key (g_nodes g') = map key (g_nodes g).
Proof.
  intros fuel order. induction frames as [|fr frames IH]; intros g c g' c' e H; cbn [execute_frames] in H.
  - injection H as <- _ _. reflexivity.
  - destruct (execute_frame _ _ _ _ _ _ _) as [[((g1, c1), e1)|]|] eqn:E; try discriminate.
    assert (X : map key (g_nodes g1) = map key (g_nodes g)).
    { unfold execute_frame in E. destruct (hash_phase _ _ _ _ _ _); [|discriminate].
      destruct order; [discriminate|]. destruct (validate_loop _ _ _ _ _ _ _) as [[v|]|]; try discriminate.
      injection E as E. exact (compute_phase_keys _ _ _ _ _ _ _ _ E). }
    destruct e1.
    + injection H as <- _ _. exact X.
    + apply IH in H. congruence.
Qed.

Lemma execute_keys : forall fuel (g : graph N St) id frames c g' c' st,
  execute ops srt fuel g id frames c = Some (Ok (g', c', st)) ->
  map key (g_nodes g') = map key (g_nodes g).
Proof.
  intros fuel g id frames c g' c' st H. unfold execute in H.
  destruct (find_index g id).
  - destruct (all_upstream _ _ _); [|discriminate].
    destruct (execute_frames _ _ _ _ _ _ _) as [[((g1, c1), [e|])|]|] eqn:E; try discriminate;
      injection H as <- <- <-; exact (execute_frames_keys _ _ _ _ _ _ _ _ E).
  - injection H as <- <- <-. reflexivity.
Qed.
End Keeps.

Definition execute_frames_ids := execute_frames_keys (n_id ops) (proj2 KI).

Lemma execute_result : forall fuel (g : graph N St) id frames c g' c' st,
  execute ops srt fuel g id frames c = Some (Ok (g', c', st)) ->
  g_graph g' = g_graph g /\ g_ids g' = g_ids g /\ length (g_nodes g') = length (g_nodes g) /\
  map (n_id ops) (g_nodes g') = map (n_id ops) (g_nodes g) /\
  g_status g' = st /\ g_state g' = (match st with ExSuccess => GsClean | _ => g_state g end).
Proof.
  intros fuel g id frames c g' c' st H. unfold execute in H.
  destruct (find_index g id).
  - destruct (all_upstream _ _ _); [|discriminate].
    destruct (execute_frames _ _ _ _ _ _ _) as [[((g1, c1), [e|])|]|] eqn:E; try discriminate;
      injection H as <- <- <-; pose proof (execute_frames_shape _ _ _ _ _ _ _ _ _ _ E) as (S1 & S2 & S3 & S4 & S5);
      pose proof (execute_frames_ids _ _ _ _ _ _ _ _ E) as S6; cbn;
      repeat split; try assumption.
    destruct e; exact S4.
  - injection H as <- <- <-. cbn. repeat split.
Qed.

(** Every history preserves well-formedness and determines the ids. *)
Lemma calls_wf : forall g c call g' c', wfg g -> calls ops srt g c call g' c' ->
  wfg g' /\ g_ids g' = g_ids g ++ added ops [call] /\
  match call with
  | GRemove _ => sg_free (g_graph g) <> [] -> sg_free (g_graph g') <> []
  | _ => sg_free (g_graph g') = sg_free (g_graph g)
  end.
Proof.
  intros g c call g' c' WG H. pose proof (wg_stable _ _ WG) as WS.
  destruct call as [n|id|s d k|d k|id w|id fs]; cbn [calls] in H; cbn [added].
  - destruct H as (-> & i & H). unfold add_node, sg_add_node in H.
    destruct (sg_free (g_graph g)) as [|j rest] eqn:Fr.
    + destruct (Nat.eqb_spec (length (sg_nodes (g_graph g))) (length (g_nodes g))); [|discriminate].
      injection H as <- _. split; [|split; [reflexivity|reflexivity]].
      constructor; cbn.
      * constructor; cbn.
        -- intros j. split; [intros []|]. intros (H1 & H2). rewrite app_length in H1. cbn in H1.
           unfold sg_live in H2. cbn in H2.
           destruct (Nat.lt_ge_cases j (length (sg_nodes (g_graph g)))) as [L|L].
           ++ rewrite app_nth1 in H2 by exact L.
              assert (X : In j (sg_free (g_graph g))) by (apply (ws_free_vacant _ WS); auto).
              rewrite Fr in X. exact X.
           ++ replace j with (length (sg_nodes (g_graph g))) in H2 by lia.
              rewrite app_nth2, Nat.sub_diag in H2 by lia. discriminate.
        -- intros e0 He. destruct (ws_ends_live _ WS e0 He) as (A & B). unfold sg_live in *. cbn.
           pose proof (live_lt_length _ _ A). pose proof (live_lt_length _ _ B).
           rewrite !app_nth1 by assumption. auto.
        -- apply (ws_simple _ WS).
      * rewrite map_app, (wg_ids _ _ WG). reflexivity.
      * rewrite !app_length, (wg_len _ _ WG). reflexivity.
    + (* a freed index never equals the number of nodes *)
      exfalso. assert (X : In j (sg_free (g_graph g))) by (rewrite Fr; now left).
      apply (ws_free_vacant _ WS) in X. rewrite (wg_len _ _ WG) in X.
      destruct (Nat.eqb_spec j (length (g_nodes g))); [lia|discriminate].
  - destruct H as (-> & ->). unfold remove_node. rewrite app_nil_r.
    destruct (find_index g id) as [i|]; [|split; [exact WG|split; [reflexivity|auto]]].
    destruct (sg_remove_node (g_graph g) i) as (sg, r) eqn:R.
    pose proof (wf_remove_node _ _ _ _ WS R) as W2.
    destruct r; cbn [fst]; [|split; [exact WG|split; [reflexivity|auto]]].
    unfold sg_remove_node in R. destruct (sg_live (g_graph g) i); [|discriminate].
    injection R as R. split; [|split].
    + constructor; [exact W2|apply (wg_ids _ _ WG)|]. rewrite <- R. cbn. rewrite set_nth_length. apply (wg_len _ _ WG).
    + reflexivity.
    + intros _. rewrite <- R. cbn. discriminate.
  - destruct H as (-> & H). rewrite app_nil_r. unfold connect in H.
    destruct (find_index g s) as [a|]; [|injection H as <-; split; [exact WG|split; [reflexivity|auto]]].
    destruct (find_index g d) as [b|] eqn:Fd; [|injection H as <-; split; [exact WG|split; [reflexivity|auto]]].
    destruct (disconnect_spec g d k b WS Fd) as (W1 & O1 & _).
    destruct (sg_update_edge _ a b k) as [sg|] eqn:U; [|discriminate]. cbn [bind] in H. injection H as <-.
    pose proof (wf_update_edge _ _ _ _ _ W1 U) as W2.
    assert (NF : sg_nodes sg = sg_nodes (g_graph g) /\ sg_free sg = sg_free (g_graph g)).
    { destruct O1 as (_ & _ & O3 & O4 & _). unfold sg_update_edge in U.
      destruct (if sg_live _ a then _ else None); [injection U as <-; cbn; auto|].
      destruct (_ && _); [|discriminate]. injection U as <-. cbn. auto. }
    destruct O1 as (O1 & O2 & O3 & O4 & _). destruct NF as (NF1 & NF2). split; [|split].
    + constructor; cbn; [exact W2| |].
      * rewrite O1, O2. apply (wg_ids _ _ WG).
      * rewrite NF1, O1. apply (wg_len _ _ WG).
    + cbn. exact O2.
    + cbn. now rewrite NF2.
  - destruct H as (-> & ->). rewrite app_nil_r. destruct (find_index g d) as [i|] eqn:Fd.
    + destruct (disconnect_spec g d k i WS Fd) as (W1 & O1 & _). split; [|split].
      * eapply wf_only_edges; eauto.
      * apply O1.
      * destruct O1 as (_ & _ & _ & O4 & _). now rewrite O4.
    + unfold disconnect_input. rewrite Fd. split; [exact WG|split; [reflexivity|auto]].
  - destruct H as (-> & H). rewrite app_nil_r. unfold write_node in H.
    destruct (find_index g id) as [i|]; [|injection H as <-; split; [exact WG|split; [reflexivity|auto]]].
    destruct (nth_error (g_nodes g) i) as [n|] eqn:En; [|discriminate]. injection H as <-.
    split; [|split; [reflexivity|auto]]. constructor; cbn.
    + exact WS.
    + rewrite (map_set_nth (n_id ops) _ _ _ n); [apply (wg_ids _ _ WG)|exact En|apply (proj1 KI)].
    + rewrite set_nth_length. apply (wg_len _ _ WG).
  - destruct H as (fuel & st & H). rewrite app_nil_r.
    destruct (execute_result _ _ _ _ _ _ _ _ H) as (E1 & E2 & E3 & E4 & _). split; [|split].
    + constructor.
      * rewrite E1. exact WS.
      * rewrite E2, E4. apply (wg_ids _ _ WG).
      * rewrite E1, E3. apply (wg_len _ _ WG).
    + exact E2.
    + now rewrite E1.
Qed.

Lemma added_app : forall h h', added ops (h ++ h') = added ops h ++ added ops h'.
Proof.
  induction h as [|call h IH]; intros h'; cbn; [reflexivity|]. destruct call; cbn; rewrite ?IH; reflexivity.
Qed.

Theorem history_wf : forall s0 c0 h g c, history ops srt s0 c0 h g c ->
  wfg g /\ g_ids g = added ops h.
Proof.
  intros s0 c0 h g c H. induction H as [|h g c call g' c' H (IH1 & IH2) HC].
  - split; [apply wf_new|reflexivity].
  - destruct (calls_wf _ _ _ _ _ IH1 HC) as (A & B & _). split; [exact A|].
    rewrite B, IH2, added_app. reflexivity.
Qed.

End Hist.

(** Identity, removal, slots, state machine and frame lists. *)
From Coq Require Import Permutation Sorted.
From Verif Require Import Machine GraphModel GraphSpec GraphWalk GraphExec GraphHistory.

Definition edges_dec : forall a b : list edge, {a = b} + {a <> b}.
Proof. do 2 decide equality; auto using Z.eq_dec, Nat.eq_dec. Defined.

Lemma stable_ext : forall a b : stable, sg_nodes a = sg_nodes b -> sg_free a = sg_free b ->
  sg_edges a = sg_edges b -> a = b.
Proof. intros [] []. cbn. congruence. Qed.

Section Hist.
Context {N St Ca F W : Type}.
Variable ops : nodeops N St Ca F W.
Variable srt : edge_sort.
Hypothesis KI : keeps_id ops.

(* ------------------------------ identity ------------------------------ *)

Lemma exists_iff_added : forall s0 c0 h g c id, history ops srt s0 c0 h g c ->
  (node_exists g id = true <-> In id (added ops h)).
Proof.
  intros s0 c0 h g c id H. destruct (history_wf ops srt KI _ _ _ _ _ H) as (_ & E).
  unfold node_exists, find_index. rewrite E. destruct (position id (added ops h)) eqn:P.
  - split; [|reflexivity]. intros _. apply position_lt in P. destruct P as (P & _). exact (nth_error_In _ _ P).
  - split; [discriminate|]. intros HI. apply position_none in P. contradiction.
Qed.

Lemma identity_kept : forall s0 c0 h g c i id, history ops srt s0 c0 h g c ->
  NoDup (added ops h) -> nth_error (added ops h) i = Some id ->
  exists n, find_index g id = Some i /\ nth_error (g_nodes g) i = Some n /\ n_id ops n = id.
Proof.
  intros s0 c0 h g c i id H ND E. destruct (history_wf ops srt KI _ _ _ _ _ H) as (WG & EI).
  assert (P : find_index g id = Some i).
  { unfold find_index. rewrite EI. now apply position_nodup. }
  rewrite <- EI, (wg_ids _ _ WG), nth_error_map in E.
  destruct (nth_error (g_nodes g) i) as [n|]; [|discriminate]. cbn in E. injection E as E.
  exists n. auto.
Qed.

Lemma write_read_same : forall {A} (g : graph N St) id w g' (f : N -> A) d,
  write_node ops g id w = Ok g' ->
  read_node g' id f d = read_node g id (fun n => f (n_write ops n w)) d.
Proof.
  intros A g id w g' f d H. unfold write_node in H. unfold read_node, find_index.
  destruct (find_index g id) as [i|] eqn:P.
  - destruct (nth_error (g_nodes g) i) as [n|] eqn:En; [|discriminate]. injection H as <-.
    unfold find_index in P. cbn. rewrite P, set_nth_same, En; [reflexivity|].
    apply nth_error_Some. congruence.
  - injection H as <-. unfold find_index in P. rewrite P. reflexivity.
Qed.

Lemma write_read_other : forall {A} (g : graph N St) id id' w g' (f : N -> A) d,
  write_node ops g id w = Ok g' -> id' <> id -> read_node g' id' f d = read_node g id' f d.
Proof.
  intros A g id id' w g' f d H NE. unfold write_node in H. unfold read_node, find_index.
  destruct (find_index g id) as [i|] eqn:P; [|injection H as <-; reflexivity].
  destruct (nth_error (g_nodes g) i) as [n|] eqn:En; [|discriminate]. injection H as <-.
  cbn. unfold find_index in P. destruct (position id' (g_ids g)) as [j|] eqn:P'; [|reflexivity].
  rewrite set_nth_other; [reflexivity|]. intros ->.
  apply position_lt in P, P'. destruct P as (P & _), P' as (P' & _). congruence.
Qed.

Lemma structural_read : forall {A} (g : graph N St) c call g' c' (f : N -> A) d id,
  wf_graph ops g -> calls ops srt g c call g' c' ->
  match call with GWrite _ _ | GExecute _ _ => False | _ => True end ->
  In id (g_ids g) -> read_node g' id f d = read_node g id f d.
Proof.
  intros A g c call g' c' f d id WG H HK HI. pose proof (wg_stable _ _ WG) as WS.
  assert (SAME : g_nodes g' = g_nodes g -> g_ids g' = g_ids g -> read_node g' id f d = read_node g id f d).
  { intros E1 E2. unfold read_node, find_index. now rewrite E1, E2. }
  destruct call as [n|i|s t k|t k|i w|i fs]; cbn [calls] in H; try contradiction.
  - destruct H as (_ & i & H). unfold add_node in H. destruct (sg_add_node (g_graph g)).
    destruct (Nat.eqb _ _); [|discriminate]. injection H as <- _.
    unfold read_node, find_index. cbn. destruct (position_in id _ HI) as (j & P).
    rewrite (position_app _ _ _ _ P), P. apply position_lt in P. destruct P as (_ & P).
    rewrite nth_error_app1; [reflexivity|]. rewrite (wg_ids _ _ WG), map_length in P. exact P.
  - destruct H as (_ & ->). unfold remove_node. destruct (find_index g i); [|reflexivity].
    destruct (sg_remove_node _ _) as (sg & r). destruct r; reflexivity.
  - destruct H as (_ & H). unfold connect in H.
    destruct (find_index g s) as [a|]; [|injection H as <-; reflexivity].
    destruct (find_index g t) as [b|] eqn:Ft; [|injection H as <-; reflexivity].
    destruct (disconnect_spec g t k b WS Ft) as (_ & O & _).
    destruct (sg_update_edge _ _ _ _); [|discriminate]. injection H as <-. apply SAME; apply O.
  - destruct H as (_ & ->). destruct (find_index g t) as [b|] eqn:Ft.
    + destruct (disconnect_spec g t k b WS Ft) as (_ & O & _). apply SAME; apply O.
    + unfold disconnect_input. now rewrite Ft.
Qed.

Lemma no_removal_free : forall s0 c0 h g c, history ops srt s0 c0 h g c -> no_removal h ->
  sg_free (g_graph g) = [].
Proof.
  intros s0 c0 h g c H. induction H as [|h g c call g' c' H IH HC]; intros NR; [reflexivity|].
  assert (E : sg_free (g_graph g) = []).
  { apply IH. intros id X. apply (NR id), in_app_iff. now left. }
  destruct (history_wf ops srt KI _ _ _ _ _ H) as (WG & _).
  destruct (calls_wf ops srt KI _ _ _ _ _ WG HC) as (_ & _ & FR).
  destruct call; try congruence. exfalso. apply (NR id), in_app_iff. right. now left.
Qed.

Lemma add_never_panics : forall s0 c0 h g c n, history ops srt s0 c0 h g c -> no_removal h ->
  exists g', add_node ops g n = Ok (g', length (added ops h)).
Proof.
  intros s0 c0 h g c n H NR. pose proof (no_removal_free _ _ _ _ _ H NR) as Fr.
  destruct (history_wf ops srt KI _ _ _ _ _ H) as (WG & EI).
  unfold add_node, sg_add_node. rewrite Fr, (wg_len _ _ WG), Nat.eqb_refl.
  eexists. do 2 f_equal. rewrite <- EI, (wg_ids _ _ WG), map_length. reflexivity.
Qed.

Lemma no_removal_live : forall s0 c0 h g c, history ops srt s0 c0 h g c -> no_removal h ->
  forall id i, find_index g id = Some i -> sg_live (g_graph g) i = true.
Proof.
  intros s0 c0 h g c H NR id i P. destruct (history_wf ops srt KI _ _ _ _ _ H) as (WG & EI).
  destruct (sg_live (g_graph g) i) eqn:L; [reflexivity|]. exfalso.
  pose proof (wg_stable _ _ WG) as WS.
  assert (X : In i (sg_free (g_graph g))).
  { apply (ws_free_vacant _ WS). split; [|exact L]. apply position_lt in P. destruct P as (_ & P).
    rewrite (wg_ids _ _ WG), map_length in P. rewrite (wg_len _ _ WG). exact P. }
  rewrite (no_removal_free _ _ _ _ _ H NR) in X. exact X.
Qed.

(* ------------------------------ removal ------------------------------ *)

Lemma remove_keeps_id : forall (g : graph N St) id g', remove_node g id = (g', true) ->
  node_exists g' id = true.
Proof.
  intros g id g' H. unfold remove_node in H. unfold node_exists, find_index.
  destruct (find_index g id) as [i|] eqn:P; [|discriminate].
  destruct (sg_remove_node _ _) as (sg & r). destruct r; [|discriminate]. injection H as <-.
  cbn. unfold find_index in P. now rewrite P.
Qed.

Lemma add_panics_if_free : forall g n, wf_graph ops g -> sg_free (g_graph g) <> [] -> add_node ops g n = Panic.
Proof.
  intros g n WG H. unfold add_node, sg_add_node. destruct (sg_free (g_graph g)) as [|j rest] eqn:Fr; [congruence|].
  assert (X : In j (sg_free (g_graph g))) by (rewrite Fr; now left).
  apply (ws_free_vacant _ (wg_stable _ _ WG)) in X. rewrite (wg_len _ _ WG) in X.
  destruct (Nat.eqb_spec j (length (g_nodes g))); [lia|reflexivity].
Qed.

Lemma remove_breaks_adding_step : forall (g : graph N St) id, wf_graph ops g ->
  In id (g_ids g) -> sg_free (g_graph (fst (remove_node g id))) <> [].
Proof.
  intros g id WG HI. unfold remove_node. destruct (position_in id _ HI) as (i & P).
  unfold find_index. rewrite P. apply position_lt in P. destruct P as (_ & P).
  unfold sg_remove_node. destruct (sg_live (g_graph g) i) eqn:L; cbn; [discriminate|].
  intros E. assert (X : In i (sg_free (g_graph g))).
  { apply (ws_free_vacant _ (wg_stable _ _ WG)). split; [|exact L].
    rewrite (wg_ids _ _ WG), map_length in P. rewrite (wg_len _ _ WG). exact P. }
  rewrite E in X. exact X.
Qed.

Lemma history_split : forall s0 c0 h g c, history ops srt s0 c0 h g c ->
  forall h1 call h2, h = h1 ++ call :: h2 ->
  exists g1 c1 g2 c2, history ops srt s0 c0 h1 g1 c1 /\ calls ops srt g1 c1 call g2 c2 /\
    history ops srt s0 c0 (h1 ++ [call]) g2 c2.
Proof.
  intros s0 c0 h g c H. induction H as [|h g c last g' c' H IH HC]; intros h1 call h2 E.
  - destruct h1; discriminate.
  - destruct h2 as [|x h2] using rev_ind.
    + apply app_inj_tail in E. destruct E as (-> & ->). exists g, c, g', c'.
      repeat split; try assumption. econstructor; eauto.
    + clear IHh2. assert (E' : h ++ [last] = (h1 ++ call :: h2) ++ [x]) by (rewrite E, <- app_assoc; reflexivity).
      apply app_inj_tail in E'. destruct E' as (-> & _). exact (IH _ _ _ eq_refl).
Qed.

Lemma free_persists : forall s0 c0 h g c, history ops srt s0 c0 h g c ->
  forall h1 h2, h = h1 ++ h2 -> (forall g1 c1, history ops srt s0 c0 h1 g1 c1 -> sg_free (g_graph g1) <> []) ->
  sg_free (g_graph g) <> [].
Proof.
  intros s0 c0 h g c H. induction H as [|h g c last g' c' H IH HC]; intros h1 h2 E HF.
  - destruct h1; [|discriminate]. apply (HF _ c0). constructor.
  - destruct h2 as [|x h2] using rev_ind.
    + rewrite app_nil_r in E. subst h1. apply (HF g' c'). econstructor; eauto.
    + clear IHh2. rewrite app_assoc in E. apply app_inj_tail in E. destruct E as (E & <-).
      pose proof (IH h1 h2 E HF) as NF.
      destruct (history_wf ops srt KI _ _ _ _ _ H) as (WG & _).
      destruct (calls_wf ops srt KI _ _ _ _ _ WG HC) as (_ & _ & FR).
      destruct last; congruence || (apply FR; exact NF).
Qed.

(** Once a node has been removed, no node can ever be added again. *)
Theorem remove_breaks_adding : forall s0 c0 h1 id h2 g c,
  history ops srt s0 c0 (h1 ++ GRemove id :: h2) g c -> In id (added ops h1) ->
  forall n, add_node ops g n = Panic.
Proof.
  intros s0 c0 h1 id h2 g c H HI n. destruct (history_wf ops srt KI _ _ _ _ _ H) as (WG & _).
  apply add_panics_if_free; [exact WG|].
  apply (free_persists _ _ _ _ _ H (h1 ++ [GRemove id]) h2); [rewrite <- app_assoc; reflexivity|].
  intros g1 c1 H1. inversion H1 as [E|hh g0 c0' call g1' c1' H0 HC E]; [destruct h1; discriminate|].
  apply app_inj_tail in E. destruct E as (-> & ->).
  destruct (history_wf ops srt KI _ _ _ _ _ H0) as (WG0 & EI). cbn in HC. destruct HC as (_ & ->).
  apply remove_breaks_adding_step; [exact WG0|]. now rewrite EI.
Qed.

(** Removal does disconnect the node, and nothing else. *)
Lemma remove_edges_only : forall (g : graph N St) id g' i, wf_graph ops g ->
  find_index g id = Some i -> remove_node g id = (g', true) ->
  forall m n s, feeds (g_graph g') m n s <-> feeds (g_graph g) m n s /\ m <> i /\ n <> i.
Proof.
  intros g id g' i WG P H m n s. unfold remove_node in H. rewrite P in H.
  unfold sg_remove_node in H. destruct (sg_live (g_graph g) i); [|discriminate]. injection H as <-.
  unfold feeds. cbn. rewrite filter_In, andb_true_iff, !negb_true_iff, !Nat.eqb_neq. cbn. tauto.
Qed.

(* ------------------------------ connecting ------------------------------ *)

Lemma feeds_unique : forall sg m n s s', wf_stable sg -> feeds sg m n s -> feeds sg m n s' -> s = s'.
Proof.
  intros sg m n s s' WF H1 H2. pose proof (ws_simple _ WF) as ND. unfold feeds in *.
  induction (sg_edges sg) as [|e l IH]; [destruct H1|].
  cbn in ND. inversion ND; subst. destruct H1 as [E1|H1], H2 as [E2|H2].
  - congruence.
  - subst e. exfalso. apply H3. apply in_map_iff. exists (Edge m n s'). split; [reflexivity|exact H2].
  - subst e. exfalso. apply H3. apply in_map_iff. exists (Edge m n s). split; [reflexivity|exact H1].
  - apply IH; assumption.
Qed.

Lemma take_while_iff : forall {A} (f : A -> bool) l x, f x = true ->
  (In x (take_while f l) <-> exists l1 l2, l = l1 ++ x :: l2 /\ forall y, In y l1 -> f y = true).
Proof.
  intros A f l x Hx. induction l as [|a l IH]; cbn [take_while].
  - split; [intros []|]. intros (l1 & l2 & E & _). destruct l1; discriminate.
  - destruct (f a) eqn:Fa.
    + cbn [In]. rewrite IH. split.
      * intros [->|(l1 & l2 & -> & H)]; [exists [], l; split; [reflexivity|intros y []]|].
        exists (a :: l1), l2. split; [reflexivity|]. intros y [<-|Hy]; auto.
      * intros (l1 & l2 & E & H). destruct l1 as [|b l1]; injection E as -> E; [now left|].
        right. exists l1, l2. split; [exact E|]. intros y Hy. apply H. now right.
    + split; [intros []|]. intros (l1 & l2 & E & H). destruct l1 as [|b l1]; injection E as -> E; [congruence|].
      rewrite (H b (or_introl eq_refl)) in Fa. discriminate.
Qed.

Lemma leading_run_iff : forall sg m b slot, sg_live sg b = true ->
  (In (Edge m b slot) (take_while (fun e => e_slot e =? slot) (sg_incoming sg b)) <->
   in_leading_run sg m b slot).
Proof.
  intros sg m b slot L. unfold in_leading_run, sg_incoming. rewrite L, take_while_iff by apply Z.eqb_refl.
  split; intros (l1 & l2 & E & H); exists l1, l2; (split; [exact E|]); intros e He; specialize (H e He); lia.
Qed.

Theorem connect_spec : forall (g : graph N St) src dst slot a b, wf_graph ops g ->
  find_index g src = Some a -> find_index g dst = Some b ->
  sg_live (g_graph g) a = true -> sg_live (g_graph g) b = true ->
  exists g', connect g src dst slot = Ok g' /\
    feeds (g_graph g') a b slot /\
    (forall m n s, n <> b -> (feeds (g_graph g') m n s <-> feeds (g_graph g) m n s)) /\
    (forall m s, m <> a -> s <> slot -> (feeds (g_graph g') m b s <-> feeds (g_graph g) m b s)) /\
    (forall m, m <> a -> (feeds (g_graph g') m b slot <->
       feeds (g_graph g) m b slot /\ ~ in_leading_run (g_graph g) m b slot)) /\
    (forall s, feeds (g_graph g') a b s -> s = slot) /\
    g_state g' = GsDirty.
Proof.
  intros g src dst slot a b WG Pa Pb La Lb. pose proof (wg_stable _ _ WG) as WS.
  unfold connect. rewrite Pa, Pb.
  destruct (disconnect_spec g dst slot b WS Pb) as (W1 & O1 & C1 & _).
  set (g1 := disconnect_input g dst slot) in *.
  set (run := take_while (fun e => e_slot e =? slot) (sg_incoming (g_graph g) b)) in *.
  assert (RUN : forall e, In e run -> e_dst e = b /\ e_slot e = slot).
  { intros e He. apply take_while_in in He. destruct He as (H1 & H2).
    apply (in_incoming _ WS) in H1. split; [tauto|lia]. }
  assert (L1a : sg_live (g_graph g1) a = true) by (rewrite (live_only_edges g g1 a O1); exact La).
  assert (L1b : sg_live (g_graph g1) b = true) by (rewrite (live_only_edges g g1 b O1); exact Lb).
  assert (X : exists sg, sg_update_edge (g_graph g1) a b slot = Ok sg /\
     forall e, In e (sg_edges sg) <-> e = Edge a b slot \/ (In e (sg_edges (g_graph g1)) /\ (e_src e, e_dst e) <> (a, b))).
  { unfold sg_update_edge. rewrite L1a.
    destruct (overwrite_edge a b slot (sg_edges (g_graph g1))) as [l|] eqn:O.
    - eexists. split; [reflexivity|]. cbn. intros e.
      destruct (overwrite_spec _ _ _ _ _ O) as (l1 & x & l2 & E1 & E2 & P).
      pose proof (ws_simple _ W1) as ND. rewrite E1, map_app in ND. cbn in ND. rewrite P in ND.
      apply NoDup_remove_2 in ND. rewrite <- map_app, in_map_iff in ND.
      rewrite E2, E1, !in_app_iff. cbn. split.
      + intros [H|[<-|H]]; [right|left; reflexivity|right];
          (split; [tauto|]); intros Q; apply ND; exists e; (split; [exact Q|apply in_app_iff; tauto]).
      + intros [->|([H|[->|H]] & Q)]; [right; now left|now left|contradiction|right; now right].
    - cbn. rewrite L1b. eexists. split; [reflexivity|]. cbn. intros e.
      apply overwrite_none in O. split.
      + intros [<-|H]; [now left|]. right. split; [exact H|]. intros Q. apply O. rewrite <- Q.
        apply (in_map (fun e => (e_src e, e_dst e))) in H. exact H.
      + intros [->|(H & _)]; [now left|now right]. }
  destruct X as (sg & U & IN). rewrite U. cbn [bind]. eexists. split; [reflexivity|].
  unfold feeds. cbn [g_graph with_state with_graph g_state].
  assert (FE : forall m n s, In (Edge m n s) (sg_edges sg) <->
     (m = a /\ n = b /\ s = slot) \/
     (In (Edge m n s) (sg_edges (g_graph g)) /\ ~ In (Edge m n s) run /\ (m, n) <> (a, b))).
  { intros m n s. rewrite IN, C1. cbn. split.
    - intros [E|H]; [injection E as -> -> ->; auto|tauto].
    - intros [(-> & -> & ->)|H]; [now left|tauto]. }
  split; [apply FE; left; auto|].
  split. { intros m n s Hn. rewrite FE. split.
    - intros [(_ & E & _)|H]; [contradiction|tauto].
    - intros H. right. split; [exact H|]. split; [|congruence]. intros R. apply RUN in R. cbn in R. tauto. }
  split. { intros m s Hm Hs. rewrite FE. split.
    - intros [(E & _)|H]; [contradiction|tauto].
    - intros H. right. split; [exact H|]. split; [|congruence]. intros R. apply RUN in R. cbn in R. tauto. }
  split. { intros m Hm. rewrite FE. unfold run. rewrite (leading_run_iff (g_graph g) m b slot Lb). split.
    - intros [(E & _)|H]; [contradiction|tauto].
    - intros (H1 & H2). right. split; [exact H1|]. split; [exact H2|congruence]. }
  split. { intros s H. apply FE in H. destruct H as [H|H]; [tauto|]. destruct H as (_ & _ & H). congruence. }
  reflexivity.
Qed.

Lemma take_while_app_all : forall {A} (f : A -> bool) l1 l2, (forall x, In x l1 -> f x = true) ->
  (forall x, In x l2 -> f x = false) -> take_while f (l1 ++ l2) = l1.
Proof.
  induction l1 as [|a l1 IH]; intros l2 H1 H2; cbn.
  - destruct l2 as [|b l2]; cbn; [reflexivity|]. now rewrite (H2 b (or_introl eq_refl)).
  - rewrite (H1 a (or_introl eq_refl)). f_equal. apply IH; [|exact H2]. intros x Hx. apply H1. now right.
Qed.

(** If the slot's edges are the most recent ones of the node, the slot is
    exclusive after [connect]. *)
Theorem connect_exclusive : forall (g : graph N St) src dst slot a b newer older g', wf_graph ops g ->
  find_index g src = Some a -> find_index g dst = Some b ->
  sg_live (g_graph g) a = true -> sg_live (g_graph g) b = true ->
  filter (fun e => Nat.eqb (e_dst e) b) (sg_edges (g_graph g)) = newer ++ older ->
  (forall e, In e newer -> e_slot e = slot) -> (forall e, In e older -> e_slot e <> slot) ->
  connect g src dst slot = Ok g' ->
  forall m, feeds (g_graph g') m b slot -> m = a.
Proof.
  intros g src dst slot a b newer older g' WG Pa Pb La Lb E H1 H2 HC m Hm.
  destruct (connect_spec g src dst slot a b WG Pa Pb La Lb) as (g'' & HC' & _ & _ & _ & X & _).
  assert (g'' = g') by congruence. subst g''.
  destruct (Nat.eq_dec m a) as [->|Hne]; [reflexivity|]. exfalso.
  apply (X m Hne) in Hm. destruct Hm as (F1 & F2). apply F2. rewrite <- (leading_run_iff _ _ _ _ Lb).
  unfold sg_incoming. rewrite Lb, E, take_while_app_all.
  - assert (HI : In (Edge m b slot) (newer ++ older)).
    { rewrite <- E, filter_In. split; [exact F1|]. cbn. apply Nat.eqb_refl. }
    apply in_app_iff in HI. destruct HI as [HI|HI]; [exact HI|]. exfalso. exact (H2 _ HI eq_refl).
  - intros e He. apply Z.eqb_eq. auto.
  - intros e He. apply Z.eqb_neq. auto.
Qed.

(* ------------------------------ state machine ------------------------------ *)

Lemma position_not_in : forall id l, ~ In id l -> position id l = None.
Proof. intros. now apply position_none. Qed.

Theorem state_step : forall (g : graph N St) c call g' c', wf_graph ops g -> calls ops srt g c call g' c' ->
  (effective g call g' -> g_state g' = GsDirty) /\
  (~ effective g call g' -> (forall id fs, call <> GExecute id fs) -> g_state g' = g_state g) /\
  ((forall id fs, call <> GExecute id fs) -> g_status g' = g_status g).
Proof.
  intros g c call g' c' WG H. pose proof (wg_stable _ _ WG) as WS.
  destruct call as [n|id|s d k|d k|id w|id fs]; cbn [calls] in H; cbn [effective].
  - destruct H as (_ & i & H). unfold add_node in H. destruct (sg_add_node (g_graph g)).
    destruct (Nat.eqb _ _); [|discriminate]. injection H as <- _. cbn. tauto.
  - destruct H as (_ & ->). unfold remove_node. destruct (find_index g id); [|cbn; repeat split; congruence].
    destruct (sg_remove_node _ _) as (sg & r). destruct r; cbn; repeat split; congruence.
  - destruct H as (_ & H). unfold connect in H.
    destruct (find_index g s) as [a|] eqn:Fs.
    + destruct (find_index g d) as [b|] eqn:Fd.
      * destruct (disconnect_spec g d k b WS Fd) as (_ & O & _).
        destruct (sg_update_edge _ _ _ _); [|discriminate]. injection H as <-. cbn.
        split; [reflexivity|]. split.
        -- intros X. exfalso. apply X. apply position_lt in Fs, Fd.
           split; eapply nth_error_In; [apply Fs|apply Fd].
        -- intros _. apply O.
      * injection H as <-. apply position_none in Fd. repeat split; tauto.
    + injection H as <-. apply position_none in Fs. repeat split; tauto.
  - destruct H as (_ & ->). destruct (find_index g d) as [b|] eqn:Fd.
    + destruct (disconnect_spec g d k b WS Fd) as (_ & O & C & S1).
      set (run := take_while (fun e => e_slot e =? k) (sg_incoming (g_graph g) b)) in *.
      split; [|split].
      * intros X. rewrite S1. destruct run as [|e r] eqn:Er; [|reflexivity]. exfalso. apply X.
        unfold disconnect_input. rewrite Fd. fold run. rewrite Er. reflexivity.
      * intros X _. rewrite S1. destruct run as [|e r] eqn:Er; [reflexivity|]. exfalso. apply X. intros Q.
        pose proof (proj1 (C e)) as Y. rewrite Q in Y.
        assert (He : In e (sg_edges (g_graph g))).
        { assert (In e run) by (rewrite Er; now left). unfold run in H. apply take_while_in in H.
          destruct H as (H & _). apply (in_incoming _ WS) in H. tauto. }
        apply Y in He. destruct He as (_ & He). apply He. now left.
      * intros _. apply O.
    + unfold disconnect_input. rewrite Fd. repeat split; congruence.
  - destruct H as (_ & H). unfold write_node in H. destruct (find_index g id) as [i|] eqn:Fi.
    + destruct (nth_error (g_nodes g) i); [|discriminate]. injection H as <-. cbn.
      split; [reflexivity|]. split; [|reflexivity].
      intros X. exfalso. apply X. apply position_lt in Fi. eapply nth_error_In. apply Fi.
    + injection H as <-. apply position_none in Fi. repeat split; tauto.
  - repeat split; [tauto| |]; intros; exfalso; [eapply H1|eapply H0]; reflexivity.
Qed.

Theorem clean_history : forall s0 c0 h g c, history ops srt s0 c0 h g c -> g_state g = GsClean ->
  exists h1 id fs h2 g1 c1 fuel g2 c2, h = h1 ++ GExecute id fs :: h2 /\
    history ops srt s0 c0 h1 g1 c1 /\
    execute ops srt fuel g1 id fs c1 = Some (Ok (g2, c2, ExSuccess)) /\
    sg_edges (g_graph g) = sg_edges (g_graph g1) /\ g_ids g = g_ids g1 /\
    (forall id' w, In id' (g_ids g1) -> ~ In (GWrite id' w) h2).
Proof.
  intros s0 c0 h g c H. induction H as [|h g c call g' c' H IH HC]; intros HS; [discriminate|].
  destruct (history_wf ops srt KI _ _ _ _ _ H) as (WG & _).
  destruct (state_step g c call g' c' WG HC) as (S1 & S2 & _).
  assert (CASE : (exists id fs fuel, call = GExecute id fs /\ execute ops srt fuel g id fs c = Some (Ok (g', c', ExSuccess)))
     \/ (g_state g = GsClean /\ ~ effective g call g' /\ g_graph g' = g_graph g /\ g_ids g' = g_ids g)).
  { assert (NEF : (forall id fs, call <> GExecute id fs) -> ~ effective g call g').
    { intros _ X. rewrite (S1 X) in HS. discriminate. }
    destruct call as [n|id|s d k|d k|id w|id fs].
    - exfalso. apply NEF; [congruence|exact I].
    - right. assert (NE : forall i fs, @GRemove N F W id <> GExecute i fs) by congruence.
      split; [rewrite <- (S2 (NEF NE) NE); exact HS|]. split; [exact (NEF NE)|].
      destruct HC as (_ & ->). pose proof (NEF NE) as X. cbn in X. unfold remove_node in *.
      destruct (find_index g id); [|auto]. destruct (sg_remove_node _ _) as (sg & r). destruct r; auto.
      exfalso. apply X. reflexivity.
    - right. assert (NE : forall i fs, @GConnect N F W s d k <> GExecute i fs) by congruence.
      split; [rewrite <- (S2 (NEF NE) NE); exact HS|]. split; [exact (NEF NE)|].
      destruct HC as (_ & HC). pose proof (NEF NE) as X. cbn in X. unfold connect in HC.
      destruct (find_index g s) as [a|] eqn:Fs; [|injection HC as <-; auto].
      destruct (find_index g d) as [b|] eqn:Fd; [|injection HC as <-; auto].
      exfalso. apply X. apply position_lt in Fs, Fd. split; eapply nth_error_In; [apply Fs|apply Fd].
    - right. assert (NE : forall i fs, @GDisconnect N F W d k <> GExecute i fs) by congruence.
      split; [rewrite <- (S2 (NEF NE) NE); exact HS|]. split; [exact (NEF NE)|].
      destruct HC as (_ & ->). pose proof (NEF NE) as X. cbn in X.
      destruct (find_index g d) as [b|] eqn:Fd.
      + destruct (disconnect_spec g d k b (wg_stable _ _ WG) Fd) as (_ & (O1 & O2 & O3 & O4 & _) & _ & _).
        split; [|exact O2]. apply stable_ext; [exact O3|exact O4|].
        destruct (edges_dec (sg_edges (g_graph (disconnect_input g d k))) (sg_edges (g_graph g))) as [Q|Q];
          [exact Q|]. exfalso. exact (X Q).
      + unfold disconnect_input. rewrite Fd. auto.
    - right. assert (NE : forall i fs, @GWrite N F W id w <> GExecute i fs) by congruence.
      split; [rewrite <- (S2 (NEF NE) NE); exact HS|]. split; [exact (NEF NE)|].
      destruct HC as (_ & HC). pose proof (NEF NE) as X. cbn in X. unfold write_node in HC.
      destruct (find_index g id) as [i|] eqn:Fi; [|injection HC as <-; auto].
      exfalso. apply X. apply position_lt in Fi. eapply nth_error_In; apply Fi.
    - destruct HC as (fuel & st & HC). destruct (execute_result ops srt KI _ _ _ _ _ _ _ _ HC) as (E1 & E2 & _ & _ & _ & E5).
      destruct st.
      + right. repeat split; try assumption; [congruence|intros []].
      + left. exists id, fs, fuel. auto.
      + right. repeat split; try assumption; [congruence|intros []]. }
  destruct CASE as [(id & fs & fuel & -> & E)|(SC & NEFF & E1 & E2)].
  - exists h, id, fs, [], g, c, fuel, g', c'. repeat split; try assumption.
    + destruct (execute_result ops srt KI _ _ _ _ _ _ _ _ E) as (X & _). now rewrite X.
    + destruct (execute_result ops srt KI _ _ _ _ _ _ _ _ E) as (_ & X & _). exact X.
    + intros id' w _ [].
  - destruct (IH SC) as (h1 & id & fs & h2 & g1 & c1 & fuel & g2 & c2 & -> & A & B & C & D & G).
    exists h1, id, fs, (h2 ++ [call]), g1, c1, fuel, g2, c2. repeat split; try assumption.
    + rewrite <- app_assoc. reflexivity.
    + congruence.
    + congruence.
    + intros id' w HI X. apply in_app_iff in X. destruct X as [X|[->|[]]].
      * exact (G id' w HI X).
      * apply NEFF. cbn. now rewrite D.
Qed.

Theorem uninitialized_iff : forall s0 c0 h g c, history ops srt s0 c0 h g c ->
  (g_state g = GsUninitialized <-> added ops h = []).
Proof.
  intros s0 c0 h g c H. induction H as [|h g c call g' c' H IH HC]; [cbn; tauto|].
  destruct (history_wf ops srt KI _ _ _ _ _ H) as (WG & EI).
  destruct (state_step g c call g' c' WG HC) as (S1 & S2 & _).
  rewrite added_app. split.
  - intros U. 
    assert (UG : g_state g = GsUninitialized /\ (forall n, call <> GAdd n)).
    { destruct call as [n|id|s d k|d k|id w|id fs].
      - rewrite (S1 I) in U. discriminate.
      - split; [|congruence]. destruct (snd (remove_node g id)) eqn:R.
        + rewrite (S1 R) in U. discriminate.
        + rewrite <- S2; [exact U| |congruence]. cbn. congruence.
      - split; [|congruence]. destruct (in_dec Z.eq_dec s (g_ids g)) as [X|X].
        + destruct (in_dec Z.eq_dec d (g_ids g)) as [Y|Y].
          * rewrite (S1 (conj X Y)) in U. discriminate.
          * rewrite <- S2; [exact U| |congruence]. cbn. tauto.
        + rewrite <- S2; [exact U| |congruence]. cbn. tauto.
      - split; [|congruence].
        destruct (edges_dec (sg_edges (g_graph g')) (sg_edges (g_graph g))) as [X|X].
        + rewrite <- S2; [exact U| |congruence]. cbn. congruence.
        + rewrite (S1 X) in U. discriminate.
      - split; [|congruence]. destruct (in_dec Z.eq_dec id (g_ids g)) as [X|X].
        + rewrite (S1 X) in U. discriminate.
        + rewrite <- S2; [exact U|exact X|congruence].
      - split; [|congruence]. destruct HC as (fuel & st & HC).
        destruct (execute_result ops srt KI _ _ _ _ _ _ _ _ HC) as (_ & _ & _ & _ & _ & E5).
        rewrite E5 in U. destruct st; [exact U|discriminate|exact U]. }
    destruct UG as (UG & NA). apply IH in UG. rewrite UG. destruct call; try reflexivity.
    exfalso. eapply NA. reflexivity.
  - intros E. apply app_eq_nil in E. destruct E as (E1 & E2). pose proof (proj2 IH E1) as U.
    assert (NI : forall id, ~ In id (g_ids g)) by (intros id; rewrite EI, E1; intros []).
    destruct call as [n|id|s d k|d k|id w|id fs].
    + discriminate.
    + rewrite S2; [exact U| |congruence]. cbn. unfold remove_node, find_index.
      rewrite (position_not_in _ _ (NI id)). cbn. discriminate.
    + rewrite S2; [exact U| |congruence]. cbn. intros (X & _). exact (NI _ X).
    + rewrite S2; [exact U| |congruence]. cbn. destruct HC as (_ & ->).
      unfold disconnect_input, find_index. rewrite (position_not_in _ _ (NI d)). congruence.
    + rewrite S2; [exact U| |congruence]. cbn. apply NI.
    + destruct HC as (fuel & st & HC). unfold execute, find_index in HC. rewrite (position_not_in _ _ (NI id)) in HC.
      injection HC as <- _ _. exact U.
Qed.

(* ------------------------------ frame lists ------------------------------ *)

Lemma frames_prefix : forall fuel order fs1 fs2 (g : graph N St) c g' c' e,
  execute_frames ops srt fuel g order fs1 c = Some (Ok (g', c', Some e)) ->
  execute_frames ops srt fuel g order (fs1 ++ fs2) c = Some (Ok (g', c', Some e)).
Proof.
  intros fuel order. induction fs1 as [|fr fs1 IH]; intros fs2 g c g' c' e H; cbn [execute_frames app] in *.
  - discriminate.
  - destruct (execute_frame _ _ _ _ _ _ _) as [[((g1, c1), [e1|])|]|]; try discriminate; [exact H|].
    apply IH. exact H.
Qed.

Theorem stops_at_first_failure : forall fuel (g : graph N St) id fs1 fs2 c g' c' st,
  execute ops srt fuel g id fs1 c = Some (Ok (g', c', st)) -> st <> ExSuccess ->
  execute ops srt fuel g id (fs1 ++ fs2) c = Some (Ok (g', c', st)).
Proof.
  intros fuel g id fs1 fs2 c g' c' st H NS. unfold execute in *. destruct (find_index g id); [|exact H].
  destruct (all_upstream _ _ _); [|discriminate].
  destruct (execute_frames ops srt fuel g _ fs1 c) as [[((g1, c1), [e|])|]|] eqn:E; try discriminate.
  - rewrite (frames_prefix _ _ _ fs2 _ _ _ _ _ E). exact H.
  - injection H as _ _ <-. congruence.
Qed.

Lemma frames_app : forall fuel order fs1 fs2 (g : graph N St) c g' c',
  execute_frames ops srt fuel g order (fs1 ++ fs2) c = Some (Ok (g', c', None)) ->
  exists g1 c1, execute_frames ops srt fuel g order fs1 c = Some (Ok (g1, c1, None)) /\
    execute_frames ops srt fuel g1 order fs2 c1 = Some (Ok (g', c', None)).
Proof.
  intros fuel order. induction fs1 as [|fr fs1 IH]; intros fs2 g c g' c' H; cbn [execute_frames app] in *.
  - eauto.
  - destruct (execute_frame _ _ _ _ _ _ _) as [[((g1, c1), [e1|])|]|]; try discriminate.
    exact (IH _ _ _ _ _ H).
Qed.

Theorem success_covers_prefixes : forall fuel (g : graph N St) id fs1 fs2 c g' c',
  execute ops srt fuel g id (fs1 ++ fs2) c = Some (Ok (g', c', ExSuccess)) ->
  exists g1 c1, execute ops srt fuel g id fs1 c = Some (Ok (g1, c1, ExSuccess)).
Proof.
  intros fuel g id fs1 fs2 c g' c' H. unfold execute in *. destruct (find_index g id); [|discriminate].
  destruct (all_upstream _ _ _); [|discriminate].
  destruct (execute_frames ops srt fuel g _ (fs1 ++ fs2) c) as [[((g1, c1), [e|])|]|] eqn:E; try discriminate.
  - destruct e; discriminate.
  - destruct (frames_app _ _ _ _ _ _ _ _ E) as (g2 & c2 & E1 & _). rewrite E1. eauto.
Qed.

End Hist.

(* ------------------ execution touches upstream nodes only ------------------ *)

Section Touch.
Context {N St Ca F W : Type}.
Variable ops : nodeops N St Ca F W.
Variable srt : edge_sort.
Hypothesis HS : sorts srt.

Lemma validate_upstream : forall fuel (g : graph N St) hc start stack acc v, runnable g ->
  (forall i m, In (i, m) stack -> reaches (g_graph g) i start /\ (i < node_bound (g_graph g))%nat) ->
  (forall i m, In (i, m) acc -> reaches (g_graph g) i start) ->
  validate_loop ops srt fuel g hc stack acc = Some (Ok v) ->
  forall i m, In (i, m) v -> reaches (g_graph g) i start.
Proof.
  induction fuel as [|fuel IH]; intros g hc start stack acc v HR H1 H2 H; [discriminate|].
  destruct stack as [|(i, mode) rest]; [cbn in H; injection H as <-; exact H2|].
  rewrite validate_loop_step in H. destruct (validate_one ops srt g hc i mode) as [new|] eqn:V; [|discriminate].
  destruct (H1 i mode (or_introl eq_refl)) as (Ri & Bi).
  assert (NEW : forall j m, In (j, m) new -> reaches (g_graph g) j start /\ (j < node_bound (g_graph g))%nat).
  { intros j m Hj. pose proof (validate_one_fst ops srt HS g hc i mode new HR Bi V j m Hj) as Hin.
    split; [|exact (inputs_bound srt HS g HR i j Hin)].
    apply (in_inputs srt (g_graph g) HS (proj1 HR)) in Hin. eapply reaches_link; [exact Ri|apply Hin]. }
  apply (IH g hc start (rev new ++ rest) (acc ++ new) v HR); [| |exact H].
  - intros j m Hj. apply in_app_iff in Hj. destruct Hj as [Hj|Hj].
    + apply in_rev in Hj. exact (NEW j m Hj).
    + apply (H1 j m). now right.
  - intros j m Hj. apply in_app_iff in Hj. destruct Hj as [Hj|Hj]; [exact (H2 j m Hj)|exact (proj1 (NEW j m Hj))].
Qed.

Lemma compute_phase_touches : forall t (g : graph N St) fr c sc g' c' e,
  compute_phase ops srt g fr t c sc = Ok (g', c', e) ->
  forall j, ~ In j (map fst t) -> nth_error (g_nodes g') j = nth_error (g_nodes g) j.
Proof.
  induction t as [|(i, mode) t IH]; intros g fr c sc g' c' e H j Hj; cbn [compute_phase] in H.
  - injection H as <- _ _. reflexivity.
  - cbn in Hj.
    destruct (input_streams _ _ _ _) as [is|]; [|discriminate]. cbn [bind] in H.
    unfold compute_node_output in H. unfold get_node in H.
    destruct (nth_error (g_nodes g) i) as [n|] eqn:En; [|discriminate]. cbn [bind] in H.
    destruct (n_compute _ _ _ _ _ _ _) as [(((n', st), out), c1)|] eqn:Ec; [|discriminate]. cbn [bind] in H.
    assert (X : nth_error (set_nth (g_nodes g) i n') j = nth_error (g_nodes g) j).
    { apply set_nth_other. tauto. }
    destruct st; cbn [bind] in H;
      try (injection H as <- _ _; exact X);
      (rewrite (IH _ _ _ _ _ _ _ H j); [exact X|tauto]).
Qed.

Lemma execute_frames_touches : forall fuel start t frames (g : graph N St) c g' c' e, runnable g ->
  (start < node_bound (g_graph g))%nat ->
  execute_frames ops srt fuel g (start :: t) frames c = Some (Ok (g', c', e)) ->
  forall j, ~ reaches (g_graph g) j start -> nth_error (g_nodes g') j = nth_error (g_nodes g) j.
Proof.
  intros fuel start t. induction frames as [|fr frames IH]; intros g c g' c' e HR HB H j Hj; cbn [execute_frames] in H.
  - injection H as <- _ _. reflexivity.
  - destruct (execute_frame _ _ _ _ _ _ _) as [[((g1, c1), e1)|]|] eqn:E; try discriminate.
    pose proof (execute_frame_shape _ _ _ _ _ _ _ _ _ _ E) as S1.
    assert (X : nth_error (g_nodes g1) j = nth_error (g_nodes g) j).
    { unfold execute_frame in E. destruct (hash_phase _ _ _ _ _ _); [|discriminate].
      destruct (validate_loop _ _ _ _ _ _ _) as [[v|]|] eqn:V; try discriminate.
      injection E as E. apply (compute_phase_touches _ _ _ _ _ _ _ _ E).
      intros Q. apply in_map_iff in Q. destruct Q as ((i, m) & <- & Q). apply in_rev in Q. apply Hj. cbn [fst].
      eapply (validate_upstream fuel g _ start _ _ v HR); [| |exact V|exact Q].
      - intros i' m' [Q'|[]]. injection Q' as <- _. split; [exists O; constructor|exact HB].
      - intros i' m' [Q'|[]]. injection Q' as <- _. exists O. constructor. }
    assert (G1 : g_graph g1 = g_graph g) by apply S1.
    destruct e1.
    + injection H as <- _ _. exact X.
    + rewrite <- X. apply (IH g1 c1 g' c' e); [eapply runnable_shape; eauto|now rewrite G1|exact H|now rewrite G1].
Qed.

Theorem execute_touches : forall fuel (g : graph N St) id start frames c g' c' st, runnable g ->
  find_index g id = Some start -> execute ops srt fuel g id frames c = Some (Ok (g', c', st)) ->
  forall j, ~ reaches (g_graph g) j start -> nth_error (g_nodes g') j = nth_error (g_nodes g) j.
Proof.
  intros fuel g id start frames c g' c' st HR HI H j Hj. unfold execute in H. rewrite HI in H.
  destruct (Nat.lt_ge_cases start (node_bound (g_graph g))) as [HB|HB].
  2: { rewrite (all_upstream_panics srt (g_graph g) start HB) in H. discriminate. }
  destruct (all_upstream_ok srt (g_graph g) HS (proj1 HR) start HB) as (l & E & R). rewrite E in H.
  destruct (br_first _ _ _ R) as (t & ->).
  cbn [map fst] in H.
  destruct (execute_frames ops srt fuel g _ frames c) as [[((g1, c1), [e|])|]|] eqn:X; try discriminate;
    injection H as <- _ _; exact (execute_frames_touches _ _ _ _ _ _ _ _ _ HR HB X j Hj).
Qed.
End Touch.

(** Combinations of the graph lemmas, in the form the properties use. *)
From Coq Require Import Permutation Sorted.
From Verif Require Import Machine GraphModel GraphSpec GraphWalk GraphExec GraphMeaning GraphHistory
  GraphHistory2 GraphCount GraphLadder.

Section Facts.
Context {N St Ca F W : Type}.
Variable ops : nodeops N St Ca F W.
Variable srt : edge_sort.
Hypothesis KI : keeps_id ops.
Hypothesis HS : sorts srt.

Lemma history_wf_graph : forall s0 c0 h g c, history ops srt s0 c0 h g c -> wf_graph ops g.
Proof. intros. eapply history_wf; eauto. Qed.

Lemma connect_never_panics : forall s0 c0 h g c src dst slot, history ops srt s0 c0 h g c -> no_removal h ->
  exists g', connect g src dst slot = Ok g'.
Proof.
  intros s0 c0 h g c src dst slot H NR. pose proof (history_wf_graph _ _ _ _ _ H) as WG.
  destruct (find_index g src) as [a|] eqn:Pa.
  - destruct (find_index g dst) as [b|] eqn:Pb.
    + destruct (connect_spec ops g src dst slot a b WG Pa Pb) as (g' & E & _).
      * exact (no_removal_live ops srt KI _ _ _ _ _ H NR _ _ Pa).
      * exact (no_removal_live ops srt KI _ _ _ _ _ H NR _ _ Pb).
      * eauto.
    + exists g. unfold connect. now rewrite Pa, Pb.
  - exists g. unfold connect. now rewrite Pa.
Qed.

Lemma connect_removed_panics : forall (g : graph N St) src dst slot a b, wf_graph ops g ->
  find_index g src = Some a -> find_index g dst = Some b ->
  sg_live (g_graph g) a = false \/ sg_live (g_graph g) b = false ->
  connect g src dst slot = Panic.
Proof.
  intros g src dst slot a b WG Pa Pb HV. pose proof (wg_stable _ _ WG) as WS.
  unfold connect. rewrite Pa, Pb.
  destruct (disconnect_spec g dst slot b WS Pb) as (W1 & O1 & _).
  set (g1 := disconnect_input g dst slot) in *.
  unfold sg_update_edge. rewrite (live_only_edges g g1 a O1), (live_only_edges g g1 b O1).
  assert (NO : (if sg_live (g_graph g) a then overwrite_edge a b slot (sg_edges (g_graph g1)) else None) = None).
  { destruct (sg_live (g_graph g) a) eqn:La; [|reflexivity]. destruct HV as [HV|HV]; [discriminate|].
    apply overwrite_none. intros X. apply in_map_iff in X. destruct X as (e & E & He).
    apply (ws_ends_live _ W1) in He. injection E as _ E. rewrite E, (live_only_edges g g1 b O1) in He.
    destruct He. congruence. }
  rewrite NO. destruct HV as [-> | ->]; [reflexivity|]. now rewrite andb_false_r.
Qed.

Lemma removed_vacant : forall (g : graph N St) id g' i, wf_graph ops g -> find_index g id = Some i ->
  remove_node g id = (g', true) -> find_index g' id = Some i /\ sg_live (g_graph g') i = false.
Proof.
  intros g id g' i WG P H. unfold remove_node in H. rewrite P in H. unfold sg_remove_node in H.
  destruct (sg_live (g_graph g) i) eqn:L; [|discriminate]. injection H as <-. split; [exact P|].
  unfold sg_live. cbn. rewrite nth_set_nth, Nat.eqb_refl; [reflexivity|]. now apply live_lt_length.
Qed.

(** C25: what [direct_upstream] returns. *)
Lemma inputs_delivered : forall sg n, wf_stable sg -> sg_live sg n = true ->
  exists l, direct_upstream srt sg n = Ok l /\ inputs_in_slot_order sg n l.
Proof.
  intros sg n WS L. exists (inputs_of srt sg n). split.
  - apply direct_upstream_ok; [exact HS|exact WS|now apply live_lt_bound].
  - now apply inputs_slot_order.
Qed.

Lemma walk_visits : forall sg start fuel, wf_stable sg -> sg_live sg start = true ->
  (node_bound sg < fuel)%nat ->
  exists w l, walker_new sg start = Ok w /\ walk_all fuel srt sg w = Some (Ok l) /\
    NoDup (map fst l) /\ StronglySorted (fun a b => (snd a <= snd b)%nat) l /\
    (forall m, In m (map fst l) <-> reaches sg m start) /\
    (forall m d, In (m, d) l <-> is_dist sg start m d).
Proof.
  intros sg start fuel WS L HF. pose proof (live_lt_bound sg start L) as HB.
  destruct (walk_all_terminates srt sg HS WS start fuel HB HF) as (l & E & R).
  exists (Walker [(start, O)] [start]), l. split.
  - unfold walker_new. apply Nat.ltb_lt in HB. now rewrite HB.
  - split; [exact E|]. split; [apply R|]. split; [apply R|]. split; [apply R|apply R].
Qed.

Lemma good_order_no_panic : forall (g : graph N St) id start frames c, total_ops ops -> wf_graph ops g ->
  find_index g id = Some start -> sg_live (g_graph g) start = true ->
  graded (g_graph g) start \/ tree (g_graph g) start ->
  exists fuel0 r, forall fuel, (fuel0 <= fuel)%nat ->
    execute ops srt fuel g id frames c = Some (Ok r).
Proof.
  intros g id start frames c TOT WG HI L HG.
  pose proof (wf_runnable ops g WG) as HR. pose proof (live_lt_bound _ start L) as HB.
  destruct (all_upstream_ok srt (g_graph g) HS (proj1 HR) start HB) as (l & E & R).
  assert (HO : ordered (inputs_of srt (g_graph g)) (map fst l)).
  { destruct HG; [now apply (graded_ordered srt HS g start l HR R)|now apply (tree_graded_dist srt HS g start l HR R)]. }
  destruct (execute_total ops srt HS TOT g id start l frames c HR HI HB E HO) as (k & g' & c' & st & X & _).
  eauto.
Qed.

Lemma panics_iff : forall (g : graph N St) id start frames c, total_ops ops -> wf_graph ops g ->
  find_index g id = Some start -> sg_live (g_graph g) start = true -> frames <> [] ->
  exists l, all_upstream srt (g_graph g) start = Ok l /\
    ((exists fuel, execute ops srt fuel g id frames c = Some Panic) <->
     exists l1 m l2 n l3, map fst l = l1 ++ m :: l2 ++ n :: l3 /\ link (g_graph g) m n).
Proof.
  intros g id start frames c TOT WG HI L HF.
  pose proof (wf_runnable ops g WG) as HR. pose proof (live_lt_bound _ start L) as HB.
  destruct (all_upstream_ok srt (g_graph g) HS (proj1 HR) start HB) as (l & E & R).
  exists l. split; [exact E|]. exact (execute_panics_iff ops srt HS TOT g id start l frames c HR HI HB HF E).
Qed.

Lemma shortcut_panics : forall (g : graph N St) id start frames c m n dm dn, wf_graph ops g ->
  find_index g id = Some start -> sg_live (g_graph g) start = true -> frames <> [] ->
  link (g_graph g) m n -> is_dist (g_graph g) start m dm -> is_dist (g_graph g) start n dn ->
  (dm < dn)%nat -> forall fuel, execute ops srt fuel g id frames c = Some Panic.
Proof.
  intros g id start frames c m n dm dn WG HI L HF Hl Dm Dn LT fuel.
  pose proof (wf_runnable ops g WG) as HR. pose proof (live_lt_bound _ start L) as HB.
  destruct (all_upstream_ok srt (g_graph g) HS (proj1 HR) start HB) as (l & E & R).
  apply (execute_unordered ops srt HS g id start frames c l HR HI HB E); [|exact HF].
  exact (shortcut_unordered srt HS g start l m n dm dn HR R Hl Dm Dn LT).
Qed.

Lemma cycle_panics : forall (g : graph N St) id start frames c n, wf_graph ops g ->
  find_index g id = Some start -> sg_live (g_graph g) start = true -> frames <> [] ->
  reaches (g_graph g) n start -> chain (g_graph g) n n ->
  forall fuel, execute ops srt fuel g id frames c = Some Panic.
Proof.
  intros g id start frames c n WG HI L HF Rn HC fuel.
  pose proof (wf_runnable ops g WG) as HR. pose proof (live_lt_bound _ start L) as HB.
  destruct (all_upstream_ok srt (g_graph g) HS (proj1 HR) start HB) as (l & E & R).
  apply (execute_unordered ops srt HS g id start frames c l HR HI HB E); [|exact HF].
  exact (cycle_unordered srt HS g start l n HR R Rn HC).
Qed.

Lemma always_finishes : forall (g : graph N St) id frames c, wf_graph ops g ->
  exists fuel0 r, forall fuel, (fuel0 <= fuel)%nat -> execute ops srt fuel g id frames c = Some r.
Proof. intros g id frames c WG. exact (execute_finishes ops srt HS g id frames c (wf_runnable ops g WG)). Qed.

Lemma execute_keeps_others : forall fuel (g : graph N St) id start frames c g' c' st, wf_graph ops g ->
  find_index g id = Some start -> execute ops srt fuel g id frames c = Some (Ok (g', c', st)) ->
  forall j, ~ reaches (g_graph g) j start -> nth_error (g_nodes g') j = nth_error (g_nodes g) j.
Proof. intros fuel g id start frames c g' c' st WG. exact (execute_touches ops srt HS fuel g id start frames c g' c' st (wf_runnable ops g WG)). Qed.

Section Pure.
Context {K : Type}.
Variables (key : N -> K) (val : K -> Z -> list K -> list Z) (sem : K -> F -> Z -> list St -> St).
Variable cinv : Ca -> Prop.
Hypothesis PO : pure_ops ops key val sem cinv.

Lemma execute_denotes_graded : forall (g : graph N St) id start frames fr0 c, wf_graph ops g -> cinv c ->
  find_index g id = Some start -> sg_live (g_graph g) start = true ->
  graded (g_graph g) start ->
  (forall k fr m m' vs, sem k fr m vs = sem k fr m' vs) ->
  exists inputs fuel0 g' c', (forall n, inputs_in_slot_order (g_graph g) n (inputs n)) /\
    (forall fuel, (fuel0 <= fuel)%nat ->
      execute ops srt fuel g id (frames ++ [fr0]) c = Some (Ok (g', c', ExSuccess))) /\
    map key (g_nodes g') = map key (g_nodes g) /\ cinv c' /\
    means val sem inputs (map key (g_nodes g)) fr0 start mode_all (g_output g').
Proof.
  intros g id start frames fr0 c WG CI HI L HG HM.
  pose proof (wf_runnable ops g WG) as HR. pose proof (live_lt_bound _ start L) as HB.
  destruct (all_upstream_ok srt (g_graph g) HS (proj1 HR) start HB) as (l & E & R).
  pose proof (graded_ordered srt HS g start l HR R HG) as HO.
  destruct (execute_means ops srt key val sem cinv HS PO g id start l frames fr0 c HR CI HI HB E HO)
    as (k & g' & c' & X1 & X2 & X3 & _ & _ & X4).
  { intros fr _. apply agree_mode_free. intros. apply HM. }
  exists (inputs_of srt (g_graph g)), k, g', c'.
  split; [intros n; apply inputs_slot_order; [exact HS|apply HR]|]. auto.
Qed.

Lemma execute_denotes_tree : forall (g : graph N St) id start frames fr0 c, wf_graph ops g -> cinv c ->
  find_index g id = Some start -> sg_live (g_graph g) start = true ->
  tree (g_graph g) start ->
  exists inputs fuel0 g' c', (forall n, inputs_in_slot_order (g_graph g) n (inputs n)) /\
    (forall fuel, (fuel0 <= fuel)%nat ->
      execute ops srt fuel g id (frames ++ [fr0]) c = Some (Ok (g', c', ExSuccess))) /\
    map key (g_nodes g') = map key (g_nodes g) /\ cinv c' /\
    means val sem inputs (map key (g_nodes g)) fr0 start mode_all (g_output g').
Proof.
  intros g id start frames fr0 c WG CI HI L HG.
  pose proof (wf_runnable ops g WG) as HR. pose proof (live_lt_bound _ start L) as HB.
  destruct (all_upstream_ok srt (g_graph g) HS (proj1 HR) start HB) as (l & E & R).
  pose proof (tree_graded_dist srt HS g start l HR R HG) as HO.
  destruct (execute_means ops srt key val sem cinv HS PO g id start l frames fr0 c HR CI HI HB E HO)
    as (k & g' & c' & X1 & X2 & X3 & _ & _ & X4).
  { intros fr _. apply agree_tree; [exact HS|apply HR|exact HG]. }
  exists (inputs_of srt (g_graph g)), k, g', c'.
  split; [intros n; apply inputs_slot_order; [exact HS|apply HR]|]. auto.
Qed.
End Pure.

(** Two input orders that agree with the slots are the same when slots differ. *)
Lemma sorted_unique : forall (sg : stable) n l l',
  wf_stable sg ->
  (forall a b s, feeds sg a n s -> feeds sg b n s -> a = b) ->
  inputs_in_slot_order sg n l -> inputs_in_slot_order sg n l' -> l = l'.
Proof.
  intros sg n l l' WS HD (ND1 & M1 & O1) (ND2 & M2 & O2).
  assert (SAME : forall m, In m l <-> In m l') by (intros m; rewrite M1, M2; reflexivity).
  assert (SUB : forall m, In m l -> exists s, feeds sg m n s) by (intros m Hm; apply M1 in Hm; apply Hm).
  clear M1 M2. revert l' ND2 O2 SAME. induction l as [|a l IH]; intros l' ND2 O2 SAME.
  - destruct l' as [|b l']; [reflexivity|]. exfalso. apply (proj2 (SAME b)). now left.
  - assert (Ha : In a l') by (apply SAME; now left).
    destruct l' as [|b l']; [destruct Ha|].
    assert (a = b).
    { destruct Ha as [->|Ha]; [reflexivity|].
      assert (Hb : In b (a :: l)) by (apply SAME; now left). destruct Hb as [->|Hb]; [reflexivity|].
      destruct (SUB a (or_introl eq_refl)) as (sa & Fa). destruct (SUB b (or_intror Hb)) as (sb & Fb).
      apply in_split in Ha. destruct Ha as (p & q & ->). apply in_split in Hb. destruct Hb as (p' & q' & ->).
      pose proof (O1 [] a p' b q' eq_refl sa sb Fa Fb). pose proof (O2 [] b p a q eq_refl sb sa Fb Fa).
      assert (sa = sb) by lia. subst sb. exact (HD a b sa Fa Fb). }
    subst b. f_equal. inversion ND1; subst. inversion ND2; subst.
    apply IH; try assumption.
    + intros l1 x l2 y l3 E. apply (O1 (a :: l1) x l2 y l3). now rewrite E.
    + intros m Hm. apply SUB. now right.
    + intros l1 x l2 y l3 E. apply (O2 (a :: l1) x l2 y l3). now rewrite E.
    + intros m. split; intros Hm.
      * assert (X : In m (a :: l')) by (apply SAME; now right). destruct X as [->|X]; [contradiction|exact X].
      * assert (X : In m (a :: l)) by (apply SAME; now right). destruct X as [->|X]; [contradiction|exact X].
Qed.

Lemma tree_computes_once : forall (g : graph N St) id start frames c cnt, total_ops ops ->
  counting_ops ops cnt -> wf_graph ops g -> find_index g id = Some start ->
  sg_live (g_graph g) start = true -> tree (g_graph g) start ->
  exists fuel0 g' c' L, (forall fuel, (fuel0 <= fuel)%nat ->
      execute ops srt fuel g id frames c = Some (Ok (g', c', ExSuccess))) /\
    NoDup L /\ (forall x, In x L <-> reaches (g_graph g) x start) /\
    cnt c' = (cnt c + length frames * length L)%nat.
Proof.
  intros g id start frames c cnt TOT CN WG HI L HT.
  pose proof (wf_runnable ops g WG) as HR. pose proof (live_lt_bound _ start L) as HB.
  destruct (all_upstream_ok srt (g_graph g) HS (proj1 HR) start HB) as (l & E & R).
  pose proof (tree_graded_dist srt HS g start l HR R HT) as HO.
  destruct (execute_total ops srt HS TOT g id start l frames c HR HI HB E HO) as (k & g' & c' & st & X & Y).
  assert (UX : exists U, unfolds (inputs_of srt (g_graph g)) start U).
  { (* inputs come later in the order *)
    assert (G : forall len l2 l1 i, length l2 = len -> map fst l = l1 ++ i :: l2 ->
                exists U, unfolds (inputs_of srt (g_graph g)) i U).
    { induction len as [len IH] using (well_founded_induction lt_wf). intros l2 l1 i HL EL.
      assert (A : forall is, incl is (inputs_of srt (g_graph g) i) -> exists U, unfolds_all (inputs_of srt (g_graph g)) is U).
      { induction is as [|j is IHis]; intros HI2; [exists []; constructor|].
        destruct IHis as (Us & HUs); [intros x Hx; apply HI2; now right|].
        assert (Hj : In j l2) by (apply (HO _ _ _ EL), HI2; now left).
        apply in_split in Hj. destruct Hj as (a & b & ->).
        destruct (IH (length b)) with (l2 := b) (l1 := l1 ++ i :: a) (i := j) as (U & HU).
        - rewrite <- HL, app_length. cbn. lia.
        - reflexivity.
        - rewrite EL, <- app_assoc. reflexivity.
        - exists (U ++ Us). now constructor. }
      destruct (A _ (incl_refl _)) as (U & HU). exists (i :: U). now constructor. }
    destruct (br_first _ _ _ R) as (t & El). apply (G (length (map fst t)) (map fst t) [] start eq_refl).
    now rewrite El. }
  destruct UX as (U & HU). destruct (Y cnt U HU CN) as (-> & EC).
  destruct (tree_unfolds_once srt HS g start l U HR R HT HU) as (ND & MEM).
  exists k, g', c', U. auto.
Qed.

Lemma status_is_last_execute : forall (g : graph N St) c call g' c', wf_graph ops g ->
  calls ops srt g c call g' c' ->
  match call with
  | GExecute id fs =>
      exists fuel st, execute ops srt fuel g id fs c = Some (Ok (g', c', st)) /\ g_status g' = st /\
        g_state g' = (if match st with ExSuccess => true | _ => false end then GsClean else g_state g) /\
        (~ In id (g_ids g) -> st = ExError)
  | _ => g_status g' = g_status g
  end.
Proof.
  intros g c call g' c' WG H. destruct (state_step ops srt g c call g' c' WG H) as (_ & _ & S3).
  destruct call as [n|i|s d k|d k|i w|i fs]; try (apply S3; congruence).
  destruct H as (fuel & st & H). exists fuel, st. split; [exact H|].
  destruct (execute_result ops srt KI _ _ _ _ _ _ _ _ H) as (_ & _ & _ & _ & E4 & E5).
  split; [exact E4|]. split; [destruct st; exact E5|]. intros NI. unfold execute, find_index in H.
  rewrite (position_not_in i (g_ids g) NI) in H. injection H as _ _ <-. reflexivity.
Qed.

End Facts.

(** Disconnecting inputs; nodes with a single input. *)
From Verif Require Import Machine GraphModel GraphSpec GraphWalk GraphExec GraphHistory GraphHistory2 GraphFacts PlugSpec.

Section Plug.
Context {N St Ca F W : Type}.
Variable ops : nodeops N St Ca F W.
Variable srt : edge_sort.

Lemma disconnect_exact : forall (g : graph N St) dst slot b, wf_graph ops g ->
  find_index g dst = Some b ->
  let g' := disconnect_input g dst slot in
  (forall m n s, feeds (g_graph g') m n s <->
     feeds (g_graph g) m n s /\ ~ (n = b /\ s = slot /\ in_leading_run (g_graph g) m b slot)) /\
  g_nodes g' = g_nodes g /\ g_ids g' = g_ids g /\ g_output g' = g_output g.
Proof.
  intros g dst slot b WG P g'. pose proof (wg_stable _ _ WG) as WS.
  destruct (disconnect_spec g dst slot b WS P) as (W1 & O1 & C1 & _).
  split; [|destruct O1 as (O1 & O2 & _ & _ & O5 & _); auto].
  intros m n s. unfold feeds. subst g'. rewrite C1. split; intros (H & K); (split; [exact H|]); intro X; apply K.
  - destruct X as (-> & -> & X). apply leading_run_iff; [|exact X]. exact (proj2 (ws_ends_live _ WS _ H)).
  - pose proof (proj2 (ws_ends_live _ WS _ H)) as L. cbn in L. pose proof X as X'.
    apply take_while_in in X. destruct X as (X1 & X2). apply (in_incoming _ WS) in X1. destruct X1 as (_ & Q).
    cbn in Q, X2. subst n. assert (s = slot) by lia. subst s. split; [reflexivity|]. split; [reflexivity|].
    apply leading_run_iff; assumption.
Qed.

Lemma disconnect_state : forall (g : graph N St) dst slot b, wf_graph ops g ->
  find_index g dst = Some b ->
  let g' := disconnect_input g dst slot in
  ((exists m, in_leading_run (g_graph g) m b slot) -> g_state g' = GsDirty) /\
  (~ (exists m, in_leading_run (g_graph g) m b slot) -> g' = g).
Proof.
  intros g dst slot b WG P g'. pose proof (wg_stable _ _ WG) as WS.
  destruct (disconnect_spec g dst slot b WS P) as (_ & _ & _ & S1). subst g'.
  assert (IFF : forall m, in_leading_run (g_graph g) m b slot ->
            In (Edge m b slot) (take_while (fun e => e_slot e =? slot) (sg_incoming (g_graph g) b))).
  { intros m X. apply leading_run_iff; [|exact X]. destruct X as (l1 & l2 & E & _).
    assert (I : In (Edge m b slot) (filter (fun e => Nat.eqb (e_dst e) b) (sg_edges (g_graph g)))) by (rewrite E; apply in_elt).
    apply filter_In in I. exact (proj2 (ws_ends_live _ WS _ (proj1 I))). }
  split.
  - intros (m & X). apply IFF in X. rewrite S1. destruct (take_while _ _); [destruct X|reflexivity].
  - intro X. unfold disconnect_input. rewrite P. destruct (take_while _ _) as [|e l] eqn:T; [reflexivity|]. exfalso. apply X.
    assert (I : In e (take_while (fun e => e_slot e =? slot) (sg_incoming (g_graph g) b))) by (rewrite T; now left).
    pose proof (take_while_in _ _ _ I) as (I1 & I2). apply (in_incoming _ WS) in I1. destruct I1 as (I1 & Q).
    destruct e as [m d w]. cbn in Q, I2. subst d. assert (w = slot) by lia. subst w. exists m.
    apply leading_run_iff; [|exact I]. exact (proj2 (ws_ends_live _ WS _ I1)).
Qed.

Lemma disconnect_empties : forall (g : graph N St) dst slot b newer older, wf_graph ops g -> find_index g dst = Some b ->
  filter (fun e => Nat.eqb (e_dst e) b) (sg_edges (g_graph g)) = newer ++ older ->
  (forall e, In e newer -> e_slot e = slot) -> (forall e, In e older -> e_slot e <> slot) ->
  forall m, ~ feeds (g_graph (disconnect_input g dst slot)) m b slot.
Proof.
  intros g dst slot b newer older WG P E H1 H2 m H. destruct (disconnect_exact g dst slot b WG P) as (X & _).
  apply X in H. destruct H as (H & K). apply K. split; [reflexivity|]. split; [reflexivity|].
  assert (I : In (Edge m b slot) (newer ++ older)).
  { rewrite <- E. apply filter_In. split; [exact H|]. cbn. apply Nat.eqb_refl. }
  apply in_app_iff in I. destruct I as [I|I]; [|exfalso; exact (H2 _ I eq_refl)].
  apply in_split in I. destruct I as (l1 & l2 & ->). exists l1, (l2 ++ older).
  split; [rewrite E, <- app_assoc; reflexivity|]. intros e He. apply H1, in_app_iff. auto.
Qed.

Lemma disconnect_unknown : forall N St (g : graph N St) dst slot,
  find_index g dst = None -> disconnect_input g dst slot = g.
Proof. intros N' St' g dst slot E. unfold disconnect_input. now rewrite E. Qed.

Lemma run_of_one : forall g m b k, (forall m' s, feeds g m' b s -> s = k) -> feeds g m b k -> in_leading_run g m b k.
Proof.
  intros g m b k A H.
  assert (I : In (Edge m b k) (filter (fun e => Nat.eqb (e_dst e) b) (sg_edges g))).
  { apply filter_In. split; [exact H|]. cbn. apply Nat.eqb_refl. }
  apply in_split in I. destruct I as (l1 & l2 & E). exists l1, l2. split; [exact E|].
  intros e He. assert (X : In e (filter (fun e => Nat.eqb (e_dst e) b) (sg_edges g))) by (rewrite E; apply in_app_iff; auto).
  apply filter_In in X. destruct X as (X & Q). apply Nat.eqb_eq in Q. destruct e as [s d w]. cbn in Q. subst d.
  exact (A s w X).
Qed.

Lemma disconnect_one : forall (g : graph N St) dst slot b, wf_graph ops g -> find_index g dst = Some b ->
  (forall m s, feeds (g_graph g) m b s -> s = slot) ->
  forall m s, ~ feeds (g_graph (disconnect_input g dst slot)) m b s.
Proof.
  intros g dst slot b WG P A m s H. destruct (disconnect_exact g dst slot b WG P) as (E & _).
  apply E in H. destruct H as (H & K). apply K. pose proof (A m s H). subst s.
  split; [reflexivity|]. split; [reflexivity|]. apply run_of_one; assumption.
Qed.

Lemma plug_known : forall dst h, fst (fold_left (plug_step ops dst) h ([], None)) = added ops h.
Proof.
  intros dst h. assert (G : forall h k cur, fst (fold_left (plug_step ops dst) h (k, cur)) = k ++ added ops h).
  { clear h. induction h as [|call h IH]; intros k cur; cbn [fold_left added]; [now rewrite app_nil_r|].
    destruct call; cbn [plug_step]; rewrite IH; try reflexivity. now rewrite <- app_assoc. }
  apply G.
Qed.

Lemma plug_snoc : forall dst h call,
  plugged ops dst (h ++ [call]) = snd (plug_step ops dst (added ops h, plugged ops dst h) call).
Proof.
  intros dst h call. unfold plugged. rewrite fold_left_app. cbn [fold_left].
  rewrite <- (plug_known dst h). now rewrite <- surjective_pairing.
Qed.

Lemma find_known : forall (g : graph N St) h id, g_ids g = added ops h ->
  existsb (Z.eqb id) (added ops h) = match find_index g id with Some _ => true | None => false end.
Proof.
  intros g h id E. unfold find_index. rewrite E. destruct (position id (added ops h)) as [i|] eqn:P.
  - apply existsb_exists. exists id. split; [|apply Z.eqb_refl]. apply position_lt in P. destruct P as (P & _).
    now apply nth_error_In in P.
  - apply position_none in P. apply not_true_is_false. intro X. apply existsb_exists in X.
    destruct X as (x & X & Q). apply Z.eqb_eq in Q. subst x. contradiction.
Qed.

Definition plugged_right (g : graph N St) (dst k : Z) (cur : option Z) : Prop :=
  match find_index g dst with
  | None => cur = None
  | Some b =>
      match cur with
      | None => forall m s, ~ feeds (g_graph g) m b s
      | Some src => exists a, find_index g src = Some a /\ forall m s, feeds (g_graph g) m b s <-> m = a /\ s = k
      end
  end.

Lemma plugged_slot : forall g dst k cur b, plugged_right g dst k cur -> find_index g dst = Some b ->
  forall m s, feeds (g_graph g) m b s -> s = k.
Proof.
  intros g dst k cur b H F0 m s X. unfold plugged_right in H. rewrite F0 in H. destruct cur.
  - destruct H as (a & _ & H). apply H in X. tauto.
  - exfalso. exact (H _ _ X).
Qed.

Lemma plugged_same : forall g g' dst k cur, plugged_right g dst k cur ->
  g_ids g' = g_ids g -> (forall m n s, find_index g dst = Some n -> (feeds (g_graph g') m n s <-> feeds (g_graph g) m n s)) ->
  plugged_right g' dst k cur.
Proof.
  intros g g' dst k cur H E X. unfold plugged_right, find_index in *. rewrite E.
  destruct (position dst (g_ids g)) as [b|]; [|exact H]. destruct cur as [src|].
  - destruct H as (a & P & Q). exists a. split; [exact P|]. intros m s. rewrite X; auto.
  - intros m s. rewrite X; auto.
Qed.

Hypothesis KI : keeps_id ops.

Lemma plugged_holds : forall s0 c0 h g c dst k, history ops srt s0 c0 h g c -> one_input dst k h ->
  plugged_right g dst k (plugged ops dst h).
Proof.
  intros s0 c0 h g c dst k H. induction H as [|h g c call g' c' H IH HC]; intro O; [reflexivity|].
  apply Forall_app in O. destruct O as [O OC]. inversion_clear OC as [|x l OC' _]. specialize (IH O).
  destruct (history_wf ops srt KI _ _ _ _ _ H) as (WG & EI). pose proof (wg_stable _ _ WG) as WS.
  destruct (calls_wf ops srt KI _ _ _ _ _ WG HC) as (WG' & EI' & _).
  rewrite plug_snoc. set (cur := plugged ops dst h) in *. clearbody cur.
  destruct call as [n|id|s d j|d j|id w|id fs]; cbn [calls] in HC; cbn [plug_step snd added] in *.
  - (* add *)
    destruct HC as (-> & i & HC). assert (ED : sg_edges (g_graph g') = sg_edges (g_graph g)).
    { unfold add_node, sg_add_node in HC. destruct (sg_free (g_graph g)); destruct (Nat.eqb _ _); try discriminate HC;
        injection HC as <- _; reflexivity. }
    unfold plugged_right in *. unfold find_index in *. rewrite EI'.
    destruct (position dst (g_ids g)) as [b|] eqn:P.
    + rewrite (position_app _ _ [n_id ops n] _ P). destruct cur as [src|].
      * destruct IH as (a & Pa & Q). exists a. split; [exact (position_app _ _ _ _ Pa)|].
        intros m s. unfold feeds in *. rewrite ED. apply Q.
      * intros m s. unfold feeds in *. rewrite ED. apply IH.
    + subst cur. destruct (position dst (g_ids g ++ [n_id ops n])) as [b|] eqn:P'; [|reflexivity].
      intros m s X. unfold feeds in X. rewrite ED in X. pose proof (proj2 (ws_ends_live _ WS _ X)) as L. cbn in L.
      apply live_lt_length in L. rewrite (wg_len _ _ WG) in L.
      apply position_lt in P'. destruct P' as (P' & _).
      assert (LL : length (g_ids g) = length (g_nodes g)) by (rewrite (wg_ids _ _ WG); apply map_length).
      rewrite nth_error_app1 in P' by lia. apply nth_error_In in P'. apply position_none in P. contradiction.
  - (* remove *)
    destruct HC as (-> & ->). destruct (remove_node g id) as [g' r] eqn:R. cbn [fst] in *.
    assert (CASE : (r = false /\ g' = g) \/ r = true).
    { destruct r; [auto|]. left. unfold remove_node in R. destruct (find_index g id); [|now injection R as <-].
      destruct (sg_remove_node _ _) as [sg [|]]; [discriminate R|now injection R as <-]. }
    destruct CASE as [(-> & ->)| ->].
    + (* nothing removed: no edge there *)
      assert (NO : forall i, find_index g id = Some i -> forall m n s, feeds (g_graph g) m n s -> m <> i /\ n <> i).
      { intros i P m n s X. unfold remove_node in R. rewrite P in R. unfold sg_remove_node in R.
        destruct (sg_live (g_graph g) i) eqn:L; [discriminate R|]. destruct (ws_ends_live _ WS _ X) as (L1 & L2).
        cbn in L1, L2. split; intros ->; congruence. }
      destruct (id =? dst) eqn:Q; cbn [orb].
      * apply Z.eqb_eq in Q. subst id. unfold plugged_right in *. destruct (find_index g dst) as [b|]; [|reflexivity].
        intros m s X. destruct (NO b eq_refl _ _ _ X) as (_ & X2). now apply X2.
      * destruct cur as [src|]; [|exact IH]. destruct (src =? id) eqn:Q2; [|exact IH].
        apply Z.eqb_eq in Q2. subst src. unfold plugged_right in *. destruct (find_index g dst) as [b|]; [|reflexivity].
        destruct IH as (a & P & X). exfalso. destruct (NO a P a b k) as (X1 & _); [apply X; auto|]. now apply X1.
    + (* removed *)
      assert (FX : exists i, find_index g id = Some i).
      { unfold remove_node in R. destruct (find_index g id) as [i|]; [eauto|discriminate R]. }
      destruct FX as (i & P). pose proof (remove_edges_only ops g id g' i WG P R) as E.
      rewrite app_nil_r in EI'.
      destruct (id =? dst) eqn:Q; cbn [orb].
      * apply Z.eqb_eq in Q. subst id. unfold plugged_right, find_index in *. rewrite EI', P.
        intros m s X. apply E in X. tauto.
      * destruct cur as [src|].
        -- destruct (src =? id) eqn:Q2.
           ++ apply Z.eqb_eq in Q2. subst src. unfold plugged_right, find_index in *. rewrite EI'.
              destruct (position dst (g_ids g)) as [b|]; [|reflexivity]. destruct IH as (a & P2 & X).
              rewrite P in P2. injection P2 as <-. intros m s Y. apply E in Y. destruct Y as (Y & Y1 & _). apply X in Y. tauto.
           ++ unfold plugged_right, find_index in *. rewrite EI'. destruct (position dst (g_ids g)) as [b|] eqn:Pb; [|exact IH].
              destruct IH as (a & P2 & X). exists a. split; [exact P2|]. intros m s. rewrite E, X.
              assert (N1 : a <> i). { intros ->. apply position_lt in P2. apply position_lt in P. destruct P2 as (P2 & _), P as (P & _).
                rewrite P in P2. injection P2 as ->. rewrite Z.eqb_refl in Q2. discriminate Q2. }
              assert (N2 : b <> i). { intros ->. apply position_lt in Pb. apply position_lt in P. destruct Pb as (Pb & _), P as (P & _).
                rewrite P in Pb. injection Pb as ->. rewrite Z.eqb_refl in Q. discriminate Q. }
              split; [tauto|]. intros (-> & ->). auto.
        -- unfold plugged_right, find_index in *. rewrite EI'. destruct (position dst (g_ids g)) as [b|]; [|exact IH].
           intros m s X. apply E in X. destruct X as (X & _). exact (IH _ _ X).
  - (* connect *)
    destruct HC as (-> & HC). rewrite app_nil_r in EI'. rewrite <- EI. rewrite EI. rewrite !(find_known g h) by exact EI.
    destruct (find_index g s) as [a|] eqn:Pa.
    2:{ unfold connect in HC. rewrite Pa in HC. injection HC as <-. rewrite andb_false_r. exact IH. }
    destruct (find_index g d) as [b|] eqn:Pb.
    2:{ unfold connect in HC. rewrite Pa, Pb in HC. injection HC as <-. rewrite andb_false_r. exact IH. }
    rewrite !andb_true_r.
    assert (L : sg_live (g_graph g) a = true /\ sg_live (g_graph g) b = true).
    { destruct (sg_live (g_graph g) a) eqn:La; [destruct (sg_live (g_graph g) b) eqn:Lb; [auto|]|];
        rewrite (connect_removed_panics ops g s d j a b WG Pa Pb) in HC; auto; discriminate HC. }
    destruct L as (La & Lb).
    destruct (connect_spec ops g s d j a b WG Pa Pb La Lb) as (g1 & C & C1 & C2 & C3 & C4 & C5 & _).
    rewrite HC in C. injection C as <-.
    destruct (d =? dst) eqn:Q.
    + apply Z.eqb_eq in Q. subst d. specialize (OC' eq_refl). subst j.
      unfold plugged_right. pose proof (plugged_slot g dst k cur b IH Pb) as SL.
      unfold find_index in *. rewrite EI', Pb. exists a. split; [exact Pa|].
      intros m s'. split.
      * intro X. destruct (Nat.eq_dec m a) as [->|Nm]; [split; [reflexivity|exact (C5 _ X)]|].
        exfalso. destruct (Z.eq_dec s' k) as [->|Ns].
        -- apply C4 in X; [|exact Nm]. destruct X as (X & Y). apply Y. apply run_of_one; [exact SL|exact X].
        -- apply C3 in X; [|assumption..]. exact (Ns (SL _ _ X)).
      * intros (-> & ->). exact C1.
    + apply (plugged_same g g' dst k cur IH EI'). intros m n s' Pd. apply C2. intros ->.
      unfold find_index in *. apply position_lt in Pd. apply position_lt in Pb. destruct Pd as (Pd & _), Pb as (Pb & _).
      rewrite Pb in Pd. injection Pd as ->. rewrite Z.eqb_refl in Q. discriminate Q.
  - (* disconnect *)
    destruct HC as (-> & ->). rewrite app_nil_r in EI'.
    destruct (find_index g d) as [b|] eqn:Pb.
    2:{ assert (SAME : disconnect_input g d j = g) by (unfold disconnect_input; now rewrite Pb). rewrite SAME.
        destruct (d =? dst) eqn:Q; [|exact IH]. apply Z.eqb_eq in Q. subst d. unfold plugged_right. now rewrite Pb. }
    destruct (d =? dst) eqn:Q.
    + apply Z.eqb_eq in Q. subst d. specialize (OC' eq_refl). subst j.
      unfold plugged_right. pose proof (plugged_slot g dst k cur b IH Pb) as SL.
      pose proof (disconnect_one g dst k b WG Pb SL) as D.
      unfold find_index in *. rewrite EI', Pb. exact D.
    + destruct (disconnect_exact g d j b WG Pb) as (E & _).
      apply (plugged_same g _ dst k cur IH EI'). intros m n s' Pd. rewrite E. split; [tauto|]. intro X. split; [exact X|].
      intros (-> & _). unfold find_index in *. apply position_lt in Pd. apply position_lt in Pb. destruct Pd as (Pd & _), Pb as (Pb & _).
      rewrite Pb in Pd. injection Pd as ->. rewrite Z.eqb_refl in Q. discriminate Q.
  - (* write *)
    destruct HC as (-> & HC). rewrite app_nil_r in EI'. apply (plugged_same g g' dst k cur IH EI'). intros m n s' _.
    unfold write_node in HC. destruct (find_index g id); [|injection HC as <-; reflexivity].
    destruct (nth_error (g_nodes g) _); [|discriminate HC]. injection HC as <-. reflexivity.
  - (* execute *)
    destruct HC as (fuel & st & HC). rewrite app_nil_r in EI'.
    destruct (execute_result ops srt KI _ _ _ _ _ _ _ _ HC) as (E1 & _).
    apply (plugged_same g g' dst k cur IH EI'). intros m n s' _. now rewrite E1.
Qed.

Lemma plugged_final : forall s0 c0 h g c dst k b, history ops srt s0 c0 h g c -> one_input dst k h ->
  find_index g dst = Some b ->
  match plugged ops dst h with
  | None => forall m s, ~ feeds (g_graph g) m b s
  | Some src => exists a, find_index g src = Some a /\ forall m s, feeds (g_graph g) m b s <-> m = a /\ s = k
  end.
Proof.
  intros s0 c0 h g c dst k b H O P. pose proof (plugged_holds s0 c0 h g c dst k H O) as R.
  unfold plugged_right in R. now rewrite P in R.
Qed.
End Plug.

(** What a program has set up is what is in its graphs. *)
From Coq Require String.
Import String.StringSyntax.
From Coq Require Import Sorted Floats.SpecFloat.
From Verif Require Import Machine CacheModel BBoxModel AttrModel AttrSpec AttrProofs HashModel EnumModel StreamModel GraphModel GraphSpec GraphExec GraphHistory GraphHistory2 GraphFacts GraphSim StateProofs
  NodeModel ChainSpec ChainProofs SafeFacts SafeSpec SceneSpec SceneProofs FinishSpec EachSpec SoundSpec ClientModel ClientSpec ClientSpec2 ClientProofs ProgramSpec.
Local Open Scope string_scope.

Lemma described_app i h e id : described i (h ++ [e]) id = describe i id (described i h id) e.
Proof. unfold described. now rewrite fold_left_app. Qed.
Lemma connected_app i h e a b s : connected i (h ++ [e]) a b s <-> rewire i b s (fold_left (rewire i b s) h None) e = Some a.
Proof. unfold connected. now rewrite fold_left_app. Qed.
Lemma last_app i h e b : last_input i (h ++ [e]) b = latest i b (last_input i h b) e.
Proof. unfold last_input. now rewrite fold_left_app. Qed.
Lemma connected_one i h a a' b s : connected i h a b s -> connected i h a' b s -> a = a'.
Proof. unfold connected. congruence. Qed.
Lemma only_builds_app i h call r : only_builds i (h ++ [(call, r)]) -> only_builds i h /\ builds i h call.
Proof.
  intro H. split; [|exact (H h call r [] eq_refl)].
  intros h1 c q h2 ->. apply (H h1 c q (h2 ++ [(call, r)])%list). now rewrite <- app_assoc.
Qed.
Lemma elsewhere i call r : on_graph i call = [] -> (forall id o, describe i id o (call, r) = o) /\
  (forall b s o, rewire i b s o (call, r) = o) /\ (forall b o, latest i b o (call, r) = o) /\ forall n, call <> CDelete i n.
Proof.
  intro H. split; [|split; [|split]].
  - intros id o. destruct call; try (destruct o; reflexivity); cbn [on_graph] in H; unfold describe; cbn [fst]; destruct (Nat.eqb i0 i); try discriminate H; destruct o; reflexivity.
  - intros b s o. destruct call; try reflexivity; cbn [on_graph] in H; unfold rewire; cbn [fst]; destruct (Nat.eqb i0 i); try discriminate H; reflexivity.
  - intros b o. destruct call; try reflexivity; cbn [on_graph] in H; unfold latest; cbn [fst]; destruct (Nat.eqb i0 i); try discriminate H; reflexivity.
  - intros n ->. cbn [on_graph] in H. rewrite Nat.eqb_refl in H. discriminate H.
Qed.
Lemma gone_app i h call r id : gone i (h ++ [(call, r)]) id <-> gone i h id \/ exists n, call = CDelete i n /\ hd_id n = id.
Proof.
  unfold gone. split.
  - intros (n & q & I & A). apply in_app_iff in I. destruct I as [I|[I|[]]]; [left; eauto|]. injection I as -> _. eauto.
  - intros [(n & q & I & A)|(n & -> & A)]; exists n; eexists; (split; [apply in_or_app|exact A]).
    + left. exact I.
    + right. now left.
Qed.

Record tidy (i : nat) (h : list (ccall * reply)) (g : graph node stream) : Prop := {
  td_ids : NoDup (g_ids g);
  td_live : forall j id, nth_error (g_ids g) j = Some id -> sg_live (g_graph g) j = true \/ gone i h id;
  td_node : forall j m, nth_error (g_nodes g) j = Some m -> exists n, described i h (nd_id m) = Some n /\ node_key m = node_key n;
  td_all : forall id, described i h id <> None -> In id (g_ids g);
  td_link : forall a b s, feeds (g_graph g) a b s <->
    exists ia ib, nth_error (g_ids g) a = Some ia /\ nth_error (g_ids g) b = Some ib /\ connected i h ia ib s;
  td_known : forall a b s, connected i h a b s -> described i h a <> None /\ described i h b <> None /\ a <> b;
  td_pair : forall a b s s', connected i h a b s -> connected i h a b s' -> s = s';
  td_last : forall j b a s, nth_error (g_ids g) j = Some b -> last_input i h b = Some s -> connected i h a b s ->
    exists e rest, filter (fun e => Nat.eqb (e_dst e) j) (sg_edges (g_graph g)) = e :: rest /\ e_slot e = s
}.

Lemma all_filter {A} (f : A -> bool) l : (forall a, In a l -> f a = true) -> filter f l = l.
Proof. induction l as [|a l IH]; intro H; [reflexivity|]. cbn [filter]. rewrite H by now left. f_equal. apply IH. intros; apply H; now right. Qed.

Section Client.
Context {D : Type}.
Variable p : profile.
Variable x : externals D.
Variable srt : edge_sort.
Notation ops := (node_ops p x).

Lemma ids_nodes (g : graph node stream) j id : wf_graph ops g -> nth_error (g_ids g) j = Some id -> exists m, nth_error (g_nodes g) j = Some m /\ nd_id m = id.
Proof.
  intros WG H. rewrite (wg_ids _ _ WG) in H. rewrite nth_error_map in H. destruct (nth_error (g_nodes g) j) as [m|]; [|discriminate H].
  injection H as <-. eauto.
Qed.
Lemma nodes_ids (g : graph node stream) j m : wf_graph ops g -> nth_error (g_nodes g) j = Some m -> nth_error (g_ids g) j = Some (nd_id m).
Proof. intros WG H. rewrite (wg_ids _ _ WG), nth_error_map, H. reflexivity. Qed.

Lemma describes_none i id o call r : describe i id o (call, r) <> None -> o <> None \/
  exists j t how, call = CCreate j t how /\ j = i /\ creation_id how = id.
Proof.
  unfold describe. cbn [fst]. destruct o as [n|]; [left; discriminate|]. destruct call; try (intro H; now left).
  destruct (Nat.eqb i0 i) eqn:E; [|intro H; now left]. destruct (creation_id how =? id) eqn:F; [|intro H; now left].
  intros _. right. apply Nat.eqb_eq in E. apply Z.eqb_eq in F. eauto 7.
Qed.
Lemma describes_more i id o call r : o <> None -> describe i id o (call, r) <> None.
Proof.
  unfold describe. cbn [fst]. destruct o as [n|]; [|easy]. intros _. destruct call; try discriminate. destruct (_ && _)%bool; discriminate.
Qed.

Lemma write_key n m w : node_key n = node_key m -> node_key (node_write n w) = node_key (node_write m w).
Proof.
  unfold node_key. destruct n as [t1 i1 s1 a1], m as [t2 i2 s2 a2]. cbn [nd_type nd_attrs]. intros [= -> ->].
  destruct w; cbn [node_write]; unfold node_set_i32, node_set_f32, node_set_str; cbn [nd_type nd_attrs]; destruct (attr_exists _ _); reflexivity.
Qed.

(** Events that touch no connection. *)
Definition still (i : nat) (e : ccall * reply) : Prop :=
  (forall b s o, rewire i b s o e = o) /\ (forall b o, latest i b o e = o) /\ forall n, fst e <> CDelete i n.
Lemma still_connected i h e : still i e -> forall a b s, connected i (h ++ [e]) a b s <-> connected i h a b s.
Proof. intros (S & _) a b s. rewrite connected_app, S. reflexivity. Qed.
Lemma still_gone i h e : still i e -> forall id, gone i (h ++ [e]) id <-> gone i h id.
Proof. destruct e as (call, r). intros (_ & _ & S) id. rewrite gone_app. split; [|auto]. intros [G|(n & E & _)]; [exact G|destruct (S n E)]. Qed.
Lemma still_last i h e : still i e -> forall b, last_input i (h ++ [e]) b = last_input i h b.
Proof. intros (_ & S & _) b. now rewrite last_app, S. Qed.

Lemma tidy_add i h g w t how r g' w' : wf_graph ops g -> tidy i h g -> described i h (creation_id how) = None ->
  calls ops srt g w (GAdd (create_node t (creation_id how))) g' w' -> tidy i (h ++ [(CCreate i t how, r)]) g'.
Proof.
  intros WG T NEW (_ & j & H).
  assert (FREE : sg_free (g_graph g) = []).
  { destruct (sg_free (g_graph g)) eqn:Q; [reflexivity|]. rewrite (add_panics_if_free ops g _ WG) in H; [discriminate H|congruence]. }
  assert (ST : still i (CCreate i t how, r)) by (split; [reflexivity|split; [reflexivity|discriminate]]).
  destruct T as [T1 T2 T3 T4 T5 T6 T8 T9].
  assert (OUT : ~ In (creation_id how) (g_ids g)).
  { intro I. apply In_nth_error in I. destruct I as (k & I). destruct (ids_nodes _ _ _ WG I) as (m & N & Q).
    destruct (T3 _ _ N) as (n & K & _). rewrite Q in K. congruence. }
  unfold add_node, sg_add_node in H. rewrite FREE in H. destruct (Nat.eqb _ _) eqn:LEN; [|discriminate H]. injection H as <- _. apply Nat.eqb_eq in LEN.
  pose proof (still_connected i h _ ST) as C.
  assert (DE : forall id, described i (h ++ [(CCreate i t how, r)]) id =
    match described i h id with Some n => Some n | None => if creation_id how =? id then Some (create_node t id) else None end).
  { intro id. rewrite described_app. unfold describe. cbn [fst]. rewrite Nat.eqb_refl. destruct (described i h id); reflexivity. }
  assert (OLD : forall k id, nth_error (g_ids g) k = Some id -> nth_error (g_ids g ++ [creation_id how]) k = Some id).
  { intros k id K. rewrite nth_error_app1; [exact K|]. apply nth_error_Some. congruence. }
  assert (BACK : forall k id, described i h id <> None -> nth_error (g_ids g ++ [creation_id how]) k = Some id -> nth_error (g_ids g) k = Some id).
  { intros k id KK N. destruct (Nat.lt_ge_cases k (length (g_ids g))) as [L|L]; [now rewrite nth_error_app1 in N by exact L|].
    rewrite nth_error_app2 in N by exact L. destruct (k - length (g_ids g))%nat as [|k']; [|destruct k'; discriminate N].
    injection N as <-. contradiction. }
  constructor; cbn [g_ids g_nodes g_graph sg_free n_id node_ops create_node nd_id].
  - apply (Permutation.Permutation_NoDup (Permutation.Permutation_cons_append (g_ids g) (creation_id how))). now constructor.
  - intros k id N. left. unfold sg_live. cbn [sg_nodes]. assert (LI : length (g_ids g) = length (sg_nodes (g_graph g))) by (rewrite (wg_ids _ _ WG), map_length; symmetry; apply (wg_len _ _ WG)).
    destruct (Nat.lt_ge_cases k (length (g_ids g))) as [L|L].
    + rewrite app_nth1 by lia. destruct (sg_live (g_graph g) k) eqn:LK; [exact LK|]. exfalso.
      assert (X : In k (sg_free (g_graph g))) by (apply (ws_free_vacant _ (wg_stable _ _ WG)); split; [lia|exact LK]). rewrite FREE in X. destruct X.
    + rewrite nth_error_app2 in N by exact L. destruct (k - length (g_ids g))%nat as [|k'] eqn:KQ; [|destruct k'; discriminate N].
      rewrite app_nth2 by lia. replace (k - length (sg_nodes (g_graph g)))%nat with 0%nat by lia. reflexivity.
  - intros k m N. rewrite DE. destruct (Nat.lt_ge_cases k (length (g_nodes g))) as [L|L].
    + rewrite nth_error_app1 in N by exact L. destruct (T3 _ _ N) as (n & K1 & K2). rewrite K1. eauto.
    + rewrite nth_error_app2 in N by exact L. destruct (k - length (g_nodes g))%nat as [|k']; [|destruct k'; discriminate N].
      injection N as <-. change (nd_id (create_node t (creation_id how))) with (creation_id how). rewrite NEW, Z.eqb_refl. eexists. split; reflexivity.
  - intros id. rewrite DE. intro Q. apply in_or_app. destruct (described i h id) eqn:K; [left; apply T4; congruence|].
    destruct (Z.eqb_spec (creation_id how) id); [right; now left|contradiction Q; reflexivity].
  - intros a b s. change (feeds (g_graph g) a b s <-> exists ia ib, nth_error (g_ids g ++ [creation_id how]) a = Some ia /\
      nth_error (g_ids g ++ [creation_id how]) b = Some ib /\ connected i (h ++ [(CCreate i t how, r)]) ia ib s). rewrite T5.
    split; intros (ia & ib & A & B & K); exists ia, ib.
    + split; [exact (OLD _ _ A)|]. split; [exact (OLD _ _ B)|]. now apply C.
    + apply C in K. destruct (T6 _ _ _ K) as (KA & KB & _).
      split; [exact (BACK _ _ KA A)|]. split; [exact (BACK _ _ KB B)|exact K].
  - intros a b s K. apply C in K. destruct (T6 _ _ _ K) as (KA & KB & KC). rewrite !DE.
    destruct (described i h a); [|contradiction]. destruct (described i h b); [|contradiction]. repeat split; congruence.
  - intros a b s s' K1 K2. apply C in K1, K2. exact (T8 _ _ _ _ K1 K2).
  - intros k b a s N LA K. apply C in K. rewrite (still_last i h _ ST) in LA. destruct (T6 _ _ _ K) as (_ & KB & _).
    exact (T9 _ _ _ _ (BACK _ _ KB N) LA K).
Qed.

(** Nodes change, everything else stays. *)
Lemma tidy_nodes i h e g g' : tidy i h g -> g_ids g' = g_ids g -> g_graph g' = g_graph g -> still i e ->
  (forall id, described i (h ++ [e]) id <> None <-> described i h id <> None) ->
  (forall j m, nth_error (g_nodes g') j = Some m -> exists n, described i (h ++ [e]) (nd_id m) = Some n /\ node_key m = node_key n) ->
  tidy i (h ++ [e]) g'.
Proof.
  intros [T1 T2 T3 T4 T5 T6 T8 T9] E1 E2 ST DE N. pose proof (still_connected i h _ ST) as C. constructor; rewrite ?E1, ?E2; auto.
  - intros j id Q. rewrite (still_gone i h _ ST). exact (T2 _ _ Q).
  - intros id Q. apply T4, DE, Q.
  - intros a b s. rewrite T5. split; intros (ia & ib & A & B & K); exists ia, ib; (split; [exact A|split; [exact B|]]); now apply C.
  - intros a b s K. apply C in K. destruct (T6 _ _ _ K) as (KA & KB & KC). split; [now apply DE|split; [now apply DE|exact KC]].
  - intros a b s s' K1 K2. apply C in K1, K2. exact (T8 _ _ _ _ K1 K2).
  - intros j b a s J LA K. apply C in K. rewrite (still_last i h _ ST) in LA. exact (T9 _ _ _ _ J LA K).
Qed.

Lemma tidy_set i h g w n a r g' w' : wf_graph ops g -> tidy i h g ->
  calls ops srt g w (GWrite (hd_id n) a) g' w' -> tidy i (h ++ [(CSet i n a, r)]) g'.
Proof.
  intros WG T (_ & H).
  assert (DE : forall id, described i (h ++ [(CSet i n a, r)]) id =
    match described i h id with Some m => if hd_id n =? id then Some (node_write m a) else Some m | None => None end).
  { intro id. rewrite described_app. unfold describe. cbn [fst]. rewrite Nat.eqb_refl. destruct (described i h id); reflexivity. }
  assert (ST : still i (CSet i n a, r)) by (split; [reflexivity|split; [reflexivity|discriminate]]).
  assert (E : g_ids g' = g_ids g /\ g_graph g' = g_graph g).
  { unfold write_node in H. destruct (find_index g (hd_id n)) as [j|]; [|injection H as <-; auto].
    destruct (nth_error (g_nodes g) j); [|discriminate H]. injection H as <-. auto. }
  destruct E as (E1 & E2). apply (tidy_nodes i h _ g); auto.
  - intro id. rewrite DE. destruct (described i h id); [|easy]. destruct (_ =? _); split; congruence.
  - intros j m N. rewrite DE. unfold write_node in H. destruct (find_index g (hd_id n)) as [k|] eqn:FI.
    + destruct (nth_error (g_nodes g) k) as [m0|] eqn:N0; [|discriminate H]. injection H as <-. cbn [with_state with_nodes g_nodes] in N.
      assert (ID0 : nd_id m0 = hd_id n).
      { pose proof (nodes_ids _ _ _ WG N0) as Q. apply position_lt in FI. destruct FI as (FI & _). congruence. }
      destruct (Nat.eq_dec j k) as [->|NE].
      * rewrite set_nth_same in N by (apply nth_error_Some; congruence). injection N as <-.
        destruct (td_node _ _ _ T _ _ N0) as (n1 & K1 & K2). cbn [n_write node_ops].
        assert (Q : nd_id (node_write m0 a) = nd_id m0) by (destruct a; cbn [node_write]; unfold node_set_i32, node_set_f32, node_set_str; destruct (attr_exists _ _); reflexivity).
        rewrite Q, K1, ID0, Z.eqb_refl. eexists. split; [reflexivity|]. now apply write_key.
      * rewrite set_nth_other in N by congruence. destruct (td_node _ _ _ T _ _ N) as (n1 & K1 & K2). rewrite K1.
        destruct (Z.eqb_spec (hd_id n) (nd_id m)) as [Q|Q]; [|eauto]. exfalso. apply NE.
        pose proof (nodes_ids _ _ _ WG N) as Q1. pose proof (nodes_ids _ _ _ WG N0) as Q2.
        apply (proj1 (NoDup_nth_error (g_ids g)) (td_ids _ _ _ T)); [apply nth_error_Some; congruence|congruence].
    + injection H as <-. destruct (td_node _ _ _ T _ _ N) as (n1 & K1 & K2). rewrite K1.
      destruct (Z.eqb_spec (hd_id n) (nd_id m)) as [Q|Q]; [|eauto]. exfalso. apply position_none in FI. apply FI.
      rewrite Q. apply nth_error_In with j. now apply (nodes_ids _ _ _ WG).
Qed.

(** The edge list after disconnecting an input whose edge comes first. *)
Lemma remove_first_filter a b l : NoDup (map (fun e => (e_src e, e_dst e)) l) -> (exists e, In e l /\ is_edge a b e = true) ->
  remove_first_edge a b l = Some (filter (fun e => negb (is_edge a b e)) l).
Proof.
  induction l as [|e l IH]; intros ND (e0 & I & Q); [destruct I|]. inversion ND as [|? ? NI ND']; subst. cbn [remove_first_edge filter map].
  destruct (is_edge a b e) eqn:QE; cbn [negb].
  - f_equal. symmetry. apply all_filter. intros e1 I1. destruct (is_edge a b e1) eqn:Q1; [|reflexivity]. exfalso. apply NI.
    apply in_map_iff. exists e1. split; [|exact I1]. unfold is_edge in QE, Q1. apply andb_prop in QE, Q1. rewrite !Nat.eqb_eq in QE, Q1. destruct QE, Q1. congruence.
  - rewrite IH; [reflexivity|exact ND'|]. destruct I as [->|I]; [congruence|eauto].
Qed.

Definition into (j : nat) (slot : Z) (e : edge) : bool := Nat.eqb (e_dst e) j && (e_slot e =? slot).
Lemma into_spec j slot e : into j slot e = true <-> e_dst e = j /\ e_slot e = slot.
Proof. unfold into. now rewrite andb_true_iff, Nat.eqb_eq, Z.eqb_eq. Qed.

Lemma disconnect_edges (g : graph node stream) dst slot j : wf_stable (g_graph g) -> find_index g dst = Some j ->
  (forall e, In e (sg_edges (g_graph g)) -> into j slot e = true -> exists rest, filter (fun e => Nat.eqb (e_dst e) j) (sg_edges (g_graph g)) = e :: rest) ->
  sg_edges (g_graph (disconnect_input g dst slot)) = filter (fun e => negb (into j slot e)) (sg_edges (g_graph g)).
Proof.
  intros WS FI HE. unfold disconnect_input. rewrite FI. set (es := sg_edges (g_graph g)) in *.
  assert (ND : NoDup es) by exact (NoDup_map_inv _ _ (ws_simple _ WS)).
  destruct (existsb (into j slot) es) eqn:EX.
  - apply existsb_exists in EX. destruct EX as (e & I & Q). destruct (HE e I Q) as (rest & HR).
    apply into_spec in Q. destruct Q as (Q1 & Q2). destruct (ws_ends_live _ WS _ I) as (L1 & L2).
    assert (TW : take_while (fun e => e_slot e =? slot) (sg_incoming (g_graph g) j) = [e]).
    { unfold sg_incoming. rewrite <- Q1, L2, Q1. fold es. rewrite HR. cbn [take_while]. rewrite (proj2 (Z.eqb_eq _ _) Q2). f_equal.
      destruct rest as [|e1 rest]; [reflexivity|]. cbn [take_while]. destruct (Z.eqb_spec (e_slot e1) slot) as [Q|Q]; [|reflexivity]. exfalso.
      assert (I1 : In e1 (filter (fun e => Nat.eqb (e_dst e) j) es)) by (rewrite HR; right; now left).
      apply filter_In in I1. destruct I1 as (I1 & D1). apply Nat.eqb_eq in D1.
      destruct (HE e1 I1 (proj2 (into_spec _ _ _) (conj D1 Q))) as (rest' & HR'). rewrite HR in HR'. injection HR' as <- _.
      pose proof (NoDup_filter (fun e => Nat.eqb (e_dst e) j) ND) as N2. rewrite HR in N2. inversion N2 as [|? ? NI _]. apply NI. now left. }
    rewrite TW. unfold remove_edges. cbn [fold_left]. rewrite L1.
    rewrite (remove_first_filter (e_src e) (e_dst e) (sg_edges (g_graph g)) (ws_simple _ WS)).
    2:{ exists e. split; [exact I|]. unfold is_edge. now rewrite !Nat.eqb_refl. }
    cbn [with_state with_graph g_graph sg_edges]. fold es. apply filter_ext_in. intros e1 I1. f_equal.
    destruct (is_edge (e_src e) (e_dst e) e1) eqn:A, (into j slot e1) eqn:B; try reflexivity; exfalso.
    + unfold is_edge in A. apply andb_prop in A. rewrite !Nat.eqb_eq in A. destruct A as (A1 & A2).
      assert (e1 = e).
      { destruct (In_nth_error _ _ I) as (k & K), (In_nth_error _ _ I1) as (k1 & K1). assert (k1 = k); [|congruence].
        apply (proj1 (NoDup_nth_error _) (ws_simple _ WS)); [rewrite map_length; apply nth_error_Some; unfold es in K1; congruence|].
        rewrite !nth_error_map. fold es. rewrite K, K1. cbn [option_map]. congruence. }
      subst e1. assert (X : into j slot e = true) by (apply into_spec; auto). congruence.
    + destruct (HE e1 I1 B) as (rest' & HR'). rewrite HR in HR'. injection HR' as <- _. unfold is_edge in A. rewrite !Nat.eqb_refl in A. discriminate A.
  - assert (NO : forall e, In e es -> into j slot e = false).
    { intros e I. destruct (into j slot e) eqn:Q; [|reflexivity]. assert (X : existsb (into j slot) es = true) by (apply existsb_exists; eauto). congruence. }
    assert (TW : take_while (fun e => e_slot e =? slot) (sg_incoming (g_graph g) j) = []).
    { unfold sg_incoming. destruct (sg_live (g_graph g) j); [|reflexivity]. fold es. destruct (filter _ es) as [|e1 rest] eqn:HR; [reflexivity|].
      cbn [take_while]. assert (I1 : In e1 (filter (fun e => Nat.eqb (e_dst e) j) es)) by (rewrite HR; now left). apply filter_In in I1. destruct I1 as (I1 & D1).
      specialize (NO _ I1). unfold into in NO. rewrite D1 in NO. cbn [andb] in NO. rewrite NO. reflexivity. }
    rewrite TW. cbn [remove_edges fold_left]. symmetry. fold es. apply all_filter. intros e I. now rewrite NO.
Qed.

Lemma filter_other j slot k (l : list edge) : k <> j -> filter (fun e => Nat.eqb (e_dst e) k) (filter (fun e => negb (into j slot e)) l) = filter (fun e => Nat.eqb (e_dst e) k) l.
Proof.
  intro NE. induction l as [|e l IH]; [reflexivity|]. cbn [filter]. unfold into at 1. destruct (Nat.eqb_spec (e_dst e) j) as [Q|Q]; cbn [andb].
  - destruct (Nat.eqb_spec (e_dst e) k); [congruence|]. destruct (_ =? _); cbn [negb]; [exact IH|]. cbn [filter]. destruct (Nat.eqb_spec (e_dst e) k); [congruence|exact IH].
  - cbn [negb filter]. destruct (Nat.eqb (e_dst e) k); [f_equal|]; exact IH.
Qed.

Lemma loose_first i h g b slot j : wf_graph ops g -> tidy i h g -> nth_error (g_ids g) j = Some b ->
  (forall src, connected i h src b slot -> loose i h b slot) ->
  forall e, In e (sg_edges (g_graph g)) -> into j slot e = true -> exists rest, filter (fun e => Nat.eqb (e_dst e) j) (sg_edges (g_graph g)) = e :: rest.
Proof.
  intros WG T J LO e I Q. apply into_spec in Q. destruct Q as (Q1 & Q2). destruct e as [u v s]. cbn [e_dst e_slot] in Q1, Q2. subst v s.
  assert (F : feeds (g_graph g) u j slot) by exact I. apply (td_link _ _ _ T) in F. destruct F as (a & b' & A & B & C). assert (b' = b) by congruence. subst b'.
  assert (SAME : forall u' s, In (Edge u' j s) (sg_edges (g_graph g)) -> s = slot -> Edge u' j s = Edge u j slot).
  { intros u' s I' ->. f_equal. assert (F : feeds (g_graph g) u' j slot) by exact I'. apply (td_link _ _ _ T) in F. destruct F as (a' & b' & A' & B' & C').
    assert (b' = b) by congruence. subst b'. pose proof (connected_one _ _ _ _ _ _ C C'). subst a'.
    apply (proj1 (NoDup_nth_error (g_ids g)) (td_ids _ _ _ T)); [apply nth_error_Some; congruence|congruence]. }
  destruct (filter (fun e => Nat.eqb (e_dst e) j) (sg_edges (g_graph g))) as [|[u' v' s'] rest] eqn:FL.
  { assert (X : In (Edge u j slot) (filter (fun e => Nat.eqb (e_dst e) j) (sg_edges (g_graph g)))) by (apply filter_In; split; [exact I|apply Nat.eqb_refl]). rewrite FL in X. destruct X. }
  exists rest. f_equal. assert (I' : In (Edge u' v' s') (filter (fun e => Nat.eqb (e_dst e) j) (sg_edges (g_graph g)))) by (rewrite FL; now left).
  apply filter_In in I'. destruct I' as (I' & D'). cbn [e_dst] in D'. apply Nat.eqb_eq in D'. subst v'. apply SAME; [exact I'|].
  destruct (LO _ C) as [ONLY|LAST].
  - assert (F : feeds (g_graph g) u' j s') by exact I'. apply (td_link _ _ _ T) in F. destruct F as (a' & b' & A' & B' & C').
    assert (b' = b) by congruence. subst b'. exact (ONLY _ _ C').
  - destruct (td_last _ _ _ T _ _ _ _ J LAST C) as (e1 & rest1 & FE & SE). rewrite FL in FE. injection FE as <- _. exact SE.
Qed.

Lemma tidy_disconnect i h g w b s r g' w' : wf_graph ops g -> tidy i h g -> builds i h (CDisconnect i b s) ->
  calls ops srt g w (GDisconnect (hd_id b) s) g' w' -> tidy i (h ++ [(CDisconnect i b s, r)]) g'.
Proof.
  intros WG T BC HG. cbn [builds] in BC. specialize (BC eq_refl).
  pose proof (call_nodes ops srt _ _ _ _ _ WG HG) as (EN & _).
  destruct (calls_wf ops srt (node_keeps_id p x) _ _ _ _ _ WG HG) as (WG' & IDS & FR). cbn [added] in IDS. rewrite app_nil_r in IDS.
  destruct HG as (_ & HG). pose proof T as [T1 T2 T3 T4 T5 T6 T8 T9].
  assert (DE : forall id, described i (h ++ [(CDisconnect i b s, r)]) id = described i h id).
  { intro id. rewrite described_app. unfold describe. cbn [fst]. destruct (described i h id); reflexivity. }
  assert (C : forall u v q, connected i (h ++ [(CDisconnect i b s, r)]) u v q <-> connected i h u v q /\ ~ (v = hd_id b /\ q = s)).
  { intros u v q. rewrite connected_app. unfold rewire at 1. cbn [fst]. rewrite Nat.eqb_refl. cbn [andb]. unfold connected.
    destruct (Z.eqb_spec (hd_id b) v) as [E1|E1], (Z.eqb_spec s q) as [E2|E2]; cbn [andb]; split; intro Q;
      first [discriminate Q|exact (proj1 Q)|split; [exact Q|intros (A & B); congruence]|exfalso; apply (proj2 Q); auto]. }
  assert (GO : forall id, gone i (h ++ [(CDisconnect i b s, r)]) id <-> gone i h id).
  { intro id. rewrite gone_app. split; [|auto]. intros [G|(n & Q & _)]; [exact G|discriminate Q]. }
  assert (LA : forall v, last_input i (h ++ [(CDisconnect i b s, r)]) v = last_input i h v) by (intro; rewrite last_app; reflexivity).
  assert (LIVE : sg_nodes (g_graph g') = sg_nodes (g_graph g)).
  { rewrite HG. destruct (find_index g (hd_id b)) as [j|] eqn:FI; [|unfold disconnect_input; now rewrite FI].
    destruct (disconnect_spec g _ s j (wg_stable _ _ WG) FI) as (_ & O & _). apply O. }
  destruct (find_index g (hd_id b)) as [jb|] eqn:PB.
  - pose proof (proj1 (position_lt _ _ _ PB)) as NB.
    pose proof (disconnect_edges g _ s jb (wg_stable _ _ WG) PB (loose_first i h g _ s jb WG T NB BC)) as ED. rewrite <- HG in ED.
    assert (INJ : forall j k id, nth_error (g_ids g) j = Some id -> nth_error (g_ids g) k = Some id -> j = k).
    { intros j k id J K. apply (proj1 (NoDup_nth_error (g_ids g)) T1); [apply nth_error_Some; congruence|congruence]. }
    assert (FD : forall u v q, feeds (g_graph g') u v q <-> feeds (g_graph g) u v q /\ ~ (v = jb /\ q = s)).
    { intros u v q. unfold feeds. rewrite ED, filter_In, negb_true_iff. rewrite <- not_true_iff_false, into_spec. cbn [e_dst e_slot]. reflexivity. }
    constructor; rewrite ?IDS; auto.
    + intros j id N. unfold sg_live. rewrite LIVE, GO. exact (T2 _ _ N).
    + intros j m N. rewrite EN in N. rewrite DE. exact (T3 _ _ N).
    + intro id. rewrite DE. apply T4.
    + intros u v q. rewrite FD, T5. split.
      * intros ((ia & ib & A & B & K) & NO). exists ia, ib. split; [exact A|]. split; [exact B|]. apply C. split; [exact K|].
        intros (-> & ->). apply NO. split; [exact (INJ _ _ _ B NB)|reflexivity].
      * intros (ia & ib & A & B & K). apply C in K. destruct K as (K & NO). split; [eauto|]. intros (-> & ->). apply NO. split; congruence.
    + intros u v q K. apply C in K. rewrite !DE. exact (T6 _ _ _ (proj1 K)).
    + intros u v q q' K1 K2. apply C in K1, K2. exact (T8 _ _ _ _ (proj1 K1) (proj1 K2)).
    + intros j v u q N L K. rewrite LA in L. apply C in K. destruct K as (K & NO). rewrite ED.
      destruct (Nat.eq_dec j jb) as [->|NE]; [|rewrite (filter_other _ _ _ _ NE); exact (T9 _ _ _ _ N L K)].
      assert (v = hd_id b) by congruence. subst v. destruct (T9 _ _ _ _ N L K) as (e & rest & FE & SE).
      assert (NQ : q <> s) by (intros ->; apply NO; auto).
      assert (X : filter (fun e => negb (into jb s e)) (sg_edges (g_graph g)) = sg_edges (g_graph g)).
      { apply all_filter. intros e1 I1. apply negb_true_iff, not_true_iff_false. intro Q.
        destruct (loose_first i h g _ s jb WG T NB BC e1 I1 Q) as (rest1 & FE1). rewrite FE in FE1. injection FE1 as <- _.
        apply into_spec in Q. destruct Q as (_ & Q). congruence. }
      rewrite X. eauto.
  - assert (Q : g' = g) by (rewrite HG; unfold disconnect_input; now rewrite PB). clear HG LIVE EN. subst g'.
    assert (NO : forall v, described i h v <> None -> v <> hd_id b) by (intros v K ->; apply T4 in K; apply position_none in PB; contradiction).
    constructor; [exact T1|..].
    + intros j id N. rewrite GO. exact (T2 _ _ N).
    + intros j m N. rewrite DE. exact (T3 _ _ N).
    + intro id. rewrite DE. apply T4.
    + intros u v q. rewrite T5. split; intros (ia & ib & A & B & K); exists ia, ib; (split; [exact A|split; [exact B|]]); [|apply C in K; apply K].
      apply C. split; [exact K|]. intros (-> & ->). destruct (T6 _ _ _ K) as (_ & KB & _). destruct (NO _ KB eq_refl).
    + intros u v q K. apply C in K. rewrite !DE. exact (T6 _ _ _ (proj1 K)).
    + intros u v q q' K1 K2. apply C in K1, K2. exact (T8 _ _ _ _ (proj1 K1) (proj1 K2)).
    + intros j v u q N L K. rewrite LA in L. apply C in K. exact (T9 _ _ _ _ N L (proj1 K)).
Qed.

Lemma tidy_connect i h g w a b s r g' w' : wf_graph ops g -> tidy i h g -> builds i h (CConnect i a b s) ->
  calls ops srt g w (GConnect (hd_id a) (hd_id b) s) g' w' -> tidy i (h ++ [(CConnect i a b s, r)]) g'.
Proof.
  intros WG T BC HG. cbn [builds] in BC. destruct (BC eq_refl) as (NE & DA & DB & LO & ONE). clear BC.
  pose proof (call_nodes ops srt _ _ _ _ _ WG HG) as (EN & _).
  destruct (calls_wf ops srt (node_keeps_id p x) _ _ _ _ _ WG HG) as (WG' & IDS & FR). cbn [added] in IDS. rewrite app_nil_r in IDS.
  destruct HG as (_ & HG). pose proof T as [T1 T2 T3 T4 T5 T6 T8 T9].
  destruct (position_in _ _ (T4 _ DA)) as (ja & PA). destruct (position_in _ _ (T4 _ DB)) as (jb & PB).
  pose proof (proj1 (position_lt _ _ _ PA)) as NA. pose proof (proj1 (position_lt _ _ _ PB)) as NB.
  assert (INJ : forall j k id, nth_error (g_ids g) j = Some id -> nth_error (g_ids g) k = Some id -> j = k).
  { intros j k id J K. apply (proj1 (NoDup_nth_error (g_ids g)) T1); [apply nth_error_Some; congruence|congruence]. }
  assert (DE : forall id, described i (h ++ [(CConnect i a b s, r)]) id = described i h id).
  { intro id. rewrite described_app. unfold describe. cbn [fst]. destruct (described i h id); reflexivity. }
  assert (C : forall u v q, connected i (h ++ [(CConnect i a b s, r)]) u v q <->
    (v = hd_id b /\ q = s /\ u = hd_id a) \/ (connected i h u v q /\ ~ (v = hd_id b /\ q = s))).
  { intros u v q. rewrite connected_app. unfold rewire at 1. cbn [fst]. rewrite Nat.eqb_refl. cbn [andb]. unfold connected.
    destruct (Z.eqb_spec (hd_id b) v) as [E1|E1], (Z.eqb_spec s q) as [E2|E2]; cbn [andb]; split; intro Q;
      first [left; injection Q as Q; auto; fail
            |right; split; [exact Q|intros (A & B); congruence]
            |destruct Q as [(Q1 & Q2 & Q3)|(Q1 & Q2)]; first [congruence|exact Q1|exfalso; apply Q2; auto]]. }
  assert (GO : forall id, gone i (h ++ [(CConnect i a b s, r)]) id <-> gone i h id).
  { intro id. rewrite gone_app. split; [|auto]. intros [G|(n & Q & _)]; [exact G|discriminate Q]. }
  assert (LA : forall v, last_input i (h ++ [(CConnect i a b s, r)]) v = if hd_id b =? v then Some s else last_input i h v).
  { intro v. rewrite last_app. unfold latest. cbn [fst]. rewrite Nat.eqb_refl. reflexivity. }
  pose proof (disconnect_edges g _ s jb (wg_stable _ _ WG) PB (loose_first i h g _ s jb WG T NB LO)) as ED.
  destruct (disconnect_spec g _ s jb (wg_stable _ _ WG) PB) as (_ & OE & _).
  unfold connect, find_index in HG. rewrite PA, PB in HG. unfold sg_update_edge in HG.
  assert (LV : sg_nodes (g_graph (disconnect_input g (hd_id b) s)) = sg_nodes (g_graph g)) by apply OE.
  assert (OV : overwrite_edge ja jb s (sg_edges (g_graph (disconnect_input g (hd_id b) s))) = None).
  { rewrite ED. set (fl := filter (fun e => negb (into jb s e)) (sg_edges (g_graph g))). destruct (overwrite_edge ja jb s fl) as [l|] eqn:Q; [exfalso|first [reflexivity|exact Q]].
    assert (X : forall l0, overwrite_edge ja jb s l0 <> None -> exists q, In (Edge ja jb q) l0).
    { clear. induction l0 as [|[u v q] l0 IH]; cbn [overwrite_edge]; [easy|]. destruct (is_edge ja jb (Edge u v q)) eqn:K.
      - unfold is_edge in K. cbn [e_src e_dst] in K. apply andb_prop in K. rewrite !Nat.eqb_eq in K. destruct K as (-> & ->). intros _. exists q. now left.
      - destruct (overwrite_edge ja jb s l0); [|easy]. intros _. destruct IH as (q' & I); [discriminate|]. exists q'. now right. }
    destruct (X fl ltac:(rewrite Q; discriminate)) as (q & I). unfold fl in I. apply filter_In in I. destruct I as (I & NI).
    apply negb_true_iff in NI. assert (F : feeds (g_graph g) ja jb q) by exact I. apply T5 in F. destruct F as (ia & ib & A & B & K).
    assert (ia = hd_id a) by congruence. assert (ib = hd_id b) by congruence. subst ia ib. pose proof (ONE _ K). subst q.
    assert (Y : into jb s (Edge ja jb s) = true) by (apply into_spec; auto). congruence. }
  rewrite OV in HG.
  replace (if sg_live (g_graph (disconnect_input g (hd_id b) s)) ja then @None (list edge) else None) with (@None (list edge)) in HG by (destruct (sg_live _ _); reflexivity).
  destruct (sg_live (g_graph (disconnect_input g (hd_id b) s)) ja && sg_live (g_graph (disconnect_input g (hd_id b) s)) jb)%bool; [|discriminate HG].
  cbn [bind] in HG. injection HG as HG.
  assert (ED' : sg_edges (g_graph g') = Edge ja jb s :: filter (fun e => negb (into jb s e)) (sg_edges (g_graph g))) by (rewrite <- HG, <- ED; reflexivity).
  assert (LIVE : sg_nodes (g_graph g') = sg_nodes (g_graph g)) by (rewrite <- HG, <- LV; reflexivity).
  clear HG OV LV OE ED FR.
  assert (FD : forall u v q, feeds (g_graph g') u v q <-> (v = jb /\ q = s /\ u = ja) \/ (feeds (g_graph g) u v q /\ ~ (v = jb /\ q = s))).
  { intros u v q. unfold feeds. rewrite ED'. cbn [In]. rewrite filter_In, negb_true_iff. rewrite <- not_true_iff_false, into_spec. cbn [e_dst e_slot].
    split; (intros [Q|Q]; [left|right; exact Q]); [injection Q as <- <- <-; auto|destruct Q as (-> & -> & ->); reflexivity]. }
  constructor; rewrite ?IDS; auto.
  - intros j id N. unfold sg_live. rewrite LIVE, GO. exact (T2 _ _ N).
  - intros j m N. rewrite EN in N. rewrite DE. exact (T3 _ _ N).
  - intro id. rewrite DE. apply T4.
  - intros u v q. rewrite FD, T5. split.
    + intros [(-> & -> & ->)|((ia & ib & A & B & K) & NO)].
      * exists (hd_id a), (hd_id b). split; [exact NA|]. split; [exact NB|]. apply C. left. auto.
      * exists ia, ib. split; [exact A|]. split; [exact B|]. apply C. right. split; [exact K|].
        intros (-> & ->). apply NO. split; [exact (INJ _ _ _ B NB)|reflexivity].
    + intros (ia & ib & A & B & K). apply C in K. destruct K as [(-> & -> & ->)|(K & NO)].
      * left. split; [exact (INJ _ _ _ B NB)|]. split; [reflexivity|exact (INJ _ _ _ A NA)].
      * right. split; [eauto|]. intros (-> & ->). apply NO. split; congruence.
  - intros u v q K. apply C in K. rewrite !DE. destruct K as [(-> & -> & ->)|(K & _)]; [auto|exact (T6 _ _ _ K)].
  - intros u v q q' K1 K2. apply C in K1, K2. destruct K1 as [(-> & -> & ->)|(K1 & NO1)], K2 as [(W1 & W2 & W3)|(K2 & NO2)].
    + congruence.
    + pose proof (ONE _ K2). congruence.
    + subst. pose proof (ONE _ K1). congruence.
    + exact (T8 _ _ _ _ K1 K2).
  - intros j v u q N L K. rewrite LA in L. rewrite ED'. cbn [filter e_dst]. destruct (Nat.eqb_spec jb j) as [<-|NJ].
    + assert (v = hd_id b) by congruence. subst v. rewrite Z.eqb_refl in L. injection L as <-. eexists _, _. split; reflexivity.
    + rewrite filter_other by congruence. destruct (Z.eqb_spec (hd_id b) v) as [<-|NV]; [destruct (NJ (INJ _ _ _ NB N))|].
      apply C in K. destruct K as [(-> & _)|(K & _)]; [congruence|]. exact (T9 _ _ _ _ N L K).
Qed.

Lemma tidy_delete i h g w n r g' w' : wf_graph ops g -> tidy i h g -> builds i h (CDelete i n) ->
  calls ops srt g w (GRemove (hd_id n)) g' w' -> tidy i (h ++ [(CDelete i n, r)]) g'.
Proof.
  intros WG T BC HG. cbn [builds] in BC. specialize (BC eq_refl).
  pose proof (call_nodes ops srt _ _ _ _ _ WG HG) as (EN & _).
  destruct (calls_wf ops srt (node_keeps_id p x) _ _ _ _ _ WG HG) as (WG' & IDS & FR). cbn [added] in IDS. rewrite app_nil_r in IDS.
  destruct HG as (_ & HG). pose proof T as [T1 T2 T3 T4 T5 T6 T8 T9].
  destruct (position_in _ _ (T4 _ BC)) as (k & PK). pose proof (proj1 (position_lt _ _ _ PK)) as NK.
  assert (INJ : forall j k id, nth_error (g_ids g) j = Some id -> nth_error (g_ids g) k = Some id -> j = k).
  { intros j k' id J K. apply (proj1 (NoDup_nth_error (g_ids g)) T1); [apply nth_error_Some; congruence|congruence]. }
  assert (DE : forall id, described i (h ++ [(CDelete i n, r)]) id = described i h id).
  { intro id. rewrite described_app. unfold describe. cbn [fst]. destruct (described i h id); reflexivity. }
  assert (C : forall u v q, connected i (h ++ [(CDelete i n, r)]) u v q <-> connected i h u v q /\ u <> hd_id n /\ v <> hd_id n).
  { intros u v q. rewrite connected_app. unfold rewire at 1. cbn [fst]. rewrite Nat.eqb_refl. cbn [andb]. unfold connected.
    destruct (fold_left (rewire i v q) h None) as [c|]; destruct (Z.eqb_spec (hd_id n) v); cbn [orb]; try (split; intros; [discriminate|intuition congruence]).
    - destruct (Z.eqb_spec c (hd_id n)); (split; intros Q; [try discriminate Q; injection Q as <-; auto|]); [destruct Q as (Q & Q1 & _); injection Q as ->; contradiction|apply Q]. }
  assert (GO : forall id, gone i (h ++ [(CDelete i n, r)]) id <-> gone i h id \/ hd_id n = id).
  { intro id. rewrite gone_app. split; (intros [G|Q]; [now left|right]); [destruct Q as (m & Q & <-); injection Q as <-; reflexivity|eauto]. }
  assert (LA : forall v, last_input i (h ++ [(CDelete i n, r)]) v = last_input i h v) by (intro; rewrite last_app; reflexivity).
  set (keep := fun e : edge => (negb (Nat.eqb (e_src e) k) && negb (Nat.eqb (e_dst e) k))%bool).
  assert (K : sg_edges (g_graph g') = filter keep (sg_edges (g_graph g)) /\ forall j, j <> k -> sg_live (g_graph g') j = sg_live (g_graph g) j).
  { rewrite HG. unfold remove_node, find_index. rewrite PK. unfold sg_remove_node. destruct (sg_live (g_graph g) k) eqn:LK.
    - cbn [fst with_state with_graph g_graph sg_edges]. split; [reflexivity|]. intros j NJ. unfold sg_live. cbn [sg_nodes].
      assert (X : forall (l : list bool) a b d, a <> b -> nth a (set_nth l b d) false = nth a l false).
      { clear. induction l as [|c l IH]; intros [|a] [|b] d NE; cbn [set_nth nth]; try reflexivity; try congruence. apply IH. congruence. }
      apply X, NJ.
    - cbn [fst]. split; [|reflexivity]. symmetry. apply all_filter. intros e I. destruct (ws_ends_live _ (wg_stable _ _ WG) _ I) as (L1 & L2). unfold keep.
      destruct (Nat.eqb_spec (e_src e) k); [congruence|]. destruct (Nat.eqb_spec (e_dst e) k); [congruence|reflexivity]. }
  destruct K as (ED & LIVE). clear HG FR.
  assert (FD : forall u v q, feeds (g_graph g') u v q <-> feeds (g_graph g) u v q /\ u <> k /\ v <> k).
  { intros u v q. unfold feeds. rewrite ED, filter_In. unfold keep. cbn [e_src e_dst]. rewrite andb_true_iff, !negb_true_iff, !Nat.eqb_neq. reflexivity. }
  constructor; rewrite ?IDS; auto.
  - intros j id N. rewrite GO. destruct (Nat.eq_dec j k) as [->|NJ]; [right; right; congruence|]. rewrite (LIVE _ NJ). destruct (T2 _ _ N); auto.
  - intros j m N. rewrite EN in N. rewrite DE. exact (T3 _ _ N).
  - intro id. rewrite DE. apply T4.
  - intros u v q. rewrite FD, T5. split.
    + intros ((ia & ib & A & B & K) & NU & NV). exists ia, ib. split; [exact A|]. split; [exact B|]. apply C. split; [exact K|]. split; intros ->.
      * exact (NU (INJ _ _ _ A NK)).
      * exact (NV (INJ _ _ _ B NK)).
    + intros (ia & ib & A & B & K). apply C in K. destruct K as (K & NU & NV). split; [eauto|]. split; intros ->; congruence.
  - intros u v q K. apply C in K. rewrite !DE. exact (T6 _ _ _ (proj1 K)).
  - intros u v q q' K1 K2. apply C in K1, K2. exact (T8 _ _ _ _ (proj1 K1) (proj1 K2)).
  - intros j v u q N L K. rewrite LA in L. apply C in K. destruct K as (K & NU & NV). destruct (T9 _ _ _ _ N L K) as (e & rest & FE & SE).
    rewrite ED. assert (F : feeds (g_graph g) (e_src e) j q).
    { assert (I : In e (filter (fun e => Nat.eqb (e_dst e) j) (sg_edges (g_graph g)))) by (rewrite FE; now left). apply filter_In in I.
      destruct I as (I & D1). apply Nat.eqb_eq in D1. destruct e as [eu ev es]. cbn [e_dst e_slot e_src] in *. subst. exact I. }
    apply T5 in F. destruct F as (ia & ib & A & B & K'). assert (ib = v) by congruence. subst ib. pose proof (connected_one _ _ _ _ _ _ K K'). subst ia.
    assert (KE : keep e = true).
    { assert (I : In e (filter (fun e => Nat.eqb (e_dst e) j) (sg_edges (g_graph g)))) by (rewrite FE; now left). apply filter_In in I.
      destruct I as (_ & D1). apply Nat.eqb_eq in D1. unfold keep. apply andb_true_iff. rewrite !negb_true_iff, !Nat.eqb_neq. split; intro Q.
      - rewrite Q in A. congruence.
      - rewrite D1 in Q. subst j. congruence. }
    exists e, (filter keep rest). split; [|exact SE].
    assert (SW : forall l, filter (fun e => Nat.eqb (e_dst e) j) (filter keep l) = filter keep (filter (fun e => Nat.eqb (e_dst e) j) l)).
    { clear. induction l as [|e l IH]; [reflexivity|]. cbn [filter]. destruct (keep e) eqn:A, (Nat.eqb (e_dst e) j) eqn:B; cbn [filter]; rewrite ?A, ?B, ?IH; reflexivity. }
    rewrite SW, FE. cbn [filter]. now rewrite KE.
Qed.

Lemma tidy_execute i h g w id frames e g' w' : tidy i h g -> calls ops srt g w (GExecute id frames) g' w' ->
  still i e -> (forall id, described i (h ++ [e]) id = described i h id) ->
  tidy i (h ++ [e]) g'.
Proof.
  intros T (fuel & st & X) ST DE.
  destruct (execute_result ops srt (node_keeps_id p x) _ _ _ _ _ _ _ _ X) as (E1 & E2 & _).
  apply (tidy_nodes i h e g); auto.
  - intro. now rewrite DE.
  - pose proof (execute_keys ops srt (fun n => (nd_type n, nd_attrs n, nd_id n))) as K.
    assert (KK : map (fun n => (nd_type n, nd_attrs n, nd_id n)) (g_nodes g') = map (fun n => (nd_type n, nd_attrs n, nd_id n)) (g_nodes g)).
    { refine (K _ _ _ _ _ _ _ _ _ X). intros n fr mode ins out c n' st0 out' c' CO.
      pose proof (compute_key p x _ _ _ _ _ _ _ _ _ _ CO) as Q. injection Q as Q1 Q2. pose proof (proj2 (node_keeps_id p x) _ _ _ _ _ _ _ _ _ _ CO) as Q3.
      cbn [n_id node_ops] in Q3. congruence. }
    intros j m N. rewrite DE. assert (Q : nth_error (map (fun n => (nd_type n, nd_attrs n, nd_id n)) (g_nodes g')) j = Some (nd_type m, nd_attrs m, nd_id m))
      by (rewrite nth_error_map, N; reflexivity).
    rewrite KK, nth_error_map in Q. destruct (nth_error (g_nodes g) j) as [m0|] eqn:N0; [|discriminate Q]. injection Q as Q1 Q2 Q3.
    destruct (td_node _ _ _ T _ _ N0) as (n & K1 & K2). exists n. rewrite <- Q3. split; [exact K1|]. rewrite <- K2. unfold node_key. congruence.
Qed.

Lemma built h cl i : past p x srt h cl -> only_builds i h -> wf_graph ops (cl_graphs cl i) /\ tidy i h (cl_graphs cl i).
Proof.
  intro H. induction H as [d|h cl fuel call cl' r H IH HC|h cl d H IH]; intro B; [|..|exact (IH B)].
  - split; [apply wf_new|]. constructor; cbn [client_new cl_graphs graph_new g_ids g_graph g_nodes sg_edges]; try discriminate.
    + constructor.
    + intros j id Q. destruct j; discriminate Q.
    + intros j m Q. destruct j; discriminate Q.
    + intros id Q. contradiction Q. reflexivity.
    + intros a b s. split; [intros []|]. intros (ia & ib & Q & _). destruct a; discriminate Q.
  - apply only_builds_app in B. destruct B as (B & BC). destruct (IH B) as (WG & T). clear IH.
    destruct (call_graph p x srt _ _ _ _ _ i HC) as [(NO & ->)|(gc & w & w' & OG & HG)].
    { split; [exact WG|]. destruct (elsewhere i call r NO) as (E1 & ST).
      apply (tidy_nodes i h (call, r) (cl_graphs cl i)); auto.
      - intro id. rewrite described_app, E1. reflexivity.
      - intros j m Q. rewrite described_app, E1. exact (td_node _ _ _ T j m Q). }
    destruct (calls_wf ops srt (node_keeps_id p x) _ _ _ _ _ WG HG) as (WG' & IDS & FREE).
    split; [exact WG'|].
    destruct call; cbn [on_graph] in OG; try discriminate OG; destruct (Nat.eqb i0 i) eqn:IJ; try discriminate OG; injection OG as <-;
      apply Nat.eqb_eq in IJ; subst i0.
    + exact (tidy_add _ _ _ _ _ _ _ _ _ WG T (BC eq_refl) HG).
    + exact (tidy_delete _ _ _ _ _ _ _ _ WG T BC HG).
    + exact (tidy_set _ _ _ _ _ _ _ _ _ WG T HG).
    + exact (tidy_connect _ _ _ _ _ _ _ _ _ _ WG T BC HG).
    + exact (tidy_disconnect _ _ _ _ _ _ _ _ _ WG T BC HG).
    + apply (tidy_execute _ _ _ _ _ _ _ _ _ T HG); [split; [reflexivity|split; [reflexivity|discriminate]]|].
      intro id. rewrite described_app. unfold describe. cbn [fst]. destruct (described i h id); reflexivity.
    + apply (tidy_execute _ _ _ _ _ _ _ _ _ T HG); [split; [reflexivity|split; [reflexivity|discriminate]]|].
      intro id. rewrite described_app. unfold describe. cbn [fst]. destruct (described i h id); reflexivity.
Qed.
End Client.

(** C111: editing a graph and undoing the edits. *)
From Coq Require String.
Import String.StringSyntax.
From Coq Require Import Lia FunctionalExtensionality Floats.SpecFloat.
From Verif Require Import Machine Loops AttrModel AttrSpec AttrProofs HashModel StreamModel GraphModel GraphSpec GraphWalk GraphExec GraphHistory GraphHistory2
  NodeModel IsoSpec IsoProofs IsoFacts EditSpec.

(* ------------------------------ one node ------------------------------ *)

Definition field (k : kind) (name : string) (b : block) : value :=
  match k with KI32 => VI (b_i32 b name) | KF32 => VF (b_f32 b name) | KStr => VS (b_str b name) end.

Lemma get_field n k name : has_attr (nd_type n) k name -> get_value k name n = field k name (nd_attrs n).
Proof. exact (get_has n k name). Qed.

Lemma block_ext b b' : (forall k name, field k name b = field k name b') -> b = b'.
Proof.
  destruct b as [i f s], b' as [i' f' s']. intro H. f_equal; apply functional_extensionality; intro name.
  - specialize (H KI32 name). now injection H.
  - specialize (H KF32 name). now injection H.
  - specialize (H KStr name). now injection H.
Qed.

Lemma field_put b w k name : field k name (put b w) = if kind_eqb (w_kind w) k && seqb name (w_name w) then w_value w else field k name b.
Proof.
  destruct w as [m v|m v|m v], k; cbn [w_kind w_name w_value kind_eqb andb field put put_i32 put_f32 put_str b_i32 b_f32 b_str];
    try reflexivity; unfold upd; now destruct (seqb name m).
Qed.

(** Attributes the type does not have are as they were made. *)
Definition dressed (n : node) : Prop :=
  forall k name, ~ has_attr (nd_type n) k name -> field k name (nd_attrs n) = field k name (default_attrs (nd_type n)).

Lemma dressed_write n w : dressed n -> dressed (node_write n w).
Proof.
  intro H. destruct (has_attr_dec (nd_type n) (w_kind w) (w_name w)) as [A|A]; [|now rewrite (write_lacks n w A)].
  rewrite (write_has n w A). intros k name NA. cbn [with_attrs nd_type nd_attrs] in *. rewrite field_put.
  destruct (kind_eqb (w_kind w) k && seqb name (w_name w)) eqn:E; [|now apply H].
  apply andb_prop in E. destruct E as (E1 & E2). apply kind_eqb_eq in E1. apply seqb_eq in E2. subst. contradiction.
Qed.

Lemma writes_type ws : forall n, nd_type (fold_left node_write ws n) = nd_type n.
Proof. induction ws as [|w ws IH]; intro n; cbn [fold_left]; [reflexivity|]. now rewrite IH, write_type. Qed.
Lemma writes_id ws : forall n, nd_id (fold_left node_write ws n) = nd_id n.
Proof. induction ws as [|w ws IH]; intro n; cbn [fold_left]; [reflexivity|]. now rewrite IH, write_id. Qed.

Lemma dressed_writes ws : forall n, dressed n -> dressed (fold_left node_write ws n).
Proof. induction ws as [|w ws IH]; intros n H; cbn [fold_left]; [exact H|]. now apply IH, dressed_write. Qed.

Lemma configured_dressed n : configured n -> dressed n.
Proof.
  intros (ws & E).
  assert (D : dressed (fold_left node_write ws (create_node (nd_type n) (nd_id n)))) by (apply dressed_writes; intros k name _; reflexivity).
  intros k name NA. rewrite E. specialize (D k name). rewrite writes_type in D. cbn [create_node nd_type] in D. now apply D.
Qed.

(** Settings are what they read. *)
Theorem readings_settings n n' : configured n -> configured n' -> same_readings n n' -> same_settings n n'.
Proof.
  intros C C' (T & I & R). split; [exact T|]. split; [exact I|]. apply block_ext. intros k name.
  apply configured_dressed in C, C'. destruct (has_attr_dec (nd_type n) k name) as [A|A].
  - rewrite <- (get_field n k name A), R. apply get_field. now rewrite <- T.
  - rewrite (C k name A), T. symmetry. apply C'. now rewrite <- T.
Qed.

Lemma settings_readings n n' : same_settings n n' -> same_readings n n'.
Proof.
  intros (T & I & A). split; [exact T|]. split; [exact I|]. intros k name. symmetry.
  pose proof (reads_attrs k name n n' (eq_sym T) (eq_sym A)) as X. now injection X.
Qed.

(** Writing the old value back; writing twice; writing in either order. *)
Lemma node_ext n n' : nd_type n = nd_type n' -> nd_id n = nd_id n' -> nd_status n = nd_status n' ->
  (forall k name, field k name (nd_attrs n) = field k name (nd_attrs n')) -> n = n'.
Proof. destruct n, n'. cbn. intros -> -> -> H. f_equal. now apply block_ext. Qed.

Lemma write_field n w k name : field k name (nd_attrs (node_write n w)) =
  if kind_eqb (w_kind w) k && seqb name (w_name w) && is_attr (nd_type n) k name then w_value w else field k name (nd_attrs n).
Proof.
  destruct (has_attr_dec (nd_type n) (w_kind w) (w_name w)) as [A|A].
  - rewrite (write_has n w A). cbn [with_attrs nd_attrs]. rewrite field_put.
    destruct (kind_eqb (w_kind w) k && seqb name (w_name w)) eqn:E; [|reflexivity].
    apply andb_prop in E. destruct E as (E1 & E2). apply kind_eqb_eq in E1. apply seqb_eq in E2. subst.
    apply is_attr_spec in A. now rewrite A.
  - rewrite (write_lacks n w A). destruct (kind_eqb (w_kind w) k && seqb name (w_name w)) eqn:E; [|reflexivity].
    apply andb_prop in E. destruct E as (E1 & E2). apply kind_eqb_eq in E1. apply seqb_eq in E2. subst.
    destruct (is_attr (nd_type n) (w_kind w) (w_name w)) eqn:Q; [|reflexivity]. apply is_attr_spec in Q. contradiction.
Qed.

Lemma write_back n w w' : same_target w w' -> get_value (w_kind w) (w_name w) n = w_value w' -> node_write (node_write n w) w' = n.
Proof.
  intros (K & M) G. apply node_ext; rewrite ?write_type, ?write_id, ?write_status; try reflexivity.
  intros k name. rewrite !write_field, write_type, <- K, <- M.
  destruct (kind_eqb (w_kind w) k && seqb name (w_name w) && is_attr (nd_type n) k name) eqn:E; [|reflexivity].
  apply andb_prop in E. destruct E as (E & A). apply andb_prop in E. destruct E as (E1 & E2). apply kind_eqb_eq in E1. apply seqb_eq in E2. subst.
  apply is_attr_spec in A. rewrite <- (get_field n _ _ A). now symmetry.
Qed.

Lemma write_over n w w' : same_target w w' -> node_write (node_write n w) w' = node_write n w'.
Proof.
  intros (K & M). apply node_ext; rewrite ?write_type, ?write_id, ?write_status; try reflexivity.
  intros k name. rewrite !write_field, write_type, <- K, <- M.
  now destruct (kind_eqb (w_kind w) k && seqb name (w_name w) && is_attr (nd_type n) k name).
Qed.

Lemma write_swap n w w' : ~ same_target w w' -> node_write (node_write n w) w' = node_write (node_write n w') w.
Proof.
  intro H. apply node_ext; rewrite ?write_type, ?write_id, ?write_status; try reflexivity.
  intros k name. rewrite !write_field, !write_type.
  destruct (kind_eqb (w_kind w) k && seqb name (w_name w)) eqn:E, (kind_eqb (w_kind w') k && seqb name (w_name w')) eqn:E'; cbn [andb];
    destruct (is_attr (nd_type n) k name); try reflexivity.
  exfalso. apply H. apply andb_prop in E, E'. destruct E as (E1 & E2), E' as (E3 & E4).
  apply kind_eqb_eq in E1, E3. apply seqb_eq in E2, E4. split; congruence.
Qed.

(* ------------------------------ graphs ------------------------------ *)

Section Graph.
Context {D : Type}.
Variable p : profile.
Variable x : externals D.
Variable srt : edge_sort.
Notation ops := (node_ops p x).
Notation graph := (graph node stream).

Lemma set_nth_twice {A} (l : list A) i a b : set_nth (set_nth l i a) i b = set_nth l i b.
Proof. revert i. induction l as [|h t IH]; intros [|i]; cbn [set_nth]; try reflexivity. now rewrite IH. Qed.
Lemma set_nth_swap {A} (l : list A) i j a b : i <> j -> set_nth (set_nth l i a) j b = set_nth (set_nth l j b) i a.
Proof.
  revert i j. induction l as [|h t IH]; intros [|i] [|j] NE; cbn [set_nth]; try reflexivity; [congruence|].
  rewrite IH; [reflexivity|congruence].
Qed.
Lemma nth_set {A} (l : list A) i a : (i < length l)%nat -> nth_error (set_nth l i a) i = Some a.
Proof. revert i. induction l as [|h t IH]; intros [|i] H; cbn [set_nth nth_error length] in *; try lia; [reflexivity|]. apply IH. lia. Qed.
Lemma nth_set_other {A} (l : list A) i j a : i <> j -> nth_error (set_nth l i a) j = nth_error l j.
Proof. revert i j. induction l as [|h t IH]; intros [|i] [|j] H; cbn [set_nth nth_error]; try reflexivity; [congruence|]. apply IH. congruence. Qed.

Lemma write_node_inv (g g' : graph) id w : write_node ops g id w = Ok g' ->
  (find_index g id = None /\ g' = g) \/
  exists i n, find_index g id = Some i /\ nth_error (g_nodes g) i = Some n /\
    g' = with_state (with_nodes g (set_nth (g_nodes g) i (node_write n w))) GsDirty.
Proof.
  unfold write_node. destruct (find_index g id) as [i|]; [|intros [= <-]; auto].
  destruct (nth_error (g_nodes g) i) as [n|] eqn:E; [|discriminate]. intros [= <-]. right. exists i, n. auto.
Qed.

Theorem graph_write_back (g g1 g2 : graph) id w w' : node_exists g id = true -> same_target w w' ->
  read_node g id (get_value (w_kind w) (w_name w)) (zero_value (w_kind w)) = Ok (w_value w') ->
  write_node ops g id w = Ok g1 -> write_node ops g1 id w' = Ok g2 -> g2 = with_state g GsDirty.
Proof.
  intros EX ST RD H1 H2. apply write_node_inv in H1. destruct H1 as [(F & _)|(i & n & F & E & ->)]; [unfold node_exists in EX; now rewrite F in EX|].
  apply write_node_inv in H2. destruct H2 as [(F2 & _)|(i2 & n2 & F2 & E2 & ->)].
  { unfold find_index in *. cbn [with_state with_nodes g_ids] in F2. congruence. }
  assert (i2 = i) as -> by (unfold find_index in *; cbn [with_state with_nodes g_ids] in F2; congruence).
  cbn [with_state with_nodes g_nodes g_ids g_graph g_output g_state g_status] in *.
  assert (L : (i < length (g_nodes g))%nat) by (apply nth_error_Some; congruence).
  rewrite (nth_set _ _ _ L) in E2. injection E2 as <-.
  unfold read_node in RD. rewrite F, E in RD. injection RD as RD.
  rewrite (write_back n w w' ST RD), set_nth_twice, (set_nth_same_value _ _ _ E). reflexivity.
Qed.

Theorem graph_write_over (g g1 g2 g3 : graph) id w w' : same_target w w' ->
  write_node ops g id w = Ok g1 -> write_node ops g1 id w' = Ok g2 -> write_node ops g id w' = Ok g3 -> g2 = g3.
Proof.
  intros ST H1 H2 H3. apply write_node_inv in H1, H2, H3.
  destruct H1 as [(F & ->)|(i & n & F & E & ->)].
  - destruct H2 as [(_ & ->)|(i2 & n2 & F2 & _)]; [|congruence]. destruct H3 as [(_ & ->)|(i3 & n3 & F3 & _)]; [reflexivity|congruence].
  - destruct H3 as [(F3 & _)|(i3 & n3 & F3 & E3 & ->)]; [congruence|]. assert (i3 = i) as -> by congruence. assert (n3 = n) as -> by congruence.
    destruct H2 as [(F2 & _)|(i2 & n2 & F2 & E2 & ->)]; unfold find_index in *; cbn [with_state with_nodes g_ids] in F2; [congruence|].
    assert (i2 = i) as -> by congruence. cbn [with_state with_nodes g_nodes g_ids g_graph g_output g_state g_status] in *.
    rewrite nth_set in E2 by (apply nth_error_Some; congruence). injection E2 as <-.
    now rewrite set_nth_twice, (write_over n w w' ST).
Qed.

Theorem graph_write_swap (g g1 g2 h1 h2 : graph) id id' w w' : id <> id' \/ ~ same_target w w' ->
  write_node ops g id w = Ok g1 -> write_node ops g1 id' w' = Ok g2 ->
  write_node ops g id' w' = Ok h1 -> write_node ops h1 id w = Ok h2 -> g2 = h2.
Proof.
  intros NE H1 H2 H3 H4. apply write_node_inv in H1, H2, H3, H4.
  destruct H1 as [(F1 & ->)|(i & n & F1 & E1 & ->)], H3 as [(F3 & ->)|(j & m & F3 & E3 & ->)].
  - destruct H2 as [(_ & ->)|(? & ? & ? & _)]; [|congruence]. destruct H4 as [(_ & ->)|(? & ? & ? & _)]; [reflexivity|congruence].
  - destruct H2 as [(? & _)|(j2 & m2 & F2 & E2 & ->)]; [congruence|].
    destruct H4 as [(_ & ->)|(? & ? & F4 & _)]; [|unfold find_index in *; cbn [with_state with_nodes g_ids] in F4; congruence].
    now replace j2 with j in * by congruence; replace m2 with m in * by congruence.
  - destruct H4 as [(? & _)|(j2 & m2 & F2 & E2 & ->)]; [congruence|].
    destruct H2 as [(_ & ->)|(? & ? & F4 & _)]; [|unfold find_index in *; cbn [with_state with_nodes g_ids] in F4; congruence].
    now replace j2 with i in * by congruence; replace m2 with n in * by congruence.
  - destruct H2 as [(F2 & _)|(j2 & m2 & F2 & E2 & ->)]; [unfold find_index in *; cbn [with_state with_nodes g_ids] in F2; congruence|].
    destruct H4 as [(F4 & _)|(i2 & n2 & F4 & E4 & ->)]; [unfold find_index in *; cbn [with_state with_nodes g_ids] in F4; congruence|].
    assert (j2 = j) as -> by (unfold find_index in *; cbn [with_state with_nodes g_ids] in F2; congruence).
    assert (i2 = i) as -> by (unfold find_index in *; cbn [with_state with_nodes g_ids] in F4; congruence).
    cbn [with_state with_nodes g_nodes g_ids g_graph g_output g_state g_status] in *.
    destruct (Nat.eq_dec i j) as [<-|NIJ].
    + assert (m = n) as -> by congruence.
      assert (ID : id = id').
      { unfold find_index in *. apply position_lt in F1, F3. destruct F1 as (F1 & _), F3 as (F3 & _). congruence. }
      destruct NE as [NE|NE]; [congruence|].
      rewrite nth_set in E2, E4 by (apply nth_error_Some; congruence). injection E2 as <-. injection E4 as <-.
      now rewrite !set_nth_twice, (write_swap n w w' NE).
    + rewrite nth_set_other in E2, E4 by congruence. assert (m2 = m) as -> by congruence. assert (n2 = n) as -> by congruence.
      now rewrite (set_nth_swap _ i j).
Qed.

(** Whether the graph asks to be executed makes no difference to executing it. *)
Lemma state_nodes (g : graph) s is : get_nodes (with_state g s) is = get_nodes g is.
Proof. induction is as [|i is IH]; cbn [get_nodes]; [reflexivity|]. rewrite IH. reflexivity. Qed.

Lemma state_hash (g : graph) s fr order : forall hc, hash_phase ops srt (with_state g s) fr order hc = hash_phase ops srt g fr order hc.
Proof.
  induction order as [|i order IH]; intro hc; cbn [hash_phase]; [reflexivity|].
  change (get_node (with_state g s) i) with (get_node g i). destruct (get_node g i) as [n|]; cbn [bind]; [|reflexivity].
  change (input_hashes srt (with_state g s) i hc) with (input_hashes srt g i hc). destruct (input_hashes srt g i hc); cbn [bind]; [|reflexivity].
  apply IH.
Qed.

Lemma state_validate (g : graph) s hc fuel : forall stack acc,
  validate_loop ops srt fuel (with_state g s) hc stack acc = validate_loop ops srt fuel g hc stack acc.
Proof.
  induction fuel as [|fuel IH]; intros stack acc; cbn [validate_loop]; [reflexivity|]. destruct stack as [|[i mode] rest]; [reflexivity|].
  change (g_graph (with_state g s)) with (g_graph g). destruct (direct_upstream srt (g_graph g) i) as [ms|]; cbn [bind]; [|reflexivity].
  rewrite state_nodes. destruct (get_nodes g ms) as [ins|]; cbn [bind]; [|reflexivity].
  change (get_node (with_state g s) i) with (get_node g i). destruct (get_node g i) as [n|]; cbn [bind]; [|reflexivity].
  destruct (lookup i hc) as [h|]; [|reflexivity]. destruct (n_validate _ _ _ _ _) as [modes|]; cbn [bind]; [|reflexivity]. apply IH.
Qed.

Lemma state_compute s fr todo : forall (g : graph) c sc, compute_phase ops srt (with_state g s) fr todo c sc =
  match compute_phase ops srt g fr todo c sc with Ok (g', c', e) => Ok (with_state g' s, c', e) | Panic => Panic end.
Proof.
  induction todo as [|[i mode] todo IH]; intros g c sc; cbn [compute_phase]; [reflexivity|].
  change (input_streams srt (with_state g s) i sc) with (input_streams srt g i sc). destruct (input_streams srt g i sc) as [ins|]; cbn [bind]; [|reflexivity].
  unfold compute_node_output. change (get_node (with_state g s) i) with (get_node g i). destruct (get_node g i) as [n|]; cbn [bind]; [|reflexivity].
  change (g_output (with_state g s)) with (g_output g). destruct (n_compute _ _ _ _ _ _ _) as [[[[n' st] out] c']|]; cbn [bind]; [|reflexivity].
  destruct st; cbn [bind]; try reflexivity;
    exact (IH (with_output (with_nodes g (set_nth (g_nodes g) i n')) out) c' ((i, out) :: sc)).
Qed.

Lemma state_frames fuel order s frames : forall (g : graph) c,
  execute_frames ops srt fuel (with_state g s) order frames c =
  match execute_frames ops srt fuel g order frames c with
  | Some (Ok (g', c', e)) => Some (Ok (with_state g' s, c', e))
  | o => o
  end.
Proof.
  induction frames as [|fr frames IH]; intros g c; cbn [execute_frames]; [reflexivity|].
  unfold execute_frame. rewrite state_hash. destruct (hash_phase ops srt g fr (rev order) []) as [hc|]; [|reflexivity].
  destruct order as [|start order]; [reflexivity|]. rewrite state_validate.
  destruct (validate_loop ops srt fuel g hc _ _) as [[v|]|]; try reflexivity. rewrite state_compute.
  destruct (compute_phase ops srt g fr (rev v) c []) as [[[g' c'] [e|]]|]; try reflexivity. apply IH.
Qed.

Theorem state_execute fuel (g : graph) s id frames w :
  same_outcome (fun r1 r2 => let '(g1, w1, st1) := r1 in let '(g2, w2, st2) := r2 in
      same_but_state g1 g2 /\ (st1 = ExSuccess -> g1 = g2) /\ w1 = w2 /\ st1 = st2)
    (execute ops srt fuel g id frames w) (execute ops srt fuel (with_state g s) id frames w).
Proof.
  unfold execute. change (find_index (with_state g s) id) with (find_index g id).
  destruct (find_index g id) as [start|]; [|repeat split; discriminate].
  change (g_graph (with_state g s)) with (g_graph g). destruct (all_upstream srt (g_graph g) start) as [l|]; [|exact I].
  rewrite state_frames. destruct (execute_frames ops srt fuel g _ _ _) as [[[[g' c'] [e|]]|]|]; cbn [same_outcome]; try exact I.
  - split; [reflexivity|]. split; [destruct e; discriminate|auto].
  - split; [reflexivity|]. auto.
Qed.

(* ------------------------------ connections ------------------------------ *)

(** Plugging a source into a free input, and unplugging it again. *)
Theorem connect_undone (g g1 : graph) src dst slot a b : wf_graph ops g ->
  find_index g src = Some a -> find_index g dst = Some b ->
  (forall m, ~ feeds (g_graph g) m b slot) -> ~ link (g_graph g) a b ->
  connect g src dst slot = Ok g1 -> disconnect_input g1 dst slot = with_state g GsDirty.
Proof.
  intros WG FA FB NF NL H.
  assert (TW : forall l, incl l (sg_edges (g_graph g)) -> take_while (fun e => e_slot e =? slot) (filter (fun e => Nat.eqb (e_dst e) b) l) = []).
  { intros l IN. induction l as [|e l IH]; cbn [filter]; [reflexivity|].
    assert (IN' : incl l (sg_edges (g_graph g))) by (intros y Y; apply IN; now right).
    destruct (Nat.eqb_spec (e_dst e) b) as [E|E]; [|now apply IH]. cbn [take_while].
    destruct (Z.eqb_spec (e_slot e) slot) as [S|S]; [|reflexivity]. exfalso. apply (NF (e_src e)). unfold feeds.
    assert (Edge (e_src e) b slot = e) as -> by (destruct e; cbn in *; congruence). apply IN. now left. }
  unfold connect in H. rewrite FA, FB in H.
  assert (D0 : disconnect_input g dst slot = g).
  { unfold disconnect_input, sg_incoming. rewrite FB. destruct (sg_live (g_graph g) b); [|reflexivity]. now rewrite TW by apply incl_refl. }
  rewrite D0 in H. unfold sg_update_edge in H.
  destruct (if sg_live (g_graph g) a then overwrite_edge a b slot (sg_edges (g_graph g)) else None) as [l|] eqn:EO.
  { destruct (sg_live (g_graph g) a); [|discriminate]. destruct (overwrite_spec _ _ _ _ _ EO) as (l1 & e & l2 & E1 & _ & P). exfalso. apply NL.
    exists (e_slot e). unfold feeds. rewrite E1. apply in_app_iff. right. left. destruct e as [ea eb es]. injection P as <- <-. reflexivity. }
  destruct (sg_live (g_graph g) a) eqn:LA; [|discriminate]. destruct (sg_live (g_graph g) b) eqn:LB; [|discriminate].
  cbn [andb bind] in H. injection H as <-.
  unfold disconnect_input. change (find_index (with_state (with_graph g _) GsDirty) dst) with (find_index g dst). rewrite FB.
  unfold sg_incoming. cbn [with_state with_graph g_graph]. unfold sg_live in *. cbn [sg_nodes sg_edges filter e_dst]. rewrite LB, Nat.eqb_refl.
  cbn [take_while e_slot]. rewrite Z.eqb_refl, TW by apply incl_refl. unfold remove_edges. cbn [fold_left e_src e_dst with_state with_graph g_graph sg_edges sg_nodes sg_free].
  unfold sg_live. cbn [sg_nodes]. rewrite LA. cbn [remove_first_edge]. unfold is_edge. cbn [e_src e_dst]. rewrite !Nat.eqb_refl. cbn [andb].
  unfold with_state, with_graph. cbn [g_nodes g_ids g_graph g_output g_state g_status sg_nodes sg_free sg_edges]. f_equal. now destruct (g_graph g).
Qed.

(* ------------------------------ histories ------------------------------ *)

Lemma call_configured (g g' : graph) c call c' : wf_graph ops g -> calls ops srt g c call g' c' ->
  match call with GAdd n => configured n | _ => True end ->
  Forall configured (g_nodes g) -> Forall configured (g_nodes g').
Proof.
  intros WG H CN F. destruct call as [n|i|s t k|t k|i w|i fs]; cbn [calls] in H.
  - destruct H as (_ & i & H). unfold add_node in H. destruct (sg_add_node (g_graph g)). destruct (Nat.eqb _ _); [|discriminate]. injection H as <- _.
    cbn [g_nodes]. apply Forall_app. auto.
  - destruct H as (_ & ->). unfold remove_node. destruct (find_index g i); [|exact F]. destruct (sg_remove_node _ _) as (sg & []); exact F.
  - destruct H as (_ & H). unfold connect in H. destruct (find_index g s) as [a|]; [|injection H as <-; exact F].
    destruct (find_index g t) as [b|] eqn:Ft; [|injection H as <-; exact F].
    destruct (disconnect_spec g t k b (wg_stable _ _ WG) Ft) as (_ & O & _).
    destruct (sg_update_edge _ _ _ _); [|discriminate]. injection H as <-. cbn [with_state with_graph g_nodes].
    assert (E : g_nodes (disconnect_input g t k) = g_nodes g) by apply O. now rewrite E.
  - destruct H as (_ & ->). destruct (find_index g t) as [b|] eqn:Ft; [|unfold disconnect_input; now rewrite Ft].
    destruct (disconnect_spec g t k b (wg_stable _ _ WG) Ft) as (_ & O & _).
    assert (E : g_nodes (disconnect_input g t k) = g_nodes g) by apply O. now rewrite E.
  - destruct H as (_ & H). apply write_node_inv in H. destruct H as [(_ & ->)|(j & n & _ & E & ->)]; [exact F|].
    cbn [with_state with_nodes g_nodes]. apply Forall_forall. intros m M. apply In_nth_error in M. destruct M as (q & M).
    destruct (Nat.eq_dec j q) as [<-|NE].
    + rewrite nth_set in M by (apply nth_error_Some; congruence). injection M as <-.
      destruct (proj1 (Forall_forall _ _) F n (nth_error_In _ _ E)) as (ws & W). exists (ws ++ [w])%list.
      rewrite fold_left_app, write_type, write_id. cbn [fold_left].
      apply block_ext. intros k name. rewrite !write_field, writes_type, W. reflexivity.
    + rewrite nth_set_other in M by exact NE. exact (proj1 (Forall_forall _ _) F m (nth_error_In _ _ M)).
  - destruct H as (fuel & st & H).
    assert (X : map (fun n => (nd_id n, nd_type n, nd_attrs n)) (g_nodes g') = map (fun n => (nd_id n, nd_type n, nd_attrs n)) (g_nodes g)).
    { refine (execute_keys ops srt _ _ _ _ _ _ _ _ _ _ H). intros m fr mode ins out c1 m' st' out' c1' Hm. apply compute_keeps in Hm.
      destruct Hm as (-> & -> & ->). reflexivity. }
    clear - X F. revert X F. generalize (g_nodes g) as l. induction (g_nodes g') as [|n' l' IH]; intros [|n l] X F; try discriminate; constructor.
    + injection X as X1 X2 X3 _. apply Forall_inv in F. destruct F as (ws & W). exists ws. now rewrite X1, X2, X3.
    + injection X as _ _ _ X. apply (IH l X). now apply Forall_inv_tail in F.
Qed.

Theorem history_configured s0 c0 h g c : history ops srt s0 c0 h g c -> from_scratch h -> Forall configured (g_nodes g).
Proof.
  intros H. induction H as [|h g c call g' c' H IH HC]; intro FS; [constructor|].
  destruct (history_wf ops srt (node_keeps_id p x) _ _ _ _ _ H) as (WG & _).
  refine (call_configured _ _ _ _ _ WG HC _ (IH _)).
  - destruct call as [n| | | | |]; try exact I. destruct (FS n) as (t & id & ->); [apply in_app_iff; right; now left|].
    exists []. reflexivity.
  - intros n N. apply FS, in_app_iff. now left.
Qed.

Hypothesis HS : sorts srt.

Lemma part_settings U (g1 g2 : graph) : Forall configured (g_nodes g1) -> Forall configured (g_nodes g2) ->
  same_part same_readings U g1 g2 -> same_part same_settings U g1 g2.
Proof.
  intros F1 F2 [A B C E]. constructor; auto. intros id UI. destruct (A id UI) as (n1 & n2 & H1 & H2 & R).
  exists n1, n2. split; [exact H1|]. split; [exact H2|]. apply readings_settings; [| |exact R].
  - destruct H1 as (i & _ & _ & H1). exact (proj1 (Forall_forall _ _) F1 _ (nth_error_In _ _ H1)).
  - destruct H2 as (i & _ & _ & H2). exact (proj1 (Forall_forall _ _) F2 _ (nth_error_In _ _ H2)).
Qed.

Theorem same_readings_result s0 c0 s0' c0' h1 h2 g1 g2 c1 c2 U id frames w fuel :
  history ops srt s0 c0 h1 g1 c1 -> history ops srt s0' c0' h2 g2 c2 -> from_scratch h1 -> from_scratch h2 ->
  NoDup (added ops h1) -> NoDup (added ops h2) ->
  same_part same_readings U g1 g2 -> g_output g1 = g_output g2 -> U id ->
  same_outcome (fun r1 r2 => let '(g1', w1, st1) := r1 in let '(g2', w2, st2) := r2 in
      same_part same_readings U g1' g2' /\ g_output g1' = g_output g2' /\ w1 = w2 /\ st1 = st2)
    (execute ops srt fuel g1 id frames w) (execute ops srt fuel g2 id frames w).
Proof.
  intros H1 H2 S1 S2 N1 N2 SP O UI.
  pose proof (same_result p x srt HS _ _ _ _ _ _ _ _ _ _ U id frames w fuel H1 H2 N1 N2
    (part_settings U g1 g2 (history_configured _ _ _ _ _ H1 S1) (history_configured _ _ _ _ _ H2 S2) SP) O UI) as X.
  destruct (execute ops srt fuel g1 id frames w) as [[[[g1' w1] st1]|]|], (execute ops srt fuel g2 id frames w) as [[[[g2' w2] st2]|]|]; try exact X.
  cbn [same_outcome] in *. destruct X as (X & Y). split; [|exact Y]. revert X. apply same_part_weaken. exact settings_readings.
Qed.
End Graph.

Theorem history_connect_undone : forall D p (x : externals D) srt s0 c0 h (g g1 : graph node stream) c src dst slot a b,
  history (node_ops p x) srt s0 c0 h g c ->
  find_index g src = Some a -> find_index g dst = Some b ->
  (forall m, ~ feeds (g_graph g) m b slot) -> ~ link (g_graph g) a b ->
  connect g src dst slot = Ok g1 -> disconnect_input g1 dst slot = with_state g GsDirty.
Proof.
  intros D p x srt s0 c0 h g g1 c src dst slot a b H. apply (connect_undone p x).
  exact (proj1 (history_wf (node_ops p x) srt (node_keeps_id p x) _ _ _ _ _ H)).
Qed.

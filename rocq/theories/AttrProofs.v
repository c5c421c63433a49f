(** Attribute access: proofs. *)
From Coq Require String.
Import String.StringSyntax.
From Coq Require Import Floats.SpecFloat.
From Verif Require Import Machine AttrModel AttrSpec GraphModel GraphSpec GraphHistory GraphHistory2 HashModel StreamModel NodeModel.
Local Open Scope string_scope.

Lemma seqb_eq a b : seqb a b = true <-> a = b.
Proof. apply String.eqb_eq. Qed.
Lemma seqb_refl a : seqb a a = true.
Proof. now apply seqb_eq. Qed.
Lemma seqb_neq a b : seqb a b = false <-> a <> b.
Proof. apply String.eqb_neq. Qed.

Lemma mem_in n l : existsb (seqb n) l = true <-> In n l.
Proof.
  rewrite existsb_exists. split.
  - intros (m & Hm & E). apply seqb_eq in E. now subst.
  - intro H. exists n. split; [exact H|apply seqb_refl].
Qed.
Lemma incl_check (l l' : list string) : forallb (fun n => existsb (seqb n) l') l = true -> incl l l'.
Proof. intros H n Hn. rewrite forallb_forall in H. apply mem_in. now apply H. Qed.

Lemma arm_same_in l n : In n l -> arm (same l) n = Some n.
Proof.
  intro H. unfold same. induction l as [|m l IH]; [destruct H|]. cbn [map arm].
  destruct (seqb n m) eqn:E; [apply seqb_eq in E; now subst|].
  apply IH. destruct H as [->|H]; [rewrite seqb_refl in E; discriminate|exact H].
Qed.
Lemma arm_same_out l n : ~ In n l -> arm (same l) n = None.
Proof.
  intro H. unfold same. induction l as [|m l IH]; [reflexivity|]. cbn [map arm].
  destruct (seqb n m) eqn:E; [apply seqb_eq in E; subst; elim H; now left|].
  apply IH. intro K. apply H. now right.
Qed.

(** Names of one kind, by type. *)
Definition names_of (t : node_type) (k : kind) : list string :=
  map snd (filter (fun a => kind_eqb (fst a) k) (attributes t)).

Lemma kind_eqb_eq a b : kind_eqb a b = true <-> a = b.
Proof. destruct a, b; cbn; split; intro H; try reflexivity; discriminate. Qed.

Lemma names_of_in t k n : In n (names_of t k) <-> has_attr t k n.
Proof.
  unfold names_of, has_attr. rewrite in_map_iff. split.
  - intros ([k' n'] & E & H). cbn in E. subst n'. apply filter_In in H. destruct H as [H K].
    cbn in K. apply kind_eqb_eq in K. now subst.
  - intro H. exists (k, n). split; [reflexivity|]. apply filter_In. split; [exact H|].
    cbn. now apply kind_eqb_eq.
Qed.

Lemma is_attr_spec t k n : is_attr t k n = true <-> has_attr t k n.
Proof.
  unfold is_attr, has_attr. rewrite existsb_exists. split.
  - intros ([k' n'] & H & E). cbn in E. apply andb_prop in E. destruct E as [E1 E2].
    apply kind_eqb_eq in E1. apply seqb_eq in E2. now subst.
  - intro H. exists (k, n). split; [exact H|]. cbn. rewrite seqb_refl, andb_true_r. now apply kind_eqb_eq.
Qed.

(** The match arms of the source implement the attribute table. *)
Record arms_ok (t : node_type) : Prop := {
  ao_get_i32 : exists l, a_get_i32 (arms_of t) = same l /\ forall n, In n l <-> has_attr t KI32 n;
  ao_set_i32 : exists l, a_set_i32 (arms_of t) = same l /\ forall n, In n l <-> has_attr t KI32 n;
  ao_get_f32 : exists l, a_get_f32 (arms_of t) = same l /\ forall n, In n l <-> has_attr t KF32 n;
  ao_set_f32 : exists l, a_set_f32 (arms_of t) = same l /\ forall n, In n l <-> has_attr t KF32 n;
  ao_get_str : exists l, a_get_str (arms_of t) = same l /\ forall n, In n l <-> has_attr t KStr n;
  ao_set_str : exists l, a_set_str (arms_of t) = same l /\ forall n, In n l <-> has_attr t KStr n;
  ao_exists : forall n, attr_exists (arms_of t) n = true <-> exists k, has_attr t k n
}.

Lemma same_names l t k :
  forallb (fun n => existsb (seqb n) (names_of t k)) l = true ->
  forallb (fun n => existsb (seqb n) l) (names_of t k) = true ->
  forall n, In n l <-> has_attr t k n.
Proof.
  intros H K n. rewrite <- names_of_in. split; [apply incl_check; exact H|apply incl_check; exact K].
Qed.

Lemma arms_correct t : arms_ok t.
Proof.
  constructor;
    try (destruct t; (eexists; split; [reflexivity|apply same_names; vm_compute; reflexivity])).
  intro n. unfold attr_exists.
  set (all := names_of t KI32 ++ names_of t KF32 ++ names_of t KStr).
  assert (E : existsb (seqb n) (a_exists (arms_of t)) = true <-> In n all).
  { rewrite mem_in. split; apply incl_check; unfold all; destruct t; vm_compute; reflexivity. }
  rewrite E. unfold all. rewrite !in_app_iff, !names_of_in. split.
  - intros [H|[H|H]]; eauto.
  - intros [[] H]; auto.
Qed.

Lemma exists_false t n : (forall k, ~ has_attr t k n) -> attr_exists (arms_of t) n = false.
Proof.
  intro H. destruct (attr_exists (arms_of t) n) eqn:E; [|reflexivity].
  apply (ao_exists t (arms_correct t)) in E. destruct E as [k Hk]. now elim (H k).
Qed.

Ltac arm_of t F :=
  let l := fresh "l" in let E := fresh "E" in let Hl := fresh "Hl" in
  destruct (F t (arms_correct t)) as (l & E & Hl).

Lemma has_attr_dec t k n : {has_attr t k n} + {~ has_attr t k n}.
Proof.
  destruct (is_attr t k n) eqn:E; [left; now apply is_attr_spec|right].
  intro H. apply is_attr_spec in H. congruence.
Qed.

(** Reading an attribute the type has is reading the field. *)
Lemma get_has n k name : has_attr (nd_type n) k name ->
  get_value k name n = match k with
                       | KI32 => VI (b_i32 (nd_attrs n) name)
                       | KF32 => VF (b_f32 (nd_attrs n) name)
                       | KStr => VS (b_str (nd_attrs n) name)
                       end.
Proof.
  intro H. assert (X : attr_exists (arms_of (nd_type n)) name = true)
    by (apply (ao_exists _ (arms_correct _)); eauto).
  destruct k; cbn [get_value]; unfold node_get_i32, node_get_f32, node_get_str; rewrite X; f_equal;
    unfold blk_get_i32, blk_get_f32, blk_get_str.
  - arm_of (nd_type n) ao_get_i32. rewrite E, arm_same_in; [reflexivity|now apply Hl].
  - arm_of (nd_type n) ao_get_f32. rewrite E, arm_same_in; [reflexivity|now apply Hl].
  - arm_of (nd_type n) ao_get_str. rewrite E, arm_same_in; [reflexivity|now apply Hl].
Qed.

Lemma get_lacks n k name : ~ has_attr (nd_type n) k name -> get_value k name n = zero_value k.
Proof.
  intro H.
  destruct k; cbn [get_value zero_value]; unfold node_get_i32, node_get_f32, node_get_str;
    destruct (attr_exists (arms_of (nd_type n)) name); try reflexivity; f_equal;
    unfold blk_get_i32, blk_get_f32, blk_get_str.
  - arm_of (nd_type n) ao_get_i32. rewrite E, arm_same_out; [reflexivity|now rewrite Hl].
  - arm_of (nd_type n) ao_get_f32. rewrite E, arm_same_out; [reflexivity|now rewrite Hl].
  - arm_of (nd_type n) ao_get_str. rewrite E, arm_same_out; [reflexivity|now rewrite Hl].
Qed.

Definition put (b : block) (w : awrite) : block :=
  match w with WI32 k v => put_i32 b k v | WF32 k v => put_f32 b k v | WStr k v => put_str b k v end.

Lemma write_has n w : has_attr (nd_type n) (w_kind w) (w_name w) ->
  node_write n w = with_attrs n (put (nd_attrs n) w).
Proof.
  intro H. assert (X : attr_exists (arms_of (nd_type n)) (w_name w) = true)
    by (apply (ao_exists _ (arms_correct _)); eauto).
  destruct w as [k v|k v|k v]; cbn [w_kind w_name node_write put] in *;
    unfold node_set_i32, node_set_f32, node_set_str; rewrite X; f_equal;
    unfold blk_set_i32, blk_set_f32, blk_set_str.
  - arm_of (nd_type n) ao_set_i32. rewrite E, arm_same_in; [reflexivity|now apply Hl].
  - arm_of (nd_type n) ao_set_f32. rewrite E, arm_same_in; [reflexivity|now apply Hl].
  - arm_of (nd_type n) ao_set_str. rewrite E, arm_same_in; [reflexivity|now apply Hl].
Qed.

Lemma with_attrs_same n : with_attrs n (nd_attrs n) = n.
Proof. destruct n; reflexivity. Qed.

Lemma write_lacks n w : ~ has_attr (nd_type n) (w_kind w) (w_name w) -> node_write n w = n.
Proof.
  intro H.
  destruct w as [k v|k v|k v]; cbn [w_kind w_name node_write] in *;
    unfold node_set_i32, node_set_f32, node_set_str;
    destruct (attr_exists (arms_of (nd_type n)) k); try reflexivity;
    unfold blk_set_i32, blk_set_f32, blk_set_str.
  - arm_of (nd_type n) ao_set_i32. rewrite E, arm_same_out; [apply with_attrs_same|now rewrite Hl].
  - arm_of (nd_type n) ao_set_f32. rewrite E, arm_same_out; [apply with_attrs_same|now rewrite Hl].
  - arm_of (nd_type n) ao_set_str. rewrite E, arm_same_out; [apply with_attrs_same|now rewrite Hl].
Qed.

Lemma write_type n w : nd_type (node_write n w) = nd_type n.
Proof.
  destruct (has_attr_dec (nd_type n) (w_kind w) (w_name w)) as [H|H];
    [now rewrite (write_has n w H)|now rewrite (write_lacks n w H)].
Qed.
Lemma write_id n w : nd_id (node_write n w) = nd_id n.
Proof.
  destruct (has_attr_dec (nd_type n) (w_kind w) (w_name w)) as [H|H];
    [now rewrite (write_has n w H)|now rewrite (write_lacks n w H)].
Qed.
Lemma write_status n w : nd_status (node_write n w) = nd_status n.
Proof.
  destruct (has_attr_dec (nd_type n) (w_kind w) (w_name w)) as [H|H];
    [now rewrite (write_has n w H)|now rewrite (write_lacks n w H)].
Qed.

(** What a write does to any attribute. *)
Lemma get_write n w k name :
  get_value k name (node_write n w) =
  if kind_eqb (w_kind w) k && seqb (w_name w) name && is_attr (nd_type n) k name
  then w_value w else get_value k name n.
Proof.
  destruct (has_attr_dec (nd_type n) (w_kind w) (w_name w)) as [H|H].
  - rewrite (write_has n w H).
    destruct (has_attr_dec (nd_type n) k name) as [K|K].
    + assert (R : is_attr (nd_type n) k name = true) by now apply is_attr_spec.
      rewrite R, andb_true_r, !get_has by exact K.
      destruct w as [m v|m v|m v], k; cbn [w_kind w_name w_value kind_eqb andb with_attrs nd_attrs put
        put_i32 put_f32 put_str b_i32 b_f32 b_str]; try reflexivity;
        unfold upd; destruct (seqb name m) eqn:E;
        try (apply seqb_eq in E; subst m; now rewrite seqb_refl);
        (apply seqb_neq in E; assert (seqb m name = false) as -> by (apply seqb_neq; congruence); reflexivity).
    + assert (R : is_attr (nd_type n) k name = false).
      { destruct (is_attr (nd_type n) k name) eqn:E; [|reflexivity]. apply is_attr_spec in E. now elim K. }
      rewrite R, andb_false_r. rewrite !get_lacks; [reflexivity|exact K|exact K].
  - rewrite (write_lacks n w H).
    destruct (kind_eqb (w_kind w) k) eqn:E1; [|reflexivity].
    destruct (seqb (w_name w) name) eqn:E2; [|reflexivity].
    apply kind_eqb_eq in E1. apply seqb_eq in E2. subst k name. cbn [andb].
    destruct (is_attr (nd_type n) (w_kind w) (w_name w)) eqn:E3; [|reflexivity].
    apply is_attr_spec in E3. now elim H.
Qed.

Lemma write_read_back n w : has_attr (nd_type n) (w_kind w) (w_name w) ->
  get_value (w_kind w) (w_name w) (node_write n w) = w_value w.
Proof.
  intro H. rewrite get_write. assert (kind_eqb (w_kind w) (w_kind w) = true) as -> by now apply kind_eqb_eq.
  rewrite seqb_refl. apply is_attr_spec in H. now rewrite H.
Qed.

Lemma write_no_leak n w k name : (k, name) <> (w_kind w, w_name w) ->
  get_value k name (node_write n w) = get_value k name n.
Proof.
  intro H. rewrite get_write.
  destruct (kind_eqb (w_kind w) k) eqn:E1; [|reflexivity].
  destruct (seqb (w_name w) name) eqn:E2; [|reflexivity].
  apply kind_eqb_eq in E1. apply seqb_eq in E2. subst. now elim H.
Qed.

Lemma attr_exists_table n name : node_attr_exists n name = true <-> exists k, has_attr (nd_type n) k name.
Proof. apply (ao_exists _ (arms_correct _)). Qed.

(* ------------------------------------------------------------------ *)
(** * Histories *)
Section Histories.
Context {D : Type}.
Variable p : profile.
Variable x : externals D.
Variable srt : edge_sort.
Notation ops := (node_ops p x).

Lemma compute_keeps n fr mode ins out c n' st out' c' :
  node_compute p x n fr mode ins out c = Ok (n', st, out', c') ->
  nd_id n' = nd_id n /\ nd_type n' = nd_type n /\ nd_attrs n' = nd_attrs n.
Proof.
  unfold node_compute. destruct (cache_hash _ _ _ _ _ _ _) as [h|]; [|discriminate]. cbn [bind].
  destruct (compute_op _ _ _ _ _ _ _ _ _ _) as [[[s o] w]|]; [|discriminate]. cbn [bind].
  intros [= <- _ _ _]. now cbn.
Qed.

Lemma node_keeps_id : keeps_id ops.
Proof.
  split.
  - intros n w. apply write_id.
  - intros n fr mode ins out c n' st out' c' H. apply compute_keeps in H. apply H.
Qed.

Definition reads (k : kind) (name : string) (n : node) : option (node_type * value) :=
  Some (nd_type n, get_value k name n).

Lemma reads_attrs k name n n' : nd_type n' = nd_type n -> nd_attrs n' = nd_attrs n ->
  reads k name n' = reads k name n.
Proof.
  destruct n as [t i s a], n' as [t' i' s' a']. cbn. intros -> ->. destruct k; reflexivity.
Qed.

Lemma read_none {A} (g : graph node stream) id (f : node -> A) :
  read_node g id (fun n => Some (f n)) None = Ok None -> find_index g id = None.
Proof.
  unfold read_node. destruct (find_index g id); [|reflexivity].
  destruct (nth_error _ _); discriminate.
Qed.

Lemma read_some {A} (g : graph node stream) id (f : node -> A) v :
  read_node g id (fun n => Some (f n)) None = Ok (Some v) ->
  exists i n, find_index g id = Some i /\ nth_error (g_nodes g) i = Some n /\ v = f n.
Proof.
  unfold read_node. destruct (find_index g id) as [i|]; [|discriminate].
  destruct (nth_error _ _) as [n|] eqn:E; [|discriminate]. intros [= <-]. eauto.
Qed.

Lemma find_in (g : graph node stream) id i : find_index g id = Some i -> In id (g_ids g).
Proof. intro H. apply position_lt in H. destruct H as [H _]. now apply nth_error_In in H. Qed.

Lemma attr_call g c call g' c' id k name a :
  wf_graph ops g -> calls ops srt g c call g' c' ->
  read_node g id (reads k name) None = Ok a -> read_node g' id (reads k name) None = Ok (attr_step id k name a call).
Proof.
  intros WG HC IH. destruct a as [[t v]|].
  - destruct (read_some _ _ _ _ IH) as (i & n & Fi & En & Ev). injection Ev as Et Ev.
    pose proof (find_in _ _ _ Fi) as HI.
    destruct call as [m|j|s d q|d q|j w|j fs]; cbn [attr_step];
      try (rewrite (structural_read ops srt _ _ _ _ _ _ _ _ WG HC I HI); exact IH).
    + cbn [calls] in HC. destruct HC as [_ HC].
      destruct (j =? id) eqn:Ej.
      * apply Z.eqb_eq in Ej. subst j. rewrite (write_read_same ops _ _ _ _ _ _ HC).
        unfold read_node. rewrite Fi, En. unfold reads. cbn [n_write node_ops].
        rewrite write_type, get_write. subst t v. cbn [andb].
        destruct (_ && _ && _); reflexivity.
      * apply Z.eqb_neq in Ej. cbn [andb].
        rewrite (write_read_other ops _ _ _ _ _ _ _ HC); [exact IH|congruence].
    + cbn [calls] in HC. destruct HC as (fuel & st & HC).
      assert (X : map (reads k name) (g_nodes g') = map (reads k name) (g_nodes g)).
      { refine (execute_keys ops srt (reads k name) _ _ _ _ _ _ _ _ _ HC).
        intros m fr mode ins out c1 m' st' out' c1' Hm. apply compute_keeps in Hm.
        now apply reads_attrs. }
      destruct (execute_result ops srt node_keeps_id _ _ _ _ _ _ _ _ HC) as (_ & E2 & _).
      unfold read_node, find_index. rewrite E2. fold (find_index g id). rewrite Fi.
      assert (Y : nth_error (map (reads k name) (g_nodes g')) i = Some (reads k name n)).
      { rewrite X, nth_error_map, En. reflexivity. }
      rewrite nth_error_map in Y. destruct (nth_error (g_nodes g') i) as [n'|]; [|discriminate].
      injection Y as Y1 Y2. subst t v. unfold reads. now rewrite Y1, Y2.
  - pose proof (read_none _ _ _ IH) as Fi.
    destruct (calls_wf ops srt node_keeps_id _ _ _ _ _ WG HC) as (WG' & EI' & _).
    unfold find_index in Fi. pose proof (proj1 (position_none _ _) Fi) as NI.
    destruct call as [m|j|s d q|d q|j w|j fs]; cbn [attr_step].
    + cbn [calls] in HC. destruct HC as (_ & i & HC). unfold add_node in HC.
      destruct (sg_add_node (g_graph g)) as [sg nd]. destruct (Nat.eqb _ _); [|discriminate].
      injection HC as <- _. unfold read_node, find_index. cbn [g_ids g_nodes n_id node_ops].
      assert (L : length (g_ids g) = length (g_nodes g)) by (rewrite (wg_ids _ _ WG); apply map_length).
      destruct (nd_id m =? id) eqn:E.
      * apply Z.eqb_eq in E. 
        assert (P : position id (g_ids g ++ [nd_id m]) = Some (length (g_ids g))).
        { clear - NI E. revert NI. induction (g_ids g) as [|a l IH]; intro NI; cbn [app position].
          - rewrite E, Z.eqb_refl. reflexivity.
          - destruct (a =? id) eqn:Ea; [apply Z.eqb_eq in Ea; subst; elim NI; now left|].
            rewrite IH; [reflexivity|]. intro K. apply NI. now right. }
        rewrite P, nth_error_app2 by lia. rewrite L, Nat.sub_diag. reflexivity.
      * apply Z.eqb_neq in E. 
        assert (P : position id (g_ids g ++ [nd_id m]) = None).
        { apply position_none. rewrite in_app_iff. intros [K|[K|[]]]; [now apply NI|congruence]. }
        now rewrite P.
    + all: unfold read_node, find_index; cbn [added] in EI'; rewrite app_nil_r in EI'; rewrite EI', Fi; reflexivity.
    + all: unfold read_node, find_index; cbn [added] in EI'; rewrite app_nil_r in EI'; rewrite EI', Fi; reflexivity.
    + all: unfold read_node, find_index; cbn [added] in EI'; rewrite app_nil_r in EI'; rewrite EI', Fi; reflexivity.
    + all: unfold read_node, find_index; cbn [added] in EI'; rewrite app_nil_r in EI'; rewrite EI', Fi; reflexivity.
    + all: unfold read_node, find_index; cbn [added] in EI'; rewrite app_nil_r in EI'; rewrite EI', Fi; reflexivity.
Qed.

Theorem attr_history s0 c0 h g c id k name :
  history ops srt s0 c0 h g c ->
  read_node g id (reads k name) None = Ok (attr_after h id k name).
Proof.
  intro H. induction H as [|h g c call g' c' H IH HC]; [reflexivity|].
  unfold attr_after. rewrite fold_left_app. cbn [fold_left].
  destruct (history_wf ops srt node_keeps_id _ _ _ _ _ H) as (WG & EI).
  exact (attr_call _ _ _ _ _ _ _ _ _ WG HC IH).
Qed.

(** The value a caller reads, with the zero value for unknown nodes. *)
Theorem attr_history_value s0 c0 h g c id k name :
  history ops srt s0 c0 h g c ->
  read_node g id (get_value k name) (zero_value k) =
  Ok (match attr_after h id k name with Some (_, v) => v | None => zero_value k end).
Proof.
  intro H. pose proof (attr_history s0 c0 h g c id k name H) as R. unfold read_node in *.
  destruct (find_index g id); [|injection R as <-; reflexivity].
  destruct (nth_error _ _); [|discriminate]. injection R as <-. reflexivity.
Qed.

(** Calls naming an unknown node. *)
Lemma unknown_write (g : graph node stream) id w : find_index g id = None -> write_node ops g id w = Ok g.
Proof. intro H. unfold write_node. now rewrite H. Qed.
Lemma unknown_read {A} (g : graph node stream) id (f : node -> A) d :
  find_index g id = None -> read_node g id f d = Ok d.
Proof. intro H. unfold read_node. now rewrite H. Qed.
Lemma unknown_remove (g : graph node stream) id : find_index g id = None -> remove_node g id = (g, false).
Proof. intro H. unfold remove_node. now rewrite H. Qed.
Lemma unknown_disconnect (g : graph node stream) id slot : find_index g id = None -> disconnect_input g id slot = g.
Proof. intro H. unfold disconnect_input. now rewrite H. Qed.
Lemma unknown_connect (g : graph node stream) src dst slot :
  find_index g src = None \/ find_index g dst = None -> connect g src dst slot = Ok g.
Proof.
  intro H. unfold connect. destruct (find_index g src); [|reflexivity].
  destruct (find_index g dst); [|reflexivity]. destruct H; discriminate.
Qed.
Lemma unknown_execute fuel (g : graph node stream) id frames c : find_index g id = None ->
  exists g', execute ops srt fuel g id frames c = Some (Ok (g', c, ExError)) /\ g_nodes g' = g_nodes g /\
    g_ids g' = g_ids g /\ g_graph g' = g_graph g /\ g_state g' = g_state g /\ g_status g' = ExError.
Proof. intro H. unfold execute. rewrite H. eexists. split; [reflexivity|]. cbn. auto. Qed.

Lemma not_exists_find (g : graph node stream) id : node_exists g id = false -> find_index g id = None.
Proof. unfold node_exists. now destruct (find_index g id). Qed.

Lemma unknown_node (g : graph node stream) id : node_exists g id = false ->
  (forall w, write_node ops g id w = Ok g) /\
  (forall k name, read_node g id (get_value k name) (zero_value k) = Ok (zero_value k)) /\
  remove_node g id = (g, false) /\
  (forall slot, disconnect_input g id slot = g) /\
  (forall other slot, connect g id other slot = Ok g /\ connect g other id slot = Ok g) /\
  (forall fuel frames c, exists g',
     execute ops srt fuel g id frames c = Some (Ok (g', c, ExError)) /\
     g_nodes g' = g_nodes g /\ g_ids g' = g_ids g /\ g_graph g' = g_graph g /\ g_state g' = g_state g).
Proof.
  intro H. apply not_exists_find in H.
  split; [intro; now apply unknown_write|]. split; [intros; now apply unknown_read|].
  split; [now apply unknown_remove|]. split; [intro; now apply unknown_disconnect|].
  split; [intros; split; apply unknown_connect; auto|].
  intros fuel frames c. destruct (unknown_execute fuel g id frames c H) as (g' & E & A & B & C & S & _).
  exists g'. auto.
Qed.

Lemma set_nth_same_value {A} (l : list A) i a : nth_error l i = Some a -> set_nth l i a = l.
Proof.
  revert i. induction l as [|b l IH]; intros [|i] H; cbn in *; try discriminate.
  - now injection H as ->.
  - now rewrite IH.
Qed.

Lemma unknown_write_graph (g g' : graph node stream) id i n w :
  find_index g id = Some i -> nth_error (g_nodes g) i = Some n ->
  ~ has_attr (nd_type n) (w_kind w) (w_name w) -> write_node ops g id w = Ok g' ->
  g_nodes g' = g_nodes g /\ g_graph g' = g_graph g /\ g_ids g' = g_ids g.
Proof.
  intros Fi En H E. unfold write_node in E. rewrite Fi, En in E. injection E as <-. cbn.
  rewrite (write_lacks n w H), set_nth_same_value by exact En. auto.
Qed.
End Histories.

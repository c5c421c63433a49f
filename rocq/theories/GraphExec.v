(** Proofs about graph execution (graph.rs 368-610). *)
From Coq Require Import Permutation Sorted.
From Verif Require Import Machine GraphModel GraphSpec GraphWalk.

(** Every node's inputs come later in the list. *)
Definition ordered (inputs : nat -> list nat) (order : list nat) : Prop :=
  forall l1 n l2, order = l1 ++ n :: l2 -> incl (inputs n) l2.

Lemma lookup_some : forall {A} i (m : list (nat * A)), In i (map fst m) -> exists a, lookup i m = Some a.
Proof.
  induction m as [|(j, a) m IH]; cbn; [intros []|]. intros [E|H].
  - subst. rewrite Nat.eqb_refl. eauto.
  - destruct (Nat.eqb i j); eauto.
Qed.

Lemma lookup_none : forall {A} i (m : list (nat * A)), ~ In i (map fst m) -> lookup i m = None.
Proof.
  induction m as [|(j, a) m IH]; cbn; [reflexivity|]. intros H.
  destruct (Nat.eqb_spec i j); [subst; tauto|]. apply IH. tauto.
Qed.

Lemma lookup_all_ok : forall {A} ms (m : list (nat * A)), incl ms (map fst m) ->
  exists l, lookup_all ms m = Ok l /\ Forall2 (fun i a => lookup i m = Some a) ms l.
Proof.
  induction ms as [|i ms IH]; intros m H; cbn; [eauto|].
  destruct (lookup_some i m) as (a & E); [apply H; now left|]. rewrite E.
  destruct (IH m) as (l & E1 & E2); [intros x Hx; apply H; now right|].
  rewrite E1. cbn. exists (a :: l). split; [reflexivity|]. constructor; assumption.
Qed.

Lemma lookup_all_panic : forall {A} ms (m : list (nat * A)) x, In x ms -> ~ In x (map fst m) ->
  lookup_all ms m = Panic.
Proof.
  induction ms as [|i ms IH]; intros m x; [intros []|]. intros [E|H] N; cbn.
  - subst. now rewrite lookup_none.
  - destruct (lookup i m); [|reflexivity]. now rewrite (IH m x H N).
Qed.

Lemma set_nth_length : forall {A} (l : list A) i a, length (set_nth l i a) = length l.
Proof. induction l as [|h l IH]; intros [|i] a; cbn; auto. Qed.

Lemma set_nth_same : forall {A} (l : list A) i a, (i < length l)%nat -> nth_error (set_nth l i a) i = Some a.
Proof. induction l as [|h l IH]; intros [|i] a H; cbn in *; try lia; [reflexivity|]. apply IH. lia. Qed.

Lemma set_nth_other : forall {A} (l : list A) i j a, i <> j -> nth_error (set_nth l i a) j = nth_error l j.
Proof.
  induction l as [|h l IH]; intros [|i] [|j] a H; cbn; try reflexivity; try congruence.
  apply IH. congruence.
Qed.

Lemma map_set_nth : forall {A B} (f : A -> B) l i a n,
  nth_error l i = Some n -> f a = f n -> map f (set_nth l i a) = map f l.
Proof.
  induction l as [|h l IH]; intros [|i] a n E1 E2; cbn in *; try discriminate.
  - injection E1 as ->. now rewrite E2.
  - f_equal. eapply IH; eauto.
Qed.

Lemma nodup_split_eq : forall {A} (m : A) a q p1 p2,
  NoDup (a ++ m :: q) -> a ++ m :: q = p1 ++ m :: p2 -> a = p1.
Proof.
  induction a as [|x a IH]; intros q p1 p2 ND X; destruct p1 as [|y p1]; cbn in *; [reflexivity| | |].
  - injection X as <- ->. inversion ND; subst. exfalso. apply H1. apply in_app_iff. right. now left.
  - injection X as -> X. inversion ND; subst. exfalso. apply H1. apply in_app_iff. right. now left.
  - injection X as -> X. f_equal. eapply IH; [|exact X]. now inversion ND.
Qed.

Section Exec.
Context {N St Ca F W : Type}.
Variable ops : nodeops N St Ca F W.
Variable srt : edge_sort.
Hypothesis HS : sorts srt.

Let ins (g : graph N St) : nat -> list nat := inputs_of srt (g_graph g).

(** The part of well-formedness that execution needs. *)
Definition runnable (g : graph N St) : Prop :=
  wf_stable (g_graph g) /\ length (sg_nodes (g_graph g)) = length (g_nodes g).

Lemma get_node_ok : forall g i, runnable g -> (i < node_bound (g_graph g))%nat ->
  exists n, get_node g i = Ok n /\ nth_error (g_nodes g) i = Some n.
Proof.
  intros g i (_ & HL) H. unfold get_node. pose proof (bound_le_length (g_graph g)).
  destruct (nth_error (g_nodes g) i) eqn:E; [eauto|]. apply nth_error_None in E. lia.
Qed.

Lemma get_nodes_ok : forall g is, runnable g -> (forall i, In i is -> (i < node_bound (g_graph g))%nat) ->
  exists l, get_nodes g is = Ok l /\ Forall2 (fun i n => nth_error (g_nodes g) i = Some n) is l.
Proof.
  intros g is HR. induction is as [|i is IH]; intros H; cbn; [eauto|].
  destruct (get_node_ok g i HR) as (n & E & E'); [apply H; now left|]. rewrite E. cbn.
  destruct IH as (l & E1 & E2); [intros j Hj; apply H; now right|]. rewrite E1. cbn.
  exists (n :: l). split; [reflexivity|]. constructor; assumption.
Qed.

Lemma inputs_bound : forall g, runnable g -> forall i j, In j (ins g i) -> (j < node_bound (g_graph g))%nat.
Proof.
  intros g (WF & _) i j H. apply (in_inputs srt (g_graph g) HS WF) in H.
  apply live_lt_bound, (link_live (g_graph g) WF j i). tauto.
Qed.

(* ------------------------------ hash phase ------------------------------ *)

Lemma hash_phase_ok : forall g fr, runnable g -> forall t hc,
  (forall i, In i t -> (i < node_bound (g_graph g))%nat) ->
  (forall t1 n t2, t = t1 ++ n :: t2 -> incl (ins g n) (rev t1 ++ map fst hc)) ->
  exists hc', hash_phase ops srt g fr t hc = Ok hc' /\ map fst hc' = rev t ++ map fst hc.
Proof.
  intros g fr HR. induction t as [|i t IH]; intros hc HB HO; cbn [hash_phase].
  - exists hc. split; reflexivity.
  - destruct (get_node_ok g i HR) as (n & E & _); [apply HB; now left|]. rewrite E. cbn [bind].
    unfold input_hashes. rewrite (direct_upstream_ok srt (g_graph g) HS (proj1 HR)) by (apply HB; now left).
    cbn [bind]. destruct (lookup_all_ok (ins g i) hc) as (hs & E1 & _).
    { exact (HO [] i t eq_refl). }
    unfold ins in E1. rewrite E1. cbn [bind].
    destruct (IH ((i, n_hash ops n fr hs) :: hc)) as (hc' & E2 & E3).
    + intros j Hj. apply HB. now right.
    + intros t1 m t2 ->. cbn. pose proof (HO (i :: t1) m t2 eq_refl) as H. cbn in H.
      rewrite <- app_assoc in H. exact H.
    + exists hc'. split; [exact E2|]. rewrite E3. cbn. now rewrite <- app_assoc.
Qed.

Lemma hash_phase_panic : forall g fr, runnable g -> forall t hc t1 n t2 x,
  (forall i, In i t -> (i < node_bound (g_graph g))%nat) ->
  t = t1 ++ n :: t2 -> In x (ins g n) -> ~ In x (rev t1 ++ map fst hc) ->
  hash_phase ops srt g fr t hc = Panic.
Proof.
  intros g fr HR. induction t as [|i t IH]; intros hc t1 n t2 x HB E Hx HN.
  - destruct t1; discriminate.
  - cbn [hash_phase]. destruct (get_node_ok g i HR) as (ni & E' & _); [apply HB; now left|]. rewrite E'. cbn [bind].
    unfold input_hashes. rewrite (direct_upstream_ok srt (g_graph g) HS (proj1 HR)) by (apply HB; now left).
    cbn [bind]. destruct t1 as [|a t1].
    + cbn in E, HN. injection E as <- <-. unfold ins in Hx. now rewrite (lookup_all_panic _ hc x Hx HN).
    + cbn in E. injection E as <- ->.
      destruct (lookup_all (inputs_of srt (g_graph g) i) hc); [|reflexivity]. cbn [bind].
      apply (IH _ t1 n t2 x); [|reflexivity|exact Hx|].
      * intros j Hj. apply HB. now right.
      * intros H. apply HN. cbn in *. rewrite <- app_assoc. exact H.
Qed.

Lemma ordered_rev : forall inputs order t1 n t2, ordered inputs order ->
  rev order = t1 ++ n :: t2 -> incl (inputs n) (rev t1).
Proof.
  intros inputs order t1 n t2 HO E. apply (f_equal (@rev nat)) in E.
  rewrite rev_involutive, rev_app_distr in E. cbn in E. rewrite <- app_assoc in E. exact (HO _ _ _ E).
Qed.

Lemma hash_phase_ordered : forall g fr order, runnable g ->
  (forall i, In i order -> (i < node_bound (g_graph g))%nat) -> ordered (ins g) order ->
  exists hc, hash_phase ops srt g fr (rev order) [] = Ok hc /\ map fst hc = order.
Proof.
  intros g fr order HR HB HO.
  destruct (hash_phase_ok g fr HR (rev order) []) as (hc & E1 & E2).
  - intros i Hi. apply HB, in_rev, Hi.
  - intros t1 n t2 E. cbn. rewrite app_nil_r. exact (ordered_rev _ _ _ _ _ HO E).
  - exists hc. split; [exact E1|]. rewrite E2, rev_involutive. apply app_nil_r.
Qed.

(** Exact condition for the hash phase. *)
Lemma ordered_dec : forall (inputs : nat -> list nat) order,
  ordered inputs order \/
  exists l1 n l2 x, order = l1 ++ n :: l2 /\ In x (inputs n) /\ ~ In x l2.
Proof.
  induction order as [|i order IH].
  - left. intros l1 n l2 E. destruct l1; discriminate.
  - destruct IH as [IH|(l1 & n & l2 & x & -> & H1 & H2)].
    + assert (D : incl (inputs i) order \/ exists x, In x (inputs i) /\ ~ In x order).
      { induction (inputs i) as [|x l IHl]; [left; intros y []|].
        destruct (in_dec Nat.eq_dec x order) as [Hx|Hx].
        - destruct IHl as [IHl|(y & H1 & H2)].
          + left. intros y [<-|Hy]; auto.
          + right. exists y. split; [now right|exact H2].
        - right. exists x. split; [now left|exact Hx]. }
      destruct D as [D|(x & H1 & H2)].
      * left. intros [|a l1] n l2 E; cbn in E; injection E as -> E; [subst; exact D|]. exact (IH _ _ _ E).
      * right. exists [], i, order, x. auto.
    + right. exists (i :: l1), n, l2, x. auto.
Qed.

Lemma hash_phase_unordered : forall g fr order, runnable g ->
  (forall i, In i order -> (i < node_bound (g_graph g))%nat) -> ~ ordered (ins g) order ->
  hash_phase ops srt g fr (rev order) [] = Panic.
Proof.
  intros g fr order HR HB HO. destruct (ordered_dec (ins g) order) as [H|(l1 & n & l2 & x & E & H1 & H2)];
    [contradiction|].
  apply (hash_phase_panic g fr HR (rev order) [] (rev l2) n (rev l1) x).
  - intros i Hi. apply HB, in_rev, Hi.
  - rewrite E, rev_app_distr. cbn. now rewrite <- app_assoc.
  - exact H1.
  - cbn. rewrite rev_involutive, app_nil_r. exact H2.
Qed.

(* ------------------------------ validation ------------------------------ *)

(** One iteration of the validation loop. *)
Definition validate_one (g : graph N St) (hc : list (nat * Z)) (i : nat) (mode : Z)
  : Res (list (nat * Z)) :=
  let* ms := direct_upstream srt (g_graph g) i in
  let* ns := get_nodes g ms in
  let* n := get_node g i in
  match lookup i hc with
  | None => Panic
  | Some h => let* modes := n_validate ops n mode h ns in Ok (combine ms modes)
  end.

Lemma validate_loop_step : forall f g hc i mode rest acc,
  validate_loop ops srt (S f) g hc ((i, mode) :: rest) acc =
  match validate_one g hc i mode with
  | Panic => Some Panic
  | Ok new => validate_loop ops srt f g hc (rev new ++ rest) (acc ++ new)
  end.
Proof. reflexivity. Qed.

Lemma validate_one_fst : forall g hc i mode new, runnable g -> (i < node_bound (g_graph g))%nat ->
  validate_one g hc i mode = Ok new -> forall j m, In (j, m) new -> In j (ins g i).
Proof.
  intros g hc i mode new HR HB H j m Hj. unfold validate_one in H.
  rewrite (direct_upstream_ok srt (g_graph g) HS (proj1 HR)) in H by exact HB. cbn [bind] in H.
  destruct (get_nodes _ _); [|discriminate]. cbn [bind] in H.
  destruct (get_node _ _); [|discriminate]. cbn [bind] in H.
  destruct (lookup i hc); [|discriminate].
  destruct (n_validate _ _ _ _ _); [|discriminate]. cbn [bind] in H. injection H as <-.
  apply in_combine_l in Hj. exact Hj.
Qed.

(** Running the loop on a stack prefix: a fixed number of iterations, and an
    outcome that does not depend on the rest of the stack. *)
Definition expands (g : graph N St) (hc : list (nat * Z)) (stack : list (nat * Z)) : Prop :=
  exists k r, forall rest acc fuel,
    validate_loop ops srt (k + fuel) g hc (stack ++ rest) acc =
    match r with
    | None => Some Panic
    | Some new => validate_loop ops srt fuel g hc rest (acc ++ new)
    end.

Lemma expands_app : forall g hc s, (forall p, In p s -> expands g hc [p]) -> expands g hc s.
Proof.
  intros g hc s. induction s as [|p s IH]; intros H.
  - exists O, (Some []). intros. cbn. now rewrite app_nil_r.
  - destruct (H p (or_introl eq_refl)) as (k1 & r1 & E1).
    destruct IH as (k2 & r2 & E2); [intros q Hq; apply H; now right|].
    exists (k1 + k2)%nat, (match r1 with None => None | Some a => match r2 with None => None | Some b => Some (a ++ b) end end).
    intros rest acc fuel. rewrite <- Nat.add_assoc. change ((p :: s) ++ rest) with ([p] ++ (s ++ rest)).
    rewrite E1. destruct r1 as [a|]; [|reflexivity]. rewrite E2. destruct r2 as [b|]; [|reflexivity].
    now rewrite app_assoc.
Qed.

Lemma expands_ordered : forall g hc order, runnable g ->
  (forall i, In i order -> (i < node_bound (g_graph g))%nat) ->
  ordered (ins g) order ->
  forall i mode, In i order -> expands g hc [(i, mode)].
Proof.
  intros g hc order HR HB HO.
  assert (G : forall len l2 l1 i, length l2 = len -> order = l1 ++ i :: l2 -> forall mode, expands g hc [(i, mode)]).
  { induction len as [len IH] using (well_founded_induction lt_wf).
    intros l2 l1 i HL E mode.
    assert (Bi : (i < node_bound (g_graph g))%nat) by (apply HB; rewrite E; apply in_app_iff; right; now left).
    destruct (validate_one g hc i mode) as [new|] eqn:V.
    - assert (X : expands g hc (rev new)).
      { apply expands_app. intros (j, m) Hj. apply in_rev in Hj.
        pose proof (validate_one_fst _ _ _ _ _ HR Bi V j m Hj) as Hin.
        apply (HO _ _ _ E) in Hin. apply in_split in Hin. destruct Hin as (a & b & ->).
        apply (IH (length b)) with (l2 := b) (l1 := l1 ++ i :: a); [|reflexivity|].
        - rewrite <- HL, app_length. cbn. lia.
        - rewrite E, <- app_assoc. reflexivity. }
      destruct X as (k & r & X). exists (S k), (match r with None => None | Some b => Some (new ++ b) end).
      intros rest acc fuel. cbn [Nat.add app]. rewrite validate_loop_step, V, X.
      destruct r; [|reflexivity]. now rewrite app_assoc.
    - exists 1%nat, None. intros rest acc fuel. cbn [Nat.add app]. now rewrite validate_loop_step, V. }
  intros i mode Hi. apply in_split in Hi. destruct Hi as (l1 & l2 & E). exact (G _ l2 l1 i eq_refl E mode).
Qed.

Lemma validate_terminates : forall g hc order i mode acc, runnable g ->
  (forall i, In i order -> (i < node_bound (g_graph g))%nat) ->
  ordered (ins g) order -> In i order ->
  exists k r, forall fuel, (k <= fuel)%nat -> validate_loop ops srt fuel g hc [(i, mode)] acc = Some r.
Proof.
  intros g hc order i mode acc HR HB HO Hi.
  destruct (expands_ordered g hc order HR HB HO i mode Hi) as (k & r & E).
  exists (S k), (match r with None => Panic | Some new => Ok (acc ++ new) end).
  intros fuel Hf. replace fuel with (k + S (fuel - S k))%nat by lia.
  rewrite <- (app_nil_r [(i, mode)]), E. destruct r; reflexivity.
Qed.

(* ------------------------- frame: what compute keeps ------------------------- *)

(** Execution never touches the structure, the ids or the number of nodes. *)
Definition same_shape (g g' : graph N St) : Prop :=
  g_graph g' = g_graph g /\ length (g_nodes g') = length (g_nodes g) /\ g_ids g' = g_ids g /\
  g_state g' = g_state g /\ g_status g' = g_status g.

Lemma same_shape_refl : forall g, same_shape g g.
Proof. intros. repeat split. Qed.

Lemma same_shape_trans : forall a b c, same_shape a b -> same_shape b c -> same_shape a c.
Proof. unfold same_shape. intros a b c (A & B & C & D & E) (A' & B' & C' & D' & E'). repeat split; congruence. Qed.

Lemma compute_node_shape : forall g is i fr mode c sc g' c' sc' e,
  compute_node_output ops g is i fr mode c sc = Ok (g', c', sc', e) -> same_shape g g'.
Proof.
  intros g is i fr mode c sc g' c' sc' e H. unfold compute_node_output in H.
  destruct (get_node g i) as [n|]; [|discriminate]. cbn [bind] in H.
  destruct (n_compute _ _ _ _ _ _ _) as [(((n', st), out), c1)|]; [|discriminate]. cbn [bind] in H.
  assert (S1 : same_shape g (with_output (with_nodes g (set_nth (g_nodes g) i n')) out)).
  { unfold same_shape, with_output, with_nodes. cbn. rewrite set_nth_length. repeat split. }
  destruct st; injection H as <- _ _ _; exact S1.
Qed.

Lemma compute_phase_shape : forall t g fr c sc g' c' e,
  compute_phase ops srt g fr t c sc = Ok (g', c', e) -> same_shape g g'.
Proof.
  induction t as [|(i, mode) t IH]; intros g fr c sc g' c' e H; cbn [compute_phase] in H.
  - injection H as <- _ _. apply same_shape_refl.
  - destruct (input_streams _ _ _ _) as [is|]; [|discriminate]. cbn [bind] in H.
    destruct (compute_node_output _ _ _ _ _ _ _ _) as [(((g1, c1), sc1), e1)|] eqn:E; [|discriminate].
    cbn [bind] in H. apply compute_node_shape in E. destruct e1.
    + injection H as <- _ _. exact E.
    + apply IH in H. eapply same_shape_trans; eauto.
Qed.

Lemma execute_frame_shape : forall fuel g order fr c g' c' e,
  execute_frame ops srt fuel g order fr c = Some (Ok (g', c', e)) -> same_shape g g'.
Proof.
  intros fuel g order fr c g' c' e H. unfold execute_frame in H.
  destruct (hash_phase _ _ _ _ _ _); [|discriminate]. destruct order; [discriminate|].
  destruct (validate_loop _ _ _ _ _ _ _) as [[v|]|]; try discriminate.
  injection H as H. exact (compute_phase_shape _ _ _ _ _ _ _ _ H).
Qed.

Lemma execute_frames_shape : forall fuel order frames g c g' c' e,
  execute_frames ops srt fuel g order frames c = Some (Ok (g', c', e)) -> same_shape g g'.
Proof.
  intros fuel order. induction frames as [|fr frames IH]; intros g c g' c' e H; cbn [execute_frames] in H.
  - injection H as <- _ _. apply same_shape_refl.
  - destruct (execute_frame _ _ _ _ _ _ _) as [[((g1, c1), [e1|])|]|] eqn:E; try discriminate.
    + injection H as <- _ _. exact (execute_frame_shape _ _ _ _ _ _ _ _ E).
    + apply execute_frame_shape in E. apply IH in H. eapply same_shape_trans; eauto.
Qed.

Lemma runnable_shape : forall g g', runnable g -> same_shape g g' -> runnable g'.
Proof.
  intros g g' (A & B) (E1 & E2 & _). split; [now rewrite E1|]. now rewrite E1, E2.
Qed.

(* ------------------------------ termination ------------------------------ *)

Definition finishes {A} (run : nat -> option A) : Prop :=
  exists k r, forall fuel, (k <= fuel)%nat -> run fuel = Some r.

Lemma execute_frame_finishes : forall g order fr c, runnable g ->
  (forall i, In i order -> (i < node_bound (g_graph g))%nat) ->
  finishes (fun fuel => execute_frame ops srt fuel g order fr c).
Proof.
  intros g order fr c HR HB. unfold execute_frame.
  destruct (ordered_dec (ins g) order) as [HO|HO].
  - destruct (hash_phase_ordered g fr order HR HB HO) as (hc & E & _). rewrite E.
    destruct order as [|start t]; [exists O, Panic; reflexivity|].
    destruct (validate_terminates g hc (start :: t) start mode_all [(start, mode_all)] HR HB HO (or_introl eq_refl))
      as (k & r & H).
    exists k, (match r with Panic => Panic | Ok v => compute_phase ops srt g fr (rev v) c [] end).
    intros fuel Hf. rewrite (H fuel Hf). destruct r; reflexivity.
  - exists O, Panic. intros fuel _. rewrite hash_phase_unordered; [reflexivity|exact HR|exact HB|].
    destruct HO as (l1 & n & l2 & x & E & H1 & H2). intros O. exact (H2 (O _ _ _ E _ H1)).
Qed.

Lemma execute_frames_finishes : forall order frames g c, runnable g ->
  (forall i, In i order -> (i < node_bound (g_graph g))%nat) ->
  finishes (fun fuel => execute_frames ops srt fuel g order frames c).
Proof.
  intros order. induction frames as [|fr frames IH]; intros g c HR HB; cbn [execute_frames].
  - exists O. eexists. reflexivity.
  - destruct (execute_frame_finishes g order fr c HR HB) as (k1 & r1 & E1).
    destruct r1 as [((g1, c1), [e|])|].
    + exists k1. eexists. intros fuel Hf. rewrite (E1 fuel Hf). reflexivity.
    + assert (SH : same_shape g g1) by (exact (execute_frame_shape _ _ _ _ _ _ _ _ (E1 k1 (le_n _)))).
      destruct (IH g1 c1) as (k2 & r2 & E2).
      * eapply runnable_shape; eauto.
      * destruct SH as (E & _). rewrite E. exact HB.
      * exists (Nat.max k1 k2), r2. intros fuel Hf. rewrite (E1 fuel) by lia. apply E2. lia.
    + exists k1. eexists. intros fuel Hf. rewrite (E1 fuel Hf). reflexivity.
Qed.

Lemma bfs_bounds : forall g start l, runnable g -> (start < node_bound (g_graph g))%nat ->
  bfs_result (g_graph g) start l -> forall i, In i (map fst l) -> (i < node_bound (g_graph g))%nat.
Proof.
  intros g start l (WF & _) HB R i Hi. apply (br_complete _ _ _ R) in Hi. destruct Hi as (k & H).
  destruct H as [|k n m H Hl]; [exact HB|]. apply live_lt_bound, (link_live (g_graph g) WF m n Hl).
Qed.

Theorem execute_finishes : forall g id frames c, runnable g ->
  finishes (fun fuel => execute ops srt fuel g id frames c).
Proof.
  intros g id frames c HR. unfold execute. destruct (find_index g id) as [start|].
  - destruct (Nat.lt_ge_cases start (node_bound (g_graph g))) as [HB|HB].
    + destruct (all_upstream_ok srt (g_graph g) HS (proj1 HR) start HB) as (l & E & R). rewrite E.
      destruct (execute_frames_finishes (map fst l) frames g c HR (bfs_bounds g start l HR HB R)) as (k & r & H).
      destruct r as [((g1, c1), [e|])|]; exists k; eexists; intros fuel Hf; rewrite (H fuel Hf); reflexivity.
    + rewrite all_upstream_panics by exact HB. exists O, Panic. reflexivity.
  - exists O. eexists. reflexivity.
Qed.

(** If the order is wrong every non-empty execution panics. *)
Theorem execute_unordered : forall g id start frames c l, runnable g ->
  find_index g id = Some start -> (start < node_bound (g_graph g))%nat ->
  all_upstream srt (g_graph g) start = Ok l -> ~ ordered (ins g) (map fst l) -> frames <> [] ->
  forall fuel, execute ops srt fuel g id frames c = Some Panic.
Proof.
  intros g id start frames c l HR HI HB HL HO HF fuel. unfold execute. rewrite HI, HL.
  destruct frames as [|fr frames]; [congruence|]. cbn [execute_frames]. unfold execute_frame.
  destruct (all_upstream_ok srt (g_graph g) HS (proj1 HR) start HB) as (l' & E & R).
  assert (l' = l) by congruence. subst l'.
  rewrite hash_phase_unordered; [reflexivity|exact HR| |exact HO].
  exact (bfs_bounds g start l HR HB R).
Qed.

(* ------------------------- conditions for the order ------------------------- *)

Lemma bfs_precedes : forall sg start l, bfs_result sg start l ->
  forall a b da db, is_dist sg start a da -> is_dist sg start b db -> (da < db)%nat ->
  forall l1 l2, map fst l = l1 ++ a :: l2 -> In b l2.
Proof.
  intros sg start l R a b da db Ha Hb LT l1 l2 E.
  assert (In b (map fst l)) as Hin.
  { apply in_map_iff. exists (b, db). split; [reflexivity|]. now apply (br_dist _ _ _ R). }
  rewrite E in Hin. apply in_app_iff in Hin. destruct Hin as [Hin|[Hin|Hin]]; [|subst|exact Hin].
  - exfalso. apply in_split in Hin. destruct Hin as (p & q & ->).
    assert (exists la lb, l = la ++ lb /\ map fst la = p ++ b :: q /\ map fst lb = a :: l2) as (la & lb & -> & M1 & M2).
    { apply map_eq_app in E. destruct E as (la & lb & H1 & H2 & H3). exists la, lb. auto. }
    destruct lb as [|(a', da') lb]; [discriminate|]. cbn in M2. injection M2 as -> M2.
    assert (da' = da).
    { assert (is_dist sg start a da') by (apply (br_dist _ _ _ R), in_app_iff; right; now left).
      destruct H as (U1 & U2), Ha as (V1 & V2). pose proof (U2 _ V1). pose proof (V2 _ U1). lia. }
    assert (Hbin : exists d, In (b, d) la).
    { assert (In b (map fst la)) as Hb' by (rewrite M1; apply in_app_iff; right; now left).
      apply in_map_iff in Hb'. destruct Hb' as ((b', d) & Eb & Hb'). cbn in Eb. subst. eauto. }
    destruct Hbin as (d & Hd).
    assert (d = db).
    { assert (is_dist sg start b d) by (apply (br_dist _ _ _ R), in_app_iff; now left).
      destruct H0 as (U1 & U2), Hb as (V1 & V2). pose proof (U2 _ V1). pose proof (V2 _ U1). lia. }
    subst. pose proof (br_sorted _ _ _ R) as SO. apply sorted_app_inv in SO. destruct SO as (_ & _ & SO).
    pose proof (SO (b, db) (a, da) Hd (or_introl eq_refl)) as X. unfold depth_le in X. cbn in X. lia.
  - destruct Ha as (U1 & U2), Hb as (V1 & V2). pose proof (U2 _ V1). pose proof (V2 _ U1). lia.
Qed.

Lemma bfs_dist_exists : forall sg start l m, bfs_result sg start l -> reaches sg m start ->
  exists d, is_dist sg start m d.
Proof.
  intros sg start l m R H. apply (br_complete _ _ _ R), in_map_iff in H.
  destruct H as ((x, d) & E & H). cbn in E. subst. exists d. now apply (br_dist _ _ _ R).
Qed.

Lemma reaches_link : forall sg m n start, reaches sg n start -> link sg m n -> reaches sg m start.
Proof. intros sg m n start (k & H) L. exists (S k). econstructor; eauto. Qed.

(** Strictly increasing distances are enough ... *)
Lemma dist_ordered : forall g start l, runnable g -> bfs_result (g_graph g) start l ->
  (forall m n dm dn, link (g_graph g) m n -> m <> n ->
     is_dist (g_graph g) start n dn -> is_dist (g_graph g) start m dm -> (dn < dm)%nat) ->
  ordered (ins g) (map fst l).
Proof.
  intros g start l HR R H l1 n l2 E m Hm.
  apply (in_inputs srt (g_graph g) HS (proj1 HR)) in Hm. destruct Hm as (Hl & Hne).
  assert (Rn : reaches (g_graph g) n start).
  { apply (br_complete _ _ _ R). rewrite E. apply in_app_iff. right. now left. }
  destruct (bfs_dist_exists _ _ _ _ R Rn) as (dn & Dn).
  destruct (bfs_dist_exists _ _ _ _ R (reaches_link _ _ _ _ Rn Hl)) as (dm & Dm).
  exact (bfs_precedes _ _ _ R n m dn dm Dn Dm (H _ _ _ _ Hl Hne Dn Dm) l1 l2 E).
Qed.

(** ... and a link from a nearer node is fatal. *)
Lemma shortcut_unordered : forall g start l m n dm dn, runnable g -> bfs_result (g_graph g) start l ->
  link (g_graph g) m n -> is_dist (g_graph g) start m dm -> is_dist (g_graph g) start n dn ->
  (dm < dn)%nat -> ~ ordered (ins g) (map fst l).
Proof.
  intros g start l m n dm dn HR R Hl Dm Dn LT HO.
  assert (In n (map fst l)) as Hn by (apply (br_complete _ _ _ R); exists dn; apply Dn).
  apply in_split in Hn. destruct Hn as (l1 & l2 & E).
  assert (Hne : m <> n).
  { intros ->. destruct Dm as (A & B), Dn as (A' & B'). pose proof (B _ A'). pose proof (B' _ A). lia. }
  pose proof (HO _ _ _ E m) as H. specialize (H (proj2 (in_inputs srt (g_graph g) HS (proj1 HR) n m) (conj Hl Hne))).
  assert (In m (map fst l)) as Hm by (apply (br_complete _ _ _ R); exists dm; apply Dm).
  apply in_split in Hm. destruct Hm as (p1 & p2 & E').
  pose proof (bfs_precedes _ _ _ R m n dm dn Dm Dn LT p1 p2 E') as H'.
  pose proof (br_nodup _ _ _ R) as ND. rewrite E in E', ND.
  clear - ND E' H H' Hne.
  apply in_split in H. destruct H as (q1 & q2 & ->).
  (* m occurs in l2, n before m; and n after m *)
  assert (P : l1 ++ n :: q1 = p1).
  { apply (nodup_split_eq m _ q2 _ p2); rewrite <- app_assoc; [exact ND|exact E']. }
  subst p1. rewrite E' in ND. rewrite <- app_assoc in ND. cbn in ND.
  apply NoDup_remove_2 in ND. apply ND. apply in_app_iff. right. apply in_app_iff. right. now right.
Qed.

Lemma graded_dist : forall (g : graph N St) start l lvl, bfs_result (g_graph g) start l ->
  (forall m n, reaches (g_graph g) n start -> link (g_graph g) m n -> m <> n -> lvl m = S (lvl n)) ->
  forall k m, up (g_graph g) start k m -> exists j, (j <= k)%nat /\ lvl m = (lvl start + j)%nat /\ up (g_graph g) start j m.
Proof.
  intros g start l lvl R H. induction 1 as [|k n m U IH L].
  - exists O. repeat split; [lia|lia|constructor].
  - destruct IH as (j & H1 & H2 & H3). destruct (Nat.eq_dec m n) as [->|Hne].
    + exists j. repeat split; [lia|exact H2|exact H3].
    + exists (S j). repeat split; [lia| |econstructor; eauto].
      rewrite (H m n); [lia| |exact L|exact Hne]. exists k. exact U.
Qed.

Lemma graded_ordered : forall g start l, runnable g -> bfs_result (g_graph g) start l ->
  graded (g_graph g) start -> ordered (ins g) (map fst l).
Proof.
  intros g start l HR R (lvl & H). apply (dist_ordered g start l HR R).
  intros m n dm dn Hl Hne Dn Dm.
  assert (LV : forall x d, is_dist (g_graph g) start x d -> lvl x = (lvl start + d)%nat).
  { intros x d (U & M). destruct (graded_dist g start l lvl R H d x U) as (j & H1 & H2 & H3).
    pose proof (M j H3). replace d with j by lia. exact H2. }
  pose proof (LV _ _ Dn). pose proof (LV _ _ Dm).
  pose proof (H m n (ex_intro _ dn (proj1 Dn)) Hl Hne). lia.
Qed.

Lemma tree_graded_dist : forall g start l, runnable g -> bfs_result (g_graph g) start l ->
  tree (g_graph g) start -> ordered (ins g) (map fst l).
Proof.
  intros g start l HR R (T1 & T2). apply (dist_ordered g start l HR R).
  intros m n dm dn Hl Hne Dn Dm.
  (* the last step of a shortest walk to m comes from n *)
  destruct Dm as (U & M). destruct U as [|k n' m' U L].
  - exfalso. apply Hne. symmetry. apply T2; [|exact Hl]. exists dn. apply Dn.
  - destruct (Nat.eq_dec m' n') as [->|Hne'].
    + pose proof (M k U). lia.
    + assert (n = n').
      { apply (T1 m'); try assumption; [exists dn; apply Dn|exists k; exact U]. }
      subst n'. pose proof (proj2 Dn k U). lia.
Qed.

(** A cycle is never ordered. *)
Lemma chain_later : forall g order, runnable g -> ordered (ins g) order -> NoDup order ->
  forall m n, chain (g_graph g) m n -> forall l1 l2, order = l1 ++ n :: l2 -> In m l2.
Proof.
  intros g order HR HO ND m n H. induction H as [m n L Hne|m n p L Hne H IH]; intros l1 l2 E.
  - apply (HO _ _ _ E), in_inputs; auto. apply HR.
  - pose proof (IH _ _ E) as Hn. apply in_split in Hn. destruct Hn as (a & b & ->).
    assert (E' : order = (l1 ++ p :: a) ++ n :: b) by (rewrite E, <- app_assoc; reflexivity).
    assert (In m b) by (apply (HO _ _ _ E'), in_inputs; auto; apply HR).
    apply in_app_iff. right. now right.
Qed.

Lemma cycle_unordered : forall g start l n, runnable g -> bfs_result (g_graph g) start l ->
  reaches (g_graph g) n start -> chain (g_graph g) n n -> ~ ordered (ins g) (map fst l).
Proof.
  intros g start l n HR R Hn HC HO. apply (br_complete _ _ _ R) in Hn. apply in_split in Hn.
  destruct Hn as (l1 & l2 & E).
  pose proof (br_nodup _ _ _ R) as ND.
  pose proof (chain_later g _ HR HO ND n n HC l1 l2 E) as H.
  rewrite E in ND. apply NoDup_remove_2 in ND. apply ND, in_app_iff. now right.
Qed.

End Exec.

(** Executions that do not depend on what the graph showed before, and pairs of
    executions that only differ in part of what nodes can see. *)
From Verif Require Import Machine GraphModel GraphSpec GraphWalk GraphExec GraphHistory GraphHistory2 GraphFacts GraphMeaning RunSpec RunProofs.

Section Run.
Context {N St Ca F W K : Type}.
Variable ops : nodeops N St Ca F W.
Variable srt : edge_sort.
Variable key : N -> K.
Hypothesis HS : sorts srt.
Notation ins g := (inputs_of srt (g_graph g)).

(* ------------------------------ what was shown before ------------------------------ *)

(** What hashing, validating and computing look at. *)
Hypothesis KH : forall n n', key n = key n' -> n_hash ops n = n_hash ops n'.
Hypothesis KV : forall n n' m h ns ns', key n = key n' -> map key ns = map key ns' -> n_validate ops n m h ns = n_validate ops n' m h ns'.
Definition same_computed (r r' : Res (N * node_status * St * Ca)) : Prop :=
  match r, r' with
  | Ok (n, s, v, c), Ok (n', s', v', c') => key n = key n' /\ s = s' /\ v = v' /\ c = c'
  | Panic, Panic => True
  | _, _ => False
  end.
Hypothesis KC : forall n n' fr m is out c, key n = key n' -> same_computed (n_compute ops n fr m is out c) (n_compute ops n' fr m is out c).
Hypothesis KK : forall n fr m is out c n' s v c', n_compute ops n fr m is out c = Ok (n', s, v, c') -> key n' = key n.

(** The same graph, whatever it showed and whatever its nodes' status. *)
Definition twins (g h : graph N St) : Prop :=
  keyed key (g_nodes g) (g_nodes h) /\ g_ids g = g_ids h /\ g_graph g = g_graph h.

Lemma twins_nth g h i : twins g h ->
  match nth_error (g_nodes g) i, nth_error (g_nodes h) i with Some n, Some n' => key n = key n' | None, None => True | _, _ => False end.
Proof.
  intros (KE & _). assert (E : nth_error (map key (g_nodes g)) i = nth_error (map key (g_nodes h)) i) by now rewrite KE.
  rewrite !nth_error_map in E. destruct (nth_error (g_nodes g) i), (nth_error (g_nodes h) i); cbn in E; try discriminate; [now injection E|exact I].
Qed.
Lemma twins_nodes g h is : twins g h ->
  match get_nodes g is, get_nodes h is with Ok l, Ok l' => map key l = map key l' | Panic, Panic => True | _, _ => False end.
Proof.
  intros T. induction is as [|i is IH]; cbn [get_nodes]; [reflexivity|]. unfold get_node. pose proof (twins_nth g h i T) as E.
  destruct (nth_error (g_nodes g) i), (nth_error (g_nodes h) i); try contradiction; [|exact I]. cbn [bind].
  destruct (get_nodes g is), (get_nodes h is); try contradiction; [|exact I]. cbn. now rewrite E, IH.
Qed.
Lemma twins_hash fr order : forall g h hc, twins g h -> hash_phase ops srt g fr order hc = hash_phase ops srt h fr order hc.
Proof.
  induction order as [|i order IH]; intros g h hc T; cbn [hash_phase]; [reflexivity|].
  unfold get_node, input_hashes. pose proof (twins_nth g h i T) as E. pose proof T as (_ & _ & EG). rewrite EG.
  destruct (nth_error (g_nodes g) i), (nth_error (g_nodes h) i); try contradiction; [|reflexivity]. cbn [bind].
  destruct (direct_upstream _ _ _); [|reflexivity]. cbn [bind]. destruct (lookup_all _ _); [|reflexivity]. cbn [bind].
  rewrite (KH _ _ E). now apply IH.
Qed.
Lemma twins_validate fuel : forall g h hc stack acc, twins g h -> validate_loop ops srt fuel g hc stack acc = validate_loop ops srt fuel h hc stack acc.
Proof.
  induction fuel as [|fuel IH]; intros g h hc stack acc T; [reflexivity|].
  destruct stack as [|(i, m) rest]; [reflexivity|]. rewrite !validate_loop_step.
  assert (E : validate_one ops srt g hc i m = validate_one ops srt h hc i m).
  { unfold validate_one, get_node. pose proof T as (_ & _ & EG). rewrite EG.
    destruct (direct_upstream srt (g_graph h) i) as [is|]; [|reflexivity]. cbn [bind].
    pose proof (twins_nodes g h is T) as EN. destruct (get_nodes g is), (get_nodes h is); try contradiction; [|reflexivity]. cbn [bind].
    pose proof (twins_nth g h i T) as E. destruct (nth_error (g_nodes g) i), (nth_error (g_nodes h) i); try contradiction; [|reflexivity]. cbn [bind].
    destruct (lookup i hc) as [hi|]; [|reflexivity]. now rewrite (KV _ _ m hi _ _ E EN). }
  rewrite E. destruct (validate_one ops srt h hc i m); [now apply IH|reflexivity].
Qed.

Definition same_phase (r r' : Res (graph N St * Ca * option error_code)) : Prop :=
  match r, r' with
  | Ok (g, c, e), Ok (h, c', e') => twins g h /\ g_output g = g_output h /\ c = c' /\ e = e'
  | Panic, Panic => True
  | _, _ => False
  end.

Lemma step_twins fr g h i m is c sc : twins g h ->
  (forall n, nth_error (g_nodes g) i = Some n -> n_compute ops n fr m is (g_output g) c = n_compute ops n fr m is (g_output h) c) ->
  match compute_node_output ops g is i fr m c sc, compute_node_output ops h is i fr m c sc with
  | Ok (g', c1, sc1, e1), Ok (h', c2, sc2, e2) => twins g' h' /\ g_output g' = g_output h' /\ c1 = c2 /\ sc1 = sc2 /\ e1 = e2
  | Panic, Panic => True
  | _, _ => False
  end.
Proof.
  intros T H. unfold compute_node_output, get_node. pose proof (twins_nth g h i T) as E.
  destruct (nth_error (g_nodes g) i) as [n|] eqn:En, (nth_error (g_nodes h) i) as [n'|] eqn:En'; try contradiction; [|exact I]. cbn [bind].
  rewrite (H n eq_refl). pose proof (KC n n' fr m is (g_output h) c E) as Q.
  destruct (n_compute ops n fr m is (g_output h) c) as [[[[n1 s1] v1] c1]|] eqn:E1;
    destruct (n_compute ops n' fr m is (g_output h) c) as [[[[n2 s2] v2] c2]|] eqn:E2; cbn in Q; try contradiction; [|exact I].
  destruct Q as (KE & <- & <- & <-). cbn [bind]. apply KK in E1, E2.
  assert (T1 : twins (with_output (with_nodes g (set_nth (g_nodes g) i n1)) v1) (with_output (with_nodes h (set_nth (g_nodes h) i n2)) v1)).
  { destruct T as (T & TI & TG). split; [|split; assumption]. unfold keyed. cbn.
    rewrite (map_set_nth key (g_nodes g) i n1 n En E1), (map_set_nth key (g_nodes h) i n2 n' En' E2). exact T. }
  destruct s1; auto 6.
Qed.

Lemma phase_twins fr : forall t g h c sc, twins g h -> g_output g = g_output h ->
  same_phase (compute_phase ops srt g fr t c sc) (compute_phase ops srt h fr t c sc).
Proof.
  induction t as [|[i m] t IH]; intros g h c sc T O; cbn [compute_phase].
  - cbn. auto.
  - unfold input_streams. pose proof T as (_ & _ & EG). rewrite EG.
    destruct (direct_upstream _ _ _) as [is|]; [|exact I]. cbn [bind]. destruct (lookup_all is sc) as [vs|]; [|exact I]. cbn [bind].
    pose proof (step_twins fr g h i m vs c sc T (fun n _ => f_equal (fun o => n_compute ops n fr m vs o c) O)) as Q.
    destruct (compute_node_output ops g vs i fr m c sc) as [[[[g1 c1] sc1] e1]|], (compute_node_output ops h vs i fr m c sc) as [[[[h1 c2] sc2] e2]|];
      try contradiction; [|exact I]. destruct Q as (T1 & O1 & <- & <- & <-). cbn [bind]. destruct e1; [cbn; auto|]. now apply IH.
Qed.

(** Only the first computation sees what was shown before. *)
Lemma phase_anew fr i m t g h c sc : twins g h ->
  (forall n is, nth_error (g_nodes g) i = Some n -> n_compute ops n fr m is (g_output g) c = n_compute ops n fr m is (g_output h) c) ->
  same_phase (compute_phase ops srt g fr ((i, m) :: t) c sc) (compute_phase ops srt h fr ((i, m) :: t) c sc).
Proof.
  intros T H. cbn [compute_phase]. unfold input_streams. pose proof T as (_ & _ & EG). rewrite EG.
  destruct (direct_upstream _ _ _) as [is|]; [|exact I]. cbn [bind]. destruct (lookup_all is sc) as [vs|]; [|exact I]. cbn [bind].
  pose proof (step_twins fr g h i m vs c sc T (fun n => H n vs)) as Q.
  destruct (compute_node_output ops g vs i fr m c sc) as [[[[g1 c1] sc1] e1]|], (compute_node_output ops h vs i fr m c sc) as [[[[h1 c2] sc2] e2]|];
    try contradiction; [|exact I]. destruct Q as (T1 & O1 & <- & <- & <-). cbn [bind]. destruct e1; [cbn; auto|]. now apply phase_twins.
Qed.

Definition same_frames (r r' : option (Res (graph N St * Ca * option error_code))) : Prop :=
  match r, r' with Some a, Some b => same_phase a b | None, None => True | _, _ => False end.
Lemma frames_twins fuel order : forall frames g h c, twins g h -> g_output g = g_output h ->
  same_frames (execute_frames ops srt fuel g order frames c) (execute_frames ops srt fuel h order frames c).
Proof.
  induction frames as [|fr frames IH]; intros g h c T O; cbn [execute_frames].
  - cbn. auto.
  - assert (Q : same_frames (execute_frame ops srt fuel g order fr c) (execute_frame ops srt fuel h order fr c)).
    { unfold execute_frame. rewrite (twins_hash fr (rev order) g h [] T). destruct (hash_phase _ _ _ _ _ _) as [hc|]; [|exact I].
      destruct order as [|start order]; [exact I|]. rewrite (twins_validate fuel g h hc _ _ T).
      destruct (validate_loop _ _ _ _ _ _ _) as [[v|]|]; [|exact I|exact I]. now apply phase_twins. }
    destruct (execute_frame ops srt fuel g order fr c) as [[[[g1 c1] e1]|]|], (execute_frame ops srt fuel h order fr c) as [[[[h1 c2] e2]|]|];
      cbn in Q; try contradiction; auto. destruct Q as (T1 & O1 & <- & <-). destruct e1; [cbn; auto|]. now apply IH.
Qed.

Definition same_run (r r' : option (Res (graph N St * Ca * exec_status))) : Prop :=
  match r, r' with
  | Some (Ok (g, c, e)), Some (Ok (h, c', e')) => twins g h /\ g_output g = g_output h /\ c = c' /\ e = e'
  | Some Panic, Some Panic => True
  | None, None => True
  | _, _ => False
  end.

Theorem execute_anew fuel (g h : graph N St) id start fr frames c : wf_graph ops g -> twins g h -> find_index g id = Some start ->
  (forall inputs i m n is, (forall n, inputs_in_slot_order (g_graph g) n (inputs n)) -> asks ops key (g_nodes g) inputs start i m ->
     nth_error (g_nodes g) i = Some n -> n_compute ops n fr m is (g_output g) c = n_compute ops n fr m is (g_output h) c) ->
  same_run (execute ops srt fuel g id (fr :: frames) c) (execute ops srt fuel h id (fr :: frames) c).
Proof.
  intros WF T HI HC. pose proof (wf_runnable ops g WF) as HR.
  assert (IO : forall n, inputs_in_slot_order (g_graph g) n (ins g n)).
  { intros n. exact (inputs_slot_order srt (g_graph g) HS (wg_stable _ _ WF) n). }
  pose proof T as (_ & TI & TG). unfold execute. assert (HI' : find_index h id = Some start) by (unfold find_index in *; now rewrite <- TI).
  rewrite HI, HI', <- TG.
  destruct (Nat.lt_ge_cases start (node_bound (g_graph g))) as [HB|HB].
  2: { rewrite (all_upstream_panics srt (g_graph g) start HB). exact I. }
  destruct (all_upstream_ok srt (g_graph g) HS (proj1 HR) start HB) as (l & E & R). rewrite E.
  destruct (br_first _ _ _ R) as (t & ->). cbn [map fst execute_frames].
  assert (Q : same_frames (execute_frame ops srt fuel g (start :: map fst t) fr c) (execute_frame ops srt fuel h (start :: map fst t) fr c)).
  { unfold execute_frame. rewrite (twins_hash fr _ g h [] T). destruct (hash_phase _ _ _ _ _ _) as [hc|]; [|exact I].
    pose proof (twins_validate fuel g h hc [(start, mode_all)] [(start, mode_all)] T) as EV. rewrite <- EV.
    destruct (validate_loop _ _ _ g _ _ _) as [[v|]|] eqn:V; [|exact I|exact I].
    destruct (validate_loop_asks ops srt key HS fuel g hc start [(start, mode_all)] [(start, mode_all)] v HR) with (3 := V) as ((q & ->) & A).
    1,2: intros i m [X|[]]; injection X as <- <-; split; [constructor|exact HB].
    destruct (rev ([(start, mode_all)] ++ q)) as [|[i m] r] eqn:EQ.
    { apply (f_equal (@length _)) in EQ. rewrite rev_length in EQ. cbn in EQ. lia. }
    apply phase_anew; [exact T|]. intros n is En. apply (HC (ins g) i m n is IO); [|exact En].
    apply A. apply in_rev. rewrite EQ. now left. }
  destruct (execute_frame ops srt fuel g (start :: map fst t) fr c) as [[[[g1 c1] e1]|]|],
    (execute_frame ops srt fuel h (start :: map fst t) fr c) as [[[[h1 c2] e2]|]|]; cbn in Q; try contradiction; auto.
  assert (FIN : forall r r', same_frames r r' -> same_run
    match r with None => None | Some Panic => Some Panic | Some (Ok (g', c', Some e)) => Some (Ok (with_status g' (status_of_error e), c', status_of_error e))
      | Some (Ok (g', c', None)) => Some (Ok (with_status (with_state g' GsClean) ExSuccess, c', ExSuccess)) end
    match r' with None => None | Some Panic => Some Panic | Some (Ok (g', c', Some e)) => Some (Ok (with_status g' (status_of_error e), c', status_of_error e))
      | Some (Ok (g', c', None)) => Some (Ok (with_status (with_state g' GsClean) ExSuccess, c', ExSuccess)) end).
  { intros [[[[a b] [d|]]|]|] [[[[a' b'] [d'|]]|]|] X; cbn in X |- *; try contradiction; auto; destruct X as (X1 & X2 & X3 & X4); try discriminate X4.
    - injection X4 as <-. auto.
    - auto. }
  destruct Q as (T1 & O1 & <- & <-). destruct e1 as [e1|]; [apply (FIN (Some (Ok (g1, c1, Some e1))) (Some (Ok (h1, c1, Some e1)))); cbn; auto|].
  apply FIN, frames_twins; auto.
Qed.

End Run.

(* ------------------------------ two executions ------------------------------ *)

Section Unseen.
Context {N St Ca F W K : Type}.
Variable ops : nodeops N St Ca F W.
Variable srt : edge_sort.
Variable key : N -> K.
Hypothesis HS : sorts srt.
Notation ins g := (inputs_of srt (g_graph g)).

(** [R]: how what the nodes see may differ. *)
Variable R : Ca -> Ca -> Prop.
Definition alike_results {A} (r r' : Res (A * Ca)) : Prop :=
  match r, r' with
  | Ok (a, c), Ok (a', c') => a = a' /\ R c c'
  | Panic, Panic => True
  | _, _ => False
  end.
Definition unseen (nodes : list N) (inputs : nat -> list nat) (start : nat) : Prop :=
  forall fr i m n is out c c', asks ops key nodes inputs start i m -> like key nodes i n -> R c c' ->
    alike_results (n_compute ops n fr m is out c) (n_compute ops n fr m is out c') /\
    forall n' st v d, n_compute ops n fr m is out c = Ok (n', st, v, d) -> key n' = key n.

Section Phase.
Variables (nodes : list N) (inputs : nat -> list nat) (start : nat).
Hypothesis U : unseen nodes inputs start.

Definition phases (r r' : Res (graph N St * Ca * option error_code)) : Prop :=
  match r, r' with
  | Ok (g, c, e), Ok (g', c', e') => g = g' /\ R c c' /\ e = e' /\ keyed key nodes (g_nodes g)
  | Panic, Panic => True
  | _, _ => False
  end.

Lemma phase_unseen fr : forall t (g : graph N St) c c' sc, keyed key nodes (g_nodes g) -> R c c' ->
  (forall i m, In (i, m) t -> asks ops key nodes inputs start i m) ->
  phases (compute_phase ops srt g fr t c sc) (compute_phase ops srt g fr t c' sc).
Proof.
  induction t as [|[i m] t IH]; intros g c c' sc KE RC HA; cbn [compute_phase].
  - cbn. auto.
  - destruct (input_streams srt g i sc) as [vs|]; [|exact I]. cbn [bind]. unfold compute_node_output, get_node.
    destruct (nth_error (g_nodes g) i) as [n|] eqn:En; [|exact I]. cbn [bind].
    assert (LK : like key nodes i n).
    { destruct (keyed_nth _ _ _ _ _ KE En) as (n0 & E0 & E1). exists n0. auto. }
    destruct (U fr i m n vs (g_output g) c c' (HA i m (or_introl eq_refl)) LK RC) as (X & KN).
    destruct (n_compute ops n fr m vs (g_output g) c) as [[[[n1 s1] v1] c1]|];
      destruct (n_compute ops n fr m vs (g_output g) c') as [[[[n2 s2] v2] c2]|]; cbn in X; try contradiction; [|exact I].
    destruct X as (E & RC1). injection E as <- <- <-. cbn [bind].
    assert (KE1 : keyed key nodes (g_nodes (with_output (with_nodes g (set_nth (g_nodes g) i n1)) v1))).
    { unfold keyed. transitivity (map key (g_nodes g)); [exact KE|]. symmetry. cbn. eapply map_set_nth; eauto. }
    destruct s1; cbn [bind]; try (split; [reflexivity|]; split; [exact RC1|]; split; [reflexivity|exact KE1]);
      apply IH; auto; intros j mj Hj; apply HA; now right.
Qed.
End Phase.

Lemma unseen_keyed a b inputs start : keyed key a b -> unseen a inputs start -> unseen b inputs start.
Proof.
  intros E H fr i m n is out c c' A L RC. exact (H fr i m n is out c c' (asks_keyed _ _ _ _ _ _ _ _ E A) (like_keyed _ _ _ _ _ E L) RC).
Qed.

Definition runs (r r' : option (Res (graph N St * Ca * exec_status))) : Prop :=
  match r, r' with
  | Some (Ok (g, c, e)), Some (Ok (g', c', e')) => g = g' /\ R c c' /\ e = e'
  | Some Panic, Some Panic => True
  | None, None => True
  | _, _ => False
  end.

Lemma frames_unseen fuel start t : forall frames (g : graph N St) c c', runnable g -> R c c' ->
  unseen (g_nodes g) (ins g) start -> (start < node_bound (g_graph g))%nat ->
  match execute_frames ops srt fuel g (start :: t) frames c, execute_frames ops srt fuel g (start :: t) frames c' with
  | Some r, Some r' => match r, r' with Ok (g1, d, e), Ok (g2, d', e') => g1 = g2 /\ R d d' /\ e = e' | Panic, Panic => True | _, _ => False end
  | None, None => True
  | _, _ => False
  end.
Proof.
  induction frames as [|fr frames IH]; intros g c c' HR RC U HB; cbn [execute_frames].
  - auto.
  - assert (Q : match execute_frame ops srt fuel g (start :: t) fr c, execute_frame ops srt fuel g (start :: t) fr c' with
      | Some r, Some r' => phases (g_nodes g) r r' | None, None => True | _, _ => False end).
    { unfold execute_frame. destruct (hash_phase _ _ _ _ _ _) as [hc|]; [|exact I].
      destruct (validate_loop _ _ _ _ _ _ _) as [[v|]|] eqn:E; [|exact I|exact I].
      destruct (validate_loop_asks ops srt key HS fuel g hc start [(start, mode_all)] [(start, mode_all)] v HR) with (3 := E) as ((w & ->) & A).
      1,2: intros i m [X|[]]; injection X as <- <-; split; [constructor|exact HB].
      apply (phase_unseen (g_nodes g) (ins g) start U); [reflexivity|exact RC|].
      intros i m Hi. apply A. now apply in_rev. }
    destruct (execute_frame ops srt fuel g (start :: t) fr c) as [[[[g1 c1] e1]|]|] eqn:E;
      destruct (execute_frame ops srt fuel g (start :: t) fr c') as [[[[g2 c2] e2]|]|]; cbn [phases] in Q; try contradiction; auto.
    destruct Q as (<- & R1 & <- & KE). destruct e1 as [e1|]; [auto|].
    pose proof (execute_frame_shape _ _ _ _ _ _ _ _ _ _ E) as S1. assert (G1 : g_graph g1 = g_graph g) by apply S1.
    apply IH; auto; try (now rewrite G1).
    + eapply runnable_shape; eauto.
    + rewrite G1. eapply unseen_keyed; eauto.
Qed.

Theorem execute_unseen fuel (g : graph N St) id start frames c c' : wf_graph ops g -> find_index g id = Some start -> R c c' ->
  (forall inputs, (forall n, inputs_in_slot_order (g_graph g) n (inputs n)) -> unseen (g_nodes g) inputs start) ->
  runs (execute ops srt fuel g id frames c) (execute ops srt fuel g id frames c').
Proof.
  intros WF HI RC HC. pose proof (wf_runnable ops g WF) as HR.
  assert (IO : forall n, inputs_in_slot_order (g_graph g) n (ins g n)).
  { intros n. exact (inputs_slot_order srt (g_graph g) HS (wg_stable _ _ WF) n). }
  unfold execute. rewrite HI.
  destruct (Nat.lt_ge_cases start (node_bound (g_graph g))) as [HB|HB].
  2: { rewrite (all_upstream_panics srt (g_graph g) start HB). exact I. }
  destruct (all_upstream_ok srt (g_graph g) HS (proj1 HR) start HB) as (l & E & RR). rewrite E.
  destruct (br_first _ _ _ RR) as (t & ->). cbn [map fst].
  pose proof (frames_unseen fuel start (map fst t) frames g c c' HR RC (HC _ IO) HB) as Q.
  destruct (execute_frames ops srt fuel g _ frames c) as [[[[g1 c1] e1]|]|];
    destruct (execute_frames ops srt fuel g _ frames c') as [[[[g2 c2] e2]|]|]; try contradiction; auto.
  destruct Q as (<- & R1 & <-). destruct e1; cbn; auto.
Qed.
End Unseen.

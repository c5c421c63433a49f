(** Executions of the same graph with related caches. *)
From Verif Require Import Machine Loops GraphModel.

Section Sim.
Context {N St Ca Cb F W : Type}.
Variables (A : nodeops N St Ca F W) (B : nodeops N St Cb F W).
Variable srt : edge_sort.
(** [R]: related caches; [M]: streams that occur; [G]: what is known of the
    left cache in the end, and therefore all the way. *)
Variables (R : Ca -> Cb -> Prop) (M : St -> Prop) (G : Ca -> Prop).

Record simulates : Prop := {
  sim_hash : forall n fr hs, n_hash A n fr hs = n_hash B n fr hs;
  sim_validate : forall n mode h ins, n_validate A n mode h ins = n_validate B n mode h ins;
  sim_back : forall n fr m ins out c n' st out' c',
    n_compute A n fr m ins out c = Ok (n', st, out', c') -> G c' -> G c;
  sim_compute : forall n fr m ins out c n' st out' c' cb,
    n_compute A n fr m ins out c = Ok (n', st, out', c') -> G c' -> R c cb -> Forall M ins -> M out ->
    exists cb', n_compute B n fr m ins out cb = Ok (n', st, out', cb') /\ R c' cb' /\ M out'
}.
Hypothesis S : simulates.

Lemma sim_hash_phase (g : graph N St) fr order hc : hash_phase A srt g fr order hc = hash_phase B srt g fr order hc.
Proof.
  revert hc. induction order as [|i t IH]; intro hc; cbn [hash_phase]; [reflexivity|].
  destruct (get_node g i) as [n|]; cbn [bind]; [|reflexivity].
  destruct (input_hashes srt g i hc) as [hs|]; cbn [bind]; [|reflexivity].
  rewrite (sim_hash S). apply IH.
Qed.

Lemma sim_validate_loop (g : graph N St) fuel hc : forall stack acc,
  validate_loop A srt fuel g hc stack acc = validate_loop B srt fuel g hc stack acc.
Proof.
  induction fuel as [|fuel IH]; intros stack acc; cbn [validate_loop]; [reflexivity|].
  destruct stack as [|[i m] rest]; [reflexivity|].
  destruct (direct_upstream srt (g_graph g) i) as [ms|]; cbn [bind]; [|reflexivity].
  destruct (get_nodes g ms) as [ns|]; cbn [bind]; [|reflexivity].
  destruct (get_node g i) as [n|]; cbn [bind]; [|reflexivity].
  destruct (lookup i hc) as [h|]; [|reflexivity].
  rewrite (sim_validate S). destruct (n_validate B n m h ns) as [l|]; cbn [bind]; [|reflexivity]. apply IH.
Qed.

Definition all_M (sc : list (nat * St)) : Prop := forall i v, lookup i sc = Some v -> M v.

Lemma lookup_all_M sc is vs : all_M sc -> lookup_all is sc = Ok vs -> Forall M vs.
Proof.
  intro H. revert vs. induction is as [|i is IH]; intros vs E; cbn [lookup_all] in E.
  - assert (vs = []) by congruence. subst. constructor.
  - destruct (lookup i sc) as [a|] eqn:L; [|discriminate].
    destruct (lookup_all is sc) as [r|]; cbn [bind] in E; [|discriminate].
    assert (vs = a :: r) by congruence. subst. constructor; [exact (H _ _ L)|now apply IH].
Qed.

(** One node. *)
Lemma output_back (g : graph N St) ins i fr m c sc g' c' sc' e :
  compute_node_output A g ins i fr m c sc = Ok (g', c', sc', e) -> G c' -> G c.
Proof.
  unfold compute_node_output. destruct (get_node g i) as [n|]; cbn [bind]; [|discriminate].
  destruct (n_compute A n fr m ins (g_output g) c) as [[[[n' st] out] c1]|] eqn:E; cbn [bind]; [|discriminate].
  intros H GC. apply (sim_back S _ _ _ _ _ _ _ _ _ _ E).
  destruct st; injection H as _ <- _ _; exact GC.
Qed.

Lemma phase_back fr t : forall (g : graph N St) c sc g' c' e,
  compute_phase A srt g fr t c sc = Ok (g', c', e) -> G c' -> G c.
Proof.
  induction t as [|[i m] t IH]; intros g c sc g' c' e H GC; cbn [compute_phase] in H.
  - injection H as _ <- _. exact GC.
  - destruct (input_streams srt g i sc) as [ins|]; cbn [bind] in H; [|discriminate].
    destruct (compute_node_output A g ins i fr m c sc) as [[[[g1 c1] sc1] e1]|] eqn:E; cbn [bind] in H; [|discriminate].
    apply (output_back _ _ _ _ _ _ _ _ _ _ _ E). destruct e1; [injection H as _ <- _; exact GC|].
    exact (IH _ _ _ _ _ _ H GC).
Qed.

Lemma sim_output (g : graph N St) ins i fr m c sc g' c' sc' e cb :
  compute_node_output A g ins i fr m c sc = Ok (g', c', sc', e) -> G c' -> R c cb -> Forall M ins ->
  M (g_output g) -> all_M sc ->
  exists cb', compute_node_output B g ins i fr m cb sc = Ok (g', cb', sc', e) /\ R c' cb'
    /\ M (g_output g') /\ all_M sc'.
Proof.
  unfold compute_node_output. destruct (get_node g i) as [n|]; cbn [bind]; [|discriminate].
  destruct (n_compute A n fr m ins (g_output g) c) as [[[[n' st] out] c1]|] eqn:E; cbn [bind]; [|discriminate].
  intros H GC HR HI HO HS.
  assert (c1 = c') by (destruct st; injection H as _ -> _ _; reflexivity). subst c1.
  destruct (sim_compute S _ _ _ _ _ _ _ _ _ _ _ E GC HR HI HO) as (cb' & -> & R' & MO).
  cbn [bind]. exists cb'.
  assert (SC : all_M ((i, out) :: sc)).
  { intros j v. cbn [lookup]. destruct (Nat.eqb j i); [intros [= <-]; exact MO|apply HS]. }
  destruct st; injection H as <- <- <-; (split; [reflexivity|]; split; [exact R'|]; split; [exact MO|assumption]).
Qed.

Lemma sim_phase fr t : forall (g : graph N St) c sc g' c' e cb,
  compute_phase A srt g fr t c sc = Ok (g', c', e) -> G c' -> R c cb -> M (g_output g) -> all_M sc ->
  exists cb', compute_phase B srt g fr t cb sc = Ok (g', cb', e) /\ R c' cb' /\ M (g_output g').
Proof.
  induction t as [|[i m] t IH]; intros g c sc g' c' e cb H GC HR HO HS; cbn [compute_phase] in H |- *.
  - injection H as <- <- <-. eauto.
  - destruct (input_streams srt g i sc) as [ins|] eqn:EI; cbn [bind] in H |- *; [|discriminate].
    destruct (compute_node_output A g ins i fr m c sc) as [[[[g1 c1] sc1] e1]|] eqn:E; cbn [bind] in H; [|discriminate].
    assert (MI : Forall M ins).
    { unfold input_streams in EI. destruct (direct_upstream srt (g_graph g) i) as [ms|]; cbn [bind] in EI; [|discriminate].
      exact (lookup_all_M _ _ _ HS EI). }
    destruct e1 as [e1|].
    + assert (G1 : G c1) by (injection H as _ -> _; exact GC).
      destruct (sim_output _ _ _ _ _ _ _ _ _ _ _ _ E G1 HR MI HO HS) as (cb1 & -> & R1 & M1 & _).
      cbn [bind]. injection H as <- <- <-. eauto.
    + pose proof (phase_back _ _ _ _ _ _ _ _ H GC) as G1.
      destruct (sim_output _ _ _ _ _ _ _ _ _ _ _ _ E G1 HR MI HO HS) as (cb1 & -> & R1 & M1 & S1).
      cbn [bind]. exact (IH _ _ _ _ _ _ _ H GC R1 M1 S1).
Qed.

Lemma sim_frame fuel (g : graph N St) order fr c g' c' e cb :
  execute_frame A srt fuel g order fr c = Some (Ok (g', c', e)) -> G c' -> R c cb -> M (g_output g) ->
  exists cb', execute_frame B srt fuel g order fr cb = Some (Ok (g', cb', e)) /\ R c' cb' /\ M (g_output g').
Proof.
  unfold execute_frame. rewrite sim_hash_phase. destruct (hash_phase B srt g fr (rev order) []) as [hc|]; [|discriminate].
  destruct order as [|start t]; [discriminate|]. rewrite sim_validate_loop.
  destruct (validate_loop B srt fuel g hc _ _) as [[v|]|]; try discriminate.
  intros H GC HR HO. apply (f_equal (fun o => match o with Some r => r | None => Panic end)) in H.
  destruct (sim_phase _ _ _ _ _ _ _ _ _ H GC HR HO) as (cb' & E & R' & M').
  { intros i w L. discriminate L. }
  exists cb'. rewrite E. auto.
Qed.

Lemma frame_back fuel (g : graph N St) order fr c g' c' e :
  execute_frame A srt fuel g order fr c = Some (Ok (g', c', e)) -> G c' -> G c.
Proof.
  unfold execute_frame. destruct (hash_phase A srt g fr (rev order) []) as [hc|]; [|discriminate].
  destruct order as [|start t]; [discriminate|].
  destruct (validate_loop A srt fuel g hc _ _) as [[v|]|]; try discriminate.
  intros H GC. apply (f_equal (fun o => match o with Some r => r | None => Panic end)) in H.
  exact (phase_back _ _ _ _ _ _ _ _ H GC).
Qed.

Lemma frames_back fuel order frames : forall (g : graph N St) c g' c' e,
  execute_frames A srt fuel g order frames c = Some (Ok (g', c', e)) -> G c' -> G c.
Proof.
  induction frames as [|fr frames IH]; intros g c g' c' e H GC; cbn [execute_frames] in H.
  - injection H as _ <- _. exact GC.
  - destruct (execute_frame A srt fuel g order fr c) as [[[[g1 c1] [e1|]]|]|] eqn:E; try discriminate.
    + injection H as _ <- _. exact (frame_back _ _ _ _ _ _ _ _ E GC).
    + exact (frame_back _ _ _ _ _ _ _ _ E (IH _ _ _ _ _ H GC)).
Qed.

Lemma sim_frames fuel order frames : forall (g : graph N St) c g' c' e cb,
  execute_frames A srt fuel g order frames c = Some (Ok (g', c', e)) -> G c' -> R c cb -> M (g_output g) ->
  exists cb', execute_frames B srt fuel g order frames cb = Some (Ok (g', cb', e)) /\ R c' cb' /\ M (g_output g').
Proof.
  induction frames as [|fr frames IH]; intros g c g' c' e cb H GC HR HO; cbn [execute_frames] in H |- *.
  - injection H as <- <- <-. eauto.
  - destruct (execute_frame A srt fuel g order fr c) as [[[[g1 c1] [e1|]]|]|] eqn:E; try discriminate.
    + injection H as <- <- <-.
      destruct (sim_frame _ _ _ _ _ _ _ _ _ E GC HR HO) as (cb1 & -> & R1 & M1). eauto.
    + pose proof (frames_back _ _ _ _ _ _ _ _ H GC) as G1.
      destruct (sim_frame _ _ _ _ _ _ _ _ _ E G1 HR HO) as (cb1 & -> & R1 & M1).
      exact (IH _ _ _ _ _ _ H GC R1 M1).
Qed.

(** The call returns the same graph and status with a related cache. *)
Theorem sim_execute fuel (g : graph N St) id frames c g' c' st cb :
  execute A srt fuel g id frames c = Some (Ok (g', c', st)) -> G c' -> R c cb -> M (g_output g) ->
  exists cb', execute B srt fuel g id frames cb = Some (Ok (g', cb', st)) /\ R c' cb' /\ M (g_output g').
Proof.
  unfold execute. destruct (find_index g id) as [start|].
  - destruct (all_upstream srt (g_graph g) start) as [nds|]; [|discriminate].
    destruct (execute_frames A srt fuel g (map fst nds) frames c) as [[[[g1 c1] [e1|]]|]|] eqn:E; try discriminate;
      intros H GC HR HO; injection H as <- <- <-;
      destruct (sim_frames _ _ _ _ _ _ _ _ _ E GC HR HO) as (cb1 & -> & R1 & M1); eauto.
  - intros H GC HR HO. injection H as <- <- <-. eauto.
Qed.
End Sim.

(* ------------------------------ recording ------------------------------ *)

Section Recording.
Context {N St Ca F W : Type}.
Variable ops : nodeops N St Ca F W.
Variable srt : edge_sort.

(** A computation: node, frame and input streams. *)
Definition computation : Type := (N * F * list St)%type.

(** The same nodes, keeping a list of the computations. *)
Definition recording : nodeops N St (Ca * list computation) F W :=
  NodeOps (n_id ops) (n_hash ops) (n_validate ops)
    (fun n fr m ins out c =>
       let* (n', st, out', c') := n_compute ops n fr m ins out (fst c) in
       Ok (n', st, out', (c', snd c ++ [(n, fr, ins)])))
    (n_write ops).

(** Recording changes nothing. *)
Theorem recording_faithful fuel (g : graph N St) id frames c l g' c' l' st :
  execute recording srt fuel g id frames (c, l) = Some (Ok (g', (c', l'), st)) ->
  execute ops srt fuel g id frames c = Some (Ok (g', c', st)).
Proof.
  intro H.
  destruct (sim_execute recording ops srt (fun a b => b = fst a) (fun _ => True) (fun _ => True)) with (2 := H) (cb := c)
    as (cb' & E & -> & _); auto.
  constructor; auto. intros n fr m ins out c0 n' st0 out' c0' cb E _ -> _ _.
  unfold recording in E. cbn [n_compute] in E. apply bind_ok in E. destruct E as ([[[n1 s1] o1] c1] & E & K).
  injection K as -> -> -> <-. eauto.
Qed.

Theorem recording_complete fuel (g : graph N St) id frames c l g' c' st :
  execute ops srt fuel g id frames c = Some (Ok (g', c', st)) ->
  exists l', execute recording srt fuel g id frames (c, l) = Some (Ok (g', (c', l'), st)).
Proof.
  intro H.
  destruct (sim_execute ops recording srt (fun a b => a = fst b) (fun _ => True) (fun _ => True)) with (2 := H) (cb := (c, l))
    as ([cb' l'] & E & R & _); auto.
  - constructor; auto. intros n fr m ins out c0 n' st0 out' c0' cb E _ -> _ _.
    unfold recording. cbn [n_compute]. unfold computation in *. rewrite E. cbn [bind]. eexists. split; [reflexivity|]. auto.
  - cbn [fst] in R. subst cb'. eauto.
Qed.
End Recording.

(** Executions in which every node a computation meets behaves: the nodes may be
    replaced by ones that never panic. *)
From Verif Require Import Machine Loops GraphModel GraphSpec GraphWalk GraphExec GraphHistory GraphHistory2 GraphCount GraphFacts.

(** All nodes upstream of index [start] behave. *)
Definition all_behave {N St} (PN : N -> nat -> Prop) (g : graph N St) (start : nat) : Prop :=
  forall i n ms, reaches (g_graph g) i start -> nth_error (g_nodes g) i = Some n ->
    inputs_in_slot_order (g_graph g) i ms -> PN n (length ms).

Section Safe.
Context {N St Ca F W : Type}.
Variable ops : nodeops N St Ca F W.
Variable srt : edge_sort.

(** [ops] with every panic of a node replaced by something harmless. *)
Definition calm : nodeops N St Ca F W :=
  NodeOps (n_id ops) (n_hash ops)
    (fun n mode h ins => match n_validate ops n mode h ins with
       | Ok l => if Nat.eqb (length l) (length ins) then Ok l else Ok (repeat 0 (length ins))
       | Panic => Ok (repeat 0 (length ins)) end)
    (fun n fr mode ins out c => match n_compute ops n fr mode ins out c with
       | Ok r => Ok r | Panic => Ok (n, NsValid, out, c) end)
    (n_write ops).

Lemma calm_total : total_ops calm.
Proof.
  split.
  - intros n mode h ins. cbn [calm n_validate]. destruct (n_validate ops n mode h ins) as [l|].
    + destruct (Nat.eqb_spec (length l) (length ins)); eexists; split; try reflexivity; [assumption|apply repeat_length].
    + eexists; split; [reflexivity|apply repeat_length].
  - intros n fr mode ins out c. cbn [calm n_compute]. destruct (n_compute ops n fr mode ins out c); eauto.
Qed.

(** [PN n k]: node [n] with [k] inputs behaves, on streams of [M] and caches of [G]. *)
Variables (PN : N -> nat -> Prop) (M : St -> Prop) (G : Ca -> Prop).

Record behaves : Prop := {
  bh_validate : forall n k mode h ins, PN n k -> length ins = k ->
    exists l, n_validate ops n mode h ins = Ok l /\ length l = length ins;
  bh_compute : forall n k fr mode ins out c, PN n k -> length ins = k -> Forall M ins -> M out -> G c ->
    exists n' st out' c', n_compute ops n fr mode ins out c = Ok (n', st, out', c') /\ PN n' k /\ M out' /\ G c'
}.
Hypothesis BH : behaves.

Variable sg : stable.
Variable Z : nat -> Prop.
Hypothesis CL : forall i ms m, Z i -> direct_upstream srt sg i = Ok ms -> In m ms -> Z m.

(** Every node of the part behaves. *)
Definition sound (g : graph N St) : Prop :=
  g_graph g = sg /\
  forall i n ms, Z i -> nth_error (g_nodes g) i = Some n -> direct_upstream srt sg i = Ok ms -> PN n (length ms).

Lemma get_nodes_length (g : graph N St) ms ns : get_nodes g ms = Ok ns -> length ns = length ms.
Proof.
  revert ns. induction ms as [|m ms IH]; intros ns H; cbn [get_nodes] in H; [injection H as <-; reflexivity|].
  destruct (get_node g m); cbn [bind] in H; [|discriminate]. destruct (get_nodes g ms) as [r|]; cbn [bind] in H; [|discriminate].
  injection H as <-. cbn. f_equal. now apply IH.
Qed.

Lemma calm_hash (g : graph N St) fr order hc : hash_phase ops srt g fr order hc = hash_phase calm srt g fr order hc.
Proof.
  revert hc. induction order as [|i t IH]; intro hc; cbn [hash_phase]; [reflexivity|].
  destruct (get_node g i) as [n|]; cbn [bind]; [|reflexivity].
  destruct (input_hashes srt g i hc) as [hs|]; cbn [bind]; [|reflexivity]. apply IH.
Qed.

Lemma calm_validate (g : graph N St) fuel hc : sound g -> forall stack acc,
  (forall q, In q stack -> Z (fst q)) -> (forall q, In q acc -> Z (fst q)) ->
  validate_loop ops srt fuel g hc stack acc = validate_loop calm srt fuel g hc stack acc /\
  forall l, validate_loop ops srt fuel g hc stack acc = Some (Ok l) -> forall q, In q l -> Z (fst q).
Proof.
  intros (EG & SN). induction fuel as [|fuel IH]; intros stack acc ZS ZA; cbn [validate_loop]; [split; [reflexivity|discriminate]|].
  destruct stack as [|[i m] rest]; [split; [reflexivity|]; intros l [= <-]; exact ZA|].
  rewrite EG. destruct (direct_upstream srt sg i) as [ms|] eqn:DU; cbn [bind]; [|split; [reflexivity|discriminate]].
  destruct (get_nodes g ms) as [ns|] eqn:GN; cbn [bind]; [|split; [reflexivity|discriminate]].
  unfold get_node. destruct (nth_error (g_nodes g) i) as [n|] eqn:EN; cbn [bind]; [|split; [reflexivity|discriminate]].
  destruct (lookup i hc) as [h|]; [|split; [reflexivity|discriminate]].
  assert (Zi : Z i) by (apply (ZS (i, m)); now left).
  destruct (bh_validate BH n (length ms) m h ns (SN _ _ _ Zi EN DU) (get_nodes_length _ _ _ GN)) as (l & E & L).
  cbn [calm n_validate]. rewrite E. cbn [bind]. rewrite L, Nat.eqb_refl. cbn [bind].
  assert (ZC : forall q, In q (combine ms l) -> Z (fst q)).
  { intros [a b] H. apply in_combine_l in H. exact (CL _ _ _ Zi DU H). }
  apply IH; intros q H; apply in_app_or in H; destruct H as [H|H].
  - apply ZC. now apply in_rev.
  - apply ZS. now right.
  - now apply ZA.
  - now apply ZC.
Qed.

Definition all_M (sc : list (nat * St)) : Prop := forall i v, lookup i sc = Some v -> M v.

Lemma lookup_all_M sc is vs : all_M sc -> lookup_all is sc = Ok vs -> Forall M vs /\ length vs = length is.
Proof.
  intro H. revert vs. induction is as [|i is IH]; intros vs E; cbn [lookup_all] in E.
  - assert (vs = []) by congruence. subst. split; [constructor|reflexivity].
  - destruct (lookup i sc) as [a|] eqn:L; [|discriminate].
    destruct (lookup_all is sc) as [r|]; cbn [bind] in E; [|discriminate].
    assert (vs = a :: r) by congruence. subst. destruct (IH r eq_refl) as (A & B).
    split; [constructor; [exact (H _ _ L)|exact A]|cbn; congruence].
Qed.

Lemma sound_set g i n' ms o : sound g -> Z i -> direct_upstream srt sg i = Ok ms -> PN n' (length ms) ->
  sound (with_output (with_nodes g (set_nth (g_nodes g) i n')) o).
Proof.
  intros (EG & SN) Zi DU P. split; [exact EG|]. cbn [with_output with_nodes g_nodes]. intros j n ms' Zj EN DU'.
  destruct (Nat.eq_dec j i) as [->|NE].
  - assert (L : (i < length (g_nodes g))%nat).
    { assert (X : (i < length (set_nth (g_nodes g) i n'))%nat) by (apply nth_error_Some; congruence).
      now rewrite set_nth_length in X. }
    rewrite set_nth_same in EN by exact L. congruence.
  - rewrite set_nth_other in EN by congruence. exact (SN _ _ _ Zj EN DU').
Qed.

Lemma calm_phase fr t : forall (g : graph N St) c sc, sound g -> (forall q, In q t -> Z (fst q)) ->
  M (g_output g) -> G c -> all_M sc ->
  compute_phase ops srt g fr t c sc = compute_phase calm srt g fr t c sc /\
  forall g' c' e, compute_phase ops srt g fr t c sc = Ok (g', c', e) -> sound g' /\ M (g_output g') /\ G c'.
Proof.
  induction t as [|[i m] t IH]; intros g c sc SN ZT MO GC MS; cbn [compute_phase].
  - split; [reflexivity|]. intros g' c' e [= <- <- <-]. auto.
  - pose proof SN as (EG & SN'). unfold input_streams. rewrite EG.
    destruct (direct_upstream srt sg i) as [ms|] eqn:DU; cbn [bind]; [|split; [reflexivity|discriminate]].
    destruct (lookup_all ms sc) as [ins|] eqn:LA; cbn [bind]; [|split; [reflexivity|discriminate]].
    destruct (lookup_all_M _ _ _ MS LA) as (MI & LI).
    assert (Zi : Z i) by (apply (ZT (i, m)); now left).
    unfold compute_node_output, get_node. destruct (nth_error (g_nodes g) i) as [n|] eqn:EN; cbn [bind]; [|split; [reflexivity|discriminate]].
    destruct (bh_compute BH n (length ms) fr m ins (g_output g) c (SN' _ _ _ Zi EN DU) LI MI MO GC) as (n' & st & o & c' & E & P & MO' & GC').
    cbn [calm n_compute]. rewrite E. cbn [bind].
    pose proof (sound_set g i n' ms o SN Zi DU P) as SN1.
    set (g1 := with_output _ o) in *. assert (O1 : g_output g1 = o) by reflexivity.
    assert (SC : all_M ((i, o) :: sc)).
    { intros j v. cbn [lookup]. destruct (Nat.eqb j i); [intros [= <-]; exact MO'|apply MS]. }
    assert (ZT' : forall q, In q t -> Z (fst q)) by (intros q H; apply ZT; now right).
    destruct st; cbn [bind];
      try (split; [reflexivity|]; intros g' c1 e [= <- <- <-]; now auto);
      now apply IH.
Qed.

Lemma calm_frame fuel (g : graph N St) order fr c : sound g -> (forall i, In i order -> Z i) -> M (g_output g) -> G c ->
  execute_frame ops srt fuel g order fr c = execute_frame calm srt fuel g order fr c /\
  forall g' c' e, execute_frame ops srt fuel g order fr c = Some (Ok (g', c', e)) -> sound g' /\ M (g_output g') /\ G c'.
Proof.
  intros SN ZO MO GC. unfold execute_frame. rewrite calm_hash.
  destruct (hash_phase calm srt g fr (rev order) []) as [hc|]; [|split; [reflexivity|discriminate]].
  destruct order as [|start t]; [split; [reflexivity|discriminate]|].
  assert (ZS : forall q, In q [(start, mode_all)] -> Z (fst q)) by (intros q [<-|[]]; apply ZO; now left).
  destruct (calm_validate g fuel hc SN [(start, mode_all)] [(start, mode_all)] ZS ZS) as (EV & ZV). rewrite <- EV.
  destruct (validate_loop ops srt fuel g hc _ _) as [[v|]|]; try (split; [reflexivity|discriminate]).
  destruct (calm_phase fr (rev v) g c [] SN) as (EP & KP); auto.
  { intros q H. apply (ZV v eq_refl). now apply in_rev. }
  { intros i w L. discriminate L. }
  rewrite EP. split; [reflexivity|]. intros g' c' e H. apply (KP g' c' e). rewrite EP. congruence.
Qed.

Lemma calm_frames fuel order frames : (forall i, In i order -> Z i) -> forall (g : graph N St) c, sound g -> M (g_output g) -> G c ->
  execute_frames ops srt fuel g order frames c = execute_frames calm srt fuel g order frames c /\
  forall g' c' e, execute_frames ops srt fuel g order frames c = Some (Ok (g', c', e)) -> sound g' /\ M (g_output g') /\ G c'.
Proof.
  intros ZO. induction frames as [|fr frames IH]; intros g c SN MO GC; cbn [execute_frames].
  - split; [reflexivity|]. intros g' c' e [= <- <- <-]. auto.
  - destruct (calm_frame fuel g order fr c SN ZO MO GC) as (E & K). rewrite <- E.
    destruct (execute_frame ops srt fuel g order fr c) as [[[[g1 c1] [e1|]]|]|]; try (split; [reflexivity|discriminate]).
    + split; [reflexivity|]. intros g' c' e [= <- <- <-]. exact (K _ _ _ eq_refl).
    + destruct (K _ _ _ eq_refl) as (S1 & M1 & G1). now apply IH.
Qed.
End Safe.

Section Execute.
Context {N St Ca F W : Type}.
Variable ops : nodeops N St Ca F W.
Variable srt : edge_sort.
Hypothesis HS : sorts srt.
Variables (PN : N -> nat -> Prop) (M : St -> Prop) (G : Ca -> Prop).
Hypothesis BH : behaves ops PN M G.

Lemma calm_wf (g : graph N St) : wf_graph ops g -> wf_graph (calm ops) g.
Proof. intros [A B C]. constructor; auto. Qed.

Lemma reaches_live sg i start : wf_stable sg -> sg_live sg start = true -> reaches sg i start -> sg_live sg i = true.
Proof.
  intros WS L (k & U). induction U as [|k n m U IH (s & X)]; [exact L|]. exact (proj1 (ws_ends_live _ WS _ X)).
Qed.

Lemma direct_inputs sg i start ms : wf_stable sg -> sg_live sg start = true -> reaches sg i start ->
  direct_upstream srt sg i = Ok ms -> inputs_in_slot_order sg i ms.
Proof.
  intros WS L R DU. destruct (inputs_delivered srt HS sg i WS (reaches_live _ _ _ WS L R)) as (l & E & H). congruence.
Qed.

Lemma calm_execute fuel (g : graph N St) id start frames c : wf_graph ops g -> find_index g id = Some start ->
  sg_live (g_graph g) start = true -> all_behave PN g start -> M (g_output g) -> G c ->
  execute ops srt fuel g id frames c = execute (calm ops) srt fuel g id frames c /\
  forall g' c' st, execute ops srt fuel g id frames c = Some (Ok (g', c', st)) ->
    M (g_output g') /\ G c' /\ all_behave PN g' start.
Proof.
  intros WG FI L AB MO GC. unfold execute. rewrite FI. pose proof (wg_stable _ _ WG) as WS.
  destruct (all_upstream srt (g_graph g) start) as [nds|] eqn:AU; [|split; [reflexivity|discriminate]].
  set (Zp := fun i => reaches (g_graph g) i start).
  assert (CL : forall i ms m, Zp i -> direct_upstream srt (g_graph g) i = Ok ms -> In m ms -> Zp m).
  { intros i ms m Hi DU Hm. destruct (direct_inputs _ _ _ _ WS L Hi DU) as (_ & IN & _).
    apply IN in Hm. destruct Hi as (k & U). exists (S k). exact (up_step _ _ _ _ _ U (proj1 Hm)). }
  assert (SN : sound srt PN (g_graph g) Zp g).
  { split; [reflexivity|]. intros i n ms Hi EN DU. exact (AB _ _ _ Hi EN (direct_inputs _ _ _ _ WS L Hi DU)). }
  assert (ZO : forall i, In i (map fst nds) -> Zp i).
  { intros i Hi. pose proof (wf_runnable ops g WG) as HR. pose proof (live_lt_bound _ start L) as HB.
    destruct (all_upstream_ok srt (g_graph g) HS (proj1 HR) start HB) as (l & E & R). assert (l = nds) by congruence. subst l.
    apply R. exact Hi. }
  destruct (calm_frames ops srt PN M G BH (g_graph g) Zp CL fuel (map fst nds) frames ZO g c SN MO GC) as (E & K). rewrite <- E.
  assert (FIN : forall g1 : graph N St, sound srt PN (g_graph g) Zp g1 -> all_behave PN g1 start).
  { intros g1 (EG & S1) i n ms. rewrite EG. intros Ri EN IN.
    destruct (inputs_delivered srt HS _ i WS (reaches_live _ _ _ WS L Ri)) as (l & DU & IN').
    assert (LE : length ms = length l).
    { apply Nat.le_antisymm; apply NoDup_incl_length.
      - apply IN.
      - intros m X. apply IN'. now apply IN.
      - apply IN'.
      - intros m X. apply IN. now apply IN'. }
    rewrite LE. exact (S1 _ _ _ Ri EN DU). }
  destruct (execute_frames ops srt fuel g (map fst nds) frames c) as [[[[g1 c1] [e1|]]|]|]; try (split; [reflexivity|discriminate]);
    (split; [reflexivity|]; intros g' c' st [= <- <- <-]; destruct (K _ _ _ eq_refl) as (S1 & M1 & G1));
    (split; [exact M1|]; split; [exact G1|]); exact (FIN _ S1).
Qed.

(** Trees and graphs made of levels: the call returns, and everything stays well. *)
Theorem no_panic (g : graph N St) id start frames c : wf_graph ops g -> find_index g id = Some start ->
  sg_live (g_graph g) start = true -> graded (g_graph g) start \/ tree (g_graph g) start ->
  all_behave PN g start -> M (g_output g) -> G c ->
  exists fuel0 g' c' st, (forall fuel, (fuel0 <= fuel)%nat -> execute ops srt fuel g id frames c = Some (Ok (g', c', st))) /\
    M (g_output g') /\ G c' /\ all_behave PN g' start.
Proof.
  intros WG FI L HG AB MO GC.
  destruct (good_order_no_panic (calm ops) srt HS g id start frames c (calm_total ops) (calm_wf _ WG) FI L HG) as (f0 & [[g' c'] st] & H).
  exists f0, g', c', st.
  assert (H' : forall fuel, (f0 <= fuel)%nat -> execute ops srt fuel g id frames c = Some (Ok (g', c', st))).
  { intros fuel Hf. rewrite (proj1 (calm_execute fuel g id start frames c WG FI L AB MO GC)). auto. }
  split; [exact H'|]. exact (proj2 (calm_execute f0 g id start frames c WG FI L AB MO GC) _ _ _ (H' f0 (Nat.le_refl _))).
Qed.

(** In general: panics come from the traversal order only. *)
Theorem panic_is_order (g : graph N St) id start frames c : wf_graph ops g -> find_index g id = Some start ->
  sg_live (g_graph g) start = true -> frames <> [] -> all_behave PN g start -> M (g_output g) -> G c ->
  exists l, all_upstream srt (g_graph g) start = Ok l /\
    ((exists fuel, execute ops srt fuel g id frames c = Some Panic) <->
     exists l1 m l2 n l3, map fst l = l1 ++ m :: l2 ++ n :: l3 /\ link (g_graph g) m n).
Proof.
  intros WG FI L NF AB MO GC.
  destruct (panics_iff (calm ops) srt HS g id start frames c (calm_total ops) (calm_wf _ WG) FI L NF) as (l & E & H).
  exists l. split; [exact E|]. rewrite <- H. split; intros (fuel & X); exists fuel;
    pose proof (proj1 (calm_execute fuel g id start frames c WG FI L AB MO GC)); congruence.
Qed.
End Execute.

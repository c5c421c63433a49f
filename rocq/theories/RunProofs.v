(** Successful executions, for any nodes and any graph. *)
From Coq Require Import Permutation Sorted.
From Verif Require Import Machine GraphModel GraphSpec GraphWalk GraphExec GraphHistory GraphHistory2 GraphFacts GraphMeaning RunSpec.

Section Run.
Context {N St Ca F W K : Type}.
Variable ops : nodeops N St Ca F W.
Variable srt : edge_sort.
Variables (key : N -> K) (cinv : Ca -> Prop) (sinv : St -> Prop).
Hypothesis HS : sorts srt.

Notation ins g := (inputs_of srt (g_graph g)).
Notation casks g := (asks ops key (g_nodes g) (ins g)).
Notation cmade g := (made ops key cinv sinv (g_nodes g) (ins g)).

Lemma validate_one_asks : forall (g : graph N St) hc start i mode new, runnable g ->
  (i < node_bound (g_graph g))%nat -> casks g start i mode -> validate_one ops srt g hc i mode = Ok new ->
  forall j m, In (j, m) new -> casks g start j m.
Proof.
  intros g hc start i mode new HR HB A H j m Hj. unfold validate_one in H.
  rewrite (direct_upstream_ok srt (g_graph g) HS (proj1 HR)) in H by exact HB. cbn [bind] in H.
  destruct (get_nodes_ok g (ins g i) HR (inputs_bound srt HS g HR i)) as (ns & E1 & F1). rewrite E1 in H. cbn [bind] in H.
  destruct (get_node_ok g i HR HB) as (n & E2 & E3). rewrite E2 in H. cbn [bind] in H.
  destruct (lookup i hc); [|discriminate].
  destruct (n_validate _ _ _ _ _) as [modes|] eqn:V; [|discriminate]. cbn [bind] in H. injection H as <-.
  eapply asks_input with (n := n) (ns := ns); [exact A|exists n; auto| |exact V|exact Hj].
  clear - F1. induction F1; constructor; [exists y; auto|assumption].
Qed.

Lemma validate_loop_asks : forall fuel (g : graph N St) hc start stack acc v, runnable g ->
  (forall i m, In (i, m) stack -> casks g start i m /\ (i < node_bound (g_graph g))%nat) ->
  (forall i m, In (i, m) acc -> casks g start i m /\ (i < node_bound (g_graph g))%nat) ->
  validate_loop ops srt fuel g hc stack acc = Some (Ok v) ->
  (exists t, v = acc ++ t) /\
  (forall i m, In (i, m) v -> casks g start i m /\ (i < node_bound (g_graph g))%nat).
Proof.
  induction fuel as [|fuel IH]; intros g hc start stack acc v HR H1 H2 H; [discriminate|].
  destruct stack as [|(i, mode) rest].
  { cbn in H. injection H as <-. split; [exists []; now rewrite app_nil_r|exact H2]. }
  rewrite validate_loop_step in H. destruct (validate_one ops srt g hc i mode) as [new|] eqn:V; [|discriminate].
  destruct (H1 i mode (or_introl eq_refl)) as (Ri & Bi).
  assert (NEW : forall j m, In (j, m) new -> casks g start j m /\ (j < node_bound (g_graph g))%nat).
  { intros j m Hj. split; [exact (validate_one_asks g hc start i mode new HR Bi Ri V j m Hj)|].
    exact (inputs_bound srt HS g HR i j (validate_one_fst ops srt HS g hc i mode new HR Bi V j m Hj)). }
  destruct (IH g hc start (rev new ++ rest) (acc ++ new) v HR) as ((t & E) & A); [| |exact H|].
  - intros j m Hj. apply in_app_iff in Hj. destruct Hj as [Hj|Hj].
    + apply in_rev in Hj. exact (NEW j m Hj).
    + apply (H1 j m). now right.
  - intros j m Hj. apply in_app_iff in Hj. destruct Hj as [Hj|Hj]; [exact (H2 j m Hj)|exact (NEW j m Hj)].
  - split; [|exact A]. exists (new ++ t). now rewrite app_assoc.
Qed.

(** Nodes changed at most outside their key. *)
Definition keyed (a b : list N) : Prop := map key a = map key b.

Lemma keyed_nth : forall a b i n, keyed a b -> nth_error b i = Some n -> exists m, nth_error a i = Some m /\ key n = key m.
Proof.
  intros a b i n E H. unfold keyed in E. apply (map_nth_error key) in H. rewrite <- E in H.
  rewrite nth_error_map in H. destruct (nth_error a i) as [m|]; [|discriminate]. injection H as <-. eauto.
Qed.

Section Phase.
Variables (nodes : list N) (inputs : nat -> list nat) (fr : F) (start : nat).
Variable which : nat -> Prop.
Hypothesis KK : keeps_key ops key cinv sinv nodes inputs start which.
Notation masks := (asks ops key nodes inputs start).
Notation mmade := (made ops key cinv sinv nodes inputs fr start).
Notation mmade_all := (made_all ops key cinv sinv nodes inputs fr start).

Lemma lookup_all_made : forall is sc vs,
  (forall i v, lookup i sc = Some v -> (exists m c c', mmade i m v c c') /\ sinv v) ->
  lookup_all is sc = Ok vs -> mmade_all is vs /\ length vs = length is /\ Forall sinv vs.
Proof.
  induction is as [|i is IH]; intros sc vs SC H; cbn [lookup_all] in H.
  - injection H as <-. repeat constructor.
  - destruct (lookup i sc) as [a|] eqn:E; [|discriminate].
    destruct (lookup_all is sc) as [r|] eqn:R; [|discriminate]. cbn [bind] in H. injection H as <-.
    destruct (SC _ _ E) as ((m & c & c' & M) & S). destruct (IH sc r SC R) as (I1 & I2 & I3).
    split; [econstructor; [exact M|exact I1]|]. split; [cbn; now rewrite I2|now constructor].
Qed.

Lemma compute_phase_made : forall t (g : graph N St) c sc g' c', runnable g -> cinv c -> sinv (g_output g) ->
  keyed nodes (g_nodes g) -> (forall i, inputs i = ins g i) ->
  (forall i v, lookup i sc = Some v -> (exists m c c', mmade i m v c c') /\ sinv v) ->
  (forall i m, In (i, m) t -> masks i m /\ (i < node_bound (g_graph g))%nat) ->
  (forall t1 i m t2, t = t1 ++ (i, m) :: t2 -> t2 <> [] -> which i) ->
  compute_phase ops srt g fr t c sc = Ok (g', c', None) ->
  ((forall i, In i (map fst t) -> which i) -> keyed nodes (g_nodes g') /\ cinv c' /\ sinv (g_output g')) /\
  (forall t' i m, t = t' ++ [(i, m)] -> exists c1, mmade i m (g_output g') c1 c').
Proof.
  induction t as [|(i, m) t IH]; intros g c sc g' c' HR CI SI KE EI SC HA HW H; cbn [compute_phase] in H.
  - injection H as <- <-. split; [auto|]. intros t' i m E. destruct t'; discriminate.
  - destruct (HA i m (or_introl eq_refl)) as (Ai & Bi). unfold input_streams in H.
    rewrite (direct_upstream_ok srt (g_graph g) HS (proj1 HR)) in H by exact Bi. cbn [bind] in H.
    destruct (lookup_all (ins g i) sc) as [vs|] eqn:L; [|discriminate]. cbn [bind] in H.
    destruct (lookup_all_made _ _ _ SC L) as (MV & LV & FV). rewrite <- EI in LV.
    unfold compute_node_output in H. unfold get_node in H.
    destruct (nth_error (g_nodes g) i) as [n|] eqn:En; [|discriminate]. cbn [bind] in H.
    destruct (n_compute ops n fr m vs (g_output g) c) as [(((n', st), out), c1)|] eqn:Ec; [|discriminate]. cbn [bind] in H.
    assert (LK : like key nodes i n).
    { destruct (keyed_nth _ _ _ _ KE En) as (n0 & E0 & E1). exists n0. auto. }
    assert (OK : st = NsValid \/ st = NsWarning).
    { destruct st; cbn [bind] in H; try discriminate; auto. }
    assert (M : mmade i m out c c1).
    { econstructor; [exact Ai|exact LK| |exact FV|exact CI|exact SI|exact Ec|exact OK]. rewrite EI. exact MV. }
    set (g1 := with_output (with_nodes g (set_nth (g_nodes g) i n')) out) in H.
    assert (H' : compute_phase ops srt g1 fr t c1 ((i, out) :: sc) = Ok (g', c', None)).
    { destruct OK as [-> | ->]; exact H. }
    assert (KE1 : key n' = key n -> keyed nodes (g_nodes g1)).
    { intros Kn. unfold keyed. transitivity (map key (g_nodes g)); [exact KE|]. symmetry. cbn. eapply map_set_nth; eauto. }
    destruct t as [|q t].
    { cbn in H'. injection H' as <- <-. split.
      - intros W'. destruct (KK _ _ _ (W' i (or_introl eq_refl)) Ai LK _ _ _ _ _ _ _ _ _ Ec CI LV FV SI) as (Kn & CI1 & SI1). auto.
      - intros t' j mj E. destruct t' as [|p t']; [|destruct t'; discriminate].
        cbn in E. injection E as <- <-. exists c. exact M. }
    assert (Wi : which i) by (apply (HW [] i m (q :: t) eq_refl); discriminate).
    destruct (KK _ _ _ Wi Ai LK _ _ _ _ _ _ _ _ _ Ec CI LV FV SI) as (Kn & CI1 & SI1).
    assert (S1 : same_shape g g1).
    { unfold same_shape, g1, with_output, with_nodes. cbn. rewrite set_nth_length. repeat split. }
    destruct (IH g1 c1 ((i, out) :: sc) g' c') as (X1 & X2).
    + eapply runnable_shape; eauto.
    + exact CI1.
    + exact SI1.
    + auto.
    + exact EI.
    + intros j v Hj. cbn in Hj. destruct (Nat.eqb_spec j i) as [->|].
      * injection Hj as <-. split; [eauto|exact SI1].
      * exact (SC j v Hj).
    + intros j mj Hj. apply HA. now right.
    + intros t1 j mj t2 E. apply (HW ((i, m) :: t1) j mj t2). now rewrite E.
    + exact H'.
    + split.
      * intros W'. apply X1. intros j Hj. apply W'. now right.
      * intros t' j mj E. destruct t' as [|p t']; [discriminate|].
        cbn in E. injection E as _ E. exact (X2 _ _ _ E).
Qed.
End Phase.

Lemma like_keyed : forall a b i n, keyed a b -> like key b i n -> like key a i n.
Proof.
  intros a b i n E (n0 & E0 & E1). destruct (keyed_nth _ _ _ _ E E0) as (m & E2 & E3). exists m. split; congruence.
Qed.

Lemma likes_keyed : forall a b is ns, keyed a b -> Forall2 (like key b) is ns -> Forall2 (like key a) is ns.
Proof. intros a b is ns E H. induction H; constructor; [eapply like_keyed; eauto|assumption]. Qed.

Lemma asks_keyed : forall a b inputs start i m, keyed a b -> asks ops key b inputs start i m -> asks ops key a inputs start i m.
Proof.
  intros a b inputs start i m E H. induction H; [constructor|].
  eapply asks_input; eauto using like_keyed, likes_keyed.
Qed.

Scheme made_mut := Induction for made Sort Prop with made_all_mut := Induction for made_all Sort Prop.

Lemma made_keyed : forall a b inputs fr start i m v c c', keyed a b ->
  made ops key cinv sinv b inputs fr start i m v c c' -> made ops key cinv sinv a inputs fr start i m v c c'.
Proof.
  intros a b inputs fr start i m v c c' E H.
  induction H using made_mut with (P0 := fun is vs _ => made_all ops key cinv sinv a inputs fr start is vs);
    econstructor; eauto using asks_keyed, like_keyed.
Qed.

Lemma keeps_keyed : forall a b inputs start which, keyed a b -> keeps_key ops key cinv sinv a inputs start which ->
  keeps_key ops key cinv sinv b inputs start which.
Proof. intros a b inputs start which E H i m n Wi A L. apply (H i m n Wi); [eapply asks_keyed|eapply like_keyed]; eauto. Qed.

Lemma execute_frame_made : forall fuel (g : graph N St) start t fr c g' c', runnable g -> cinv c -> sinv (g_output g) ->
  keeps_key ops key cinv sinv (g_nodes g) (ins g) start (fun _ => True) ->
  (start < node_bound (g_graph g))%nat ->
  execute_frame ops srt fuel g (start :: t) fr c = Some (Ok (g', c', None)) ->
  keyed (g_nodes g) (g_nodes g') /\ cinv c' /\ sinv (g_output g') /\
  exists c1, cmade g fr start start mode_all (g_output g') c1 c'.
Proof.
  intros fuel g start t fr c g' c' HR CI SI KK HB H. unfold execute_frame in H.
  destruct (hash_phase _ _ _ _ _ _) as [hc|]; [|discriminate].
  destruct (validate_loop _ _ _ _ _ _ _) as [[v|]|] eqn:V; try discriminate. injection H as H.
  destruct (validate_loop_asks fuel g hc start [(start, mode_all)] [(start, mode_all)] v HR) with (3 := V) as ((w & ->) & A).
  1,2: intros i m [E|[]]; injection E as <- <-; split; [constructor|exact HB].
  destruct (compute_phase_made (g_nodes g) (ins g) fr start _ KK (rev ([(start, mode_all)] ++ w)) g c [] g' c')
    as (X1 & X2); auto.
  - reflexivity.
  - intros i v E. discriminate.
  - intros i m Hi. apply A. now apply in_rev.
  - destruct (X1 (fun _ _ => I)) as (X3 & X4 & X5). split; [exact X3|]. split; [exact X4|]. split; [exact X5|].
    apply (X2 (rev w) start mode_all). reflexivity.
Qed.

(** The same for one frame when the invariant need not survive the last
    computation, [start]'s own. *)
Lemma validate_loop_inputs : forall fuel (g : graph N St) hc start stack acc v, runnable g ->
  (forall i m, In (i, m) stack -> reaches (g_graph g) i start /\ (i < node_bound (g_graph g))%nat) ->
  validate_loop ops srt fuel g hc stack acc = Some (Ok v) ->
  exists t, v = acc ++ t /\ forall i m, In (i, m) t -> exists k, reaches (g_graph g) k start /\ In i (ins g k).
Proof.
  induction fuel as [|fuel IH]; intros g hc start stack acc v HR H1 H; [discriminate|].
  destruct stack as [|(i, mode) rest].
  { cbn in H. injection H as <-. exists []. split; [now rewrite app_nil_r|intros i m []]. }
  rewrite validate_loop_step in H. destruct (validate_one ops srt g hc i mode) as [new|] eqn:V; [|discriminate].
  destruct (H1 i mode (or_introl eq_refl)) as (Ri & Bi).
  assert (NEW : forall j m, In (j, m) new -> In j (ins g i)).
  { intros j m Hj. exact (validate_one_fst ops srt HS g hc i mode new HR Bi V j m Hj). }
  destruct (IH g hc start (rev new ++ rest) (acc ++ new) v HR) as (t & E & A); [|exact H|].
  - intros j m Hj. apply in_app_iff in Hj. destruct Hj as [Hj|Hj].
    + apply in_rev, NEW in Hj. split; [|exact (inputs_bound srt HS g HR i j Hj)].
      apply (in_inputs srt (g_graph g) HS (proj1 HR)) in Hj. eapply reaches_link; [exact Ri|apply Hj].
    + apply (H1 j m). now right.
  - exists (new ++ t). split; [now rewrite app_assoc|]. intros j m Hj. apply in_app_iff in Hj.
    destruct Hj as [Hj|Hj]; [exists i; split; [exact Ri|exact (NEW j m Hj)]|exact (A j m Hj)].
Qed.

Lemma reaches_chain : forall sg k start, reaches sg k start -> k <> start -> chain sg k start.
Proof.
  intros sg k start (d & H). induction H as [|d n m Hn IH L]; intros NE; [congruence|].
  destruct (Nat.eq_dec m n) as [->|NE']; [auto|]. destruct (Nat.eq_dec n start) as [->|NS].
  - now apply chain_one.
  - eapply chain_more; eauto.
Qed.

Lemma execute_last : forall fuel (g : graph N St) id start fr c g' c', wf_graph ops g -> cinv c -> sinv (g_output g) ->
  find_index g id = Some start ->
  (forall inputs, (forall n, inputs_in_slot_order (g_graph g) n (inputs n)) ->
     keeps_key ops key cinv sinv (g_nodes g) inputs start (fun i => i <> start)) ->
  execute ops srt fuel g id [fr] c = Some (Ok (g', c', ExSuccess)) ->
  exists inputs c1,
    (forall n, inputs_in_slot_order (g_graph g) n (inputs n)) /\
    made ops key cinv sinv (g_nodes g) inputs fr start start mode_all (g_output g') c1 c'.
Proof.
  intros fuel g id start fr c g' c' WF CI SI HI KK H. pose proof (wf_runnable ops g WF) as HR.
  assert (NP : execute ops srt fuel g id [fr] c <> Some Panic) by congruence.
  unfold execute in H. rewrite HI in H.
  destruct (Nat.lt_ge_cases start (node_bound (g_graph g))) as [HB|HB].
  2: { rewrite (all_upstream_panics srt (g_graph g) start HB) in H. discriminate. }
  destruct (all_upstream_ok srt (g_graph g) HS (proj1 HR) start HB) as (l & E & R). rewrite E in H.
  destruct (br_first _ _ _ R) as (t & ->). cbn [map fst] in H.
  cbn [execute_frames] in H.
  destruct (execute_frame ops srt fuel g _ fr c) as [[((g1, c1), [e|])|]|] eqn:X; try discriminate.
  { destruct e; discriminate. }
  injection H as <- <-. change (g_output (with_status (with_state g1 GsClean) ExSuccess)) with (g_output g1).
  unfold execute_frame in X.
  destruct (hash_phase _ _ _ _ _ _) as [hc|]; [|discriminate].
  destruct (validate_loop _ _ _ _ _ _ _) as [[v|]|] eqn:V; try discriminate. injection X as X.
  destruct (validate_loop_asks fuel g hc start [(start, mode_all)] [(start, mode_all)] v HR) with (3 := V) as (_ & A).
  1,2: intros i m [Q|[]]; injection Q as <- <-; split; [constructor|exact HB].
  destruct (validate_loop_inputs fuel g hc start [(start, mode_all)] [(start, mode_all)] v HR) with (2 := V) as (w & -> & B).
  { intros i m [Q|[]]. injection Q as <- <-. split; [exists O; constructor|exact HB]. }
  assert (IO : forall n, inputs_in_slot_order (g_graph g) n (ins g n)).
  { intros n. exact (inputs_slot_order srt (g_graph g) HS (wg_stable _ _ WF) n). }
  destruct (compute_phase_made (g_nodes g) (ins g) fr start _ (KK _ IO) (rev ([(start, mode_all)] ++ w)) g c [] g1 c1)
    as (_ & X2); auto.
  - reflexivity.
  - intros i v Q. discriminate.
  - intros i m Hi. apply A. now apply in_rev.
  - intros t1 i m t2 Q NE. cbn [rev app] in Q.
    assert (Hi : In (i, m) (rev w)).
    { destruct (exists_last NE) as (t3 & q & ->). change ((i, m) :: t3 ++ [q]) with (((i, m) :: t3) ++ [q]) in Q.
      rewrite app_assoc in Q. apply app_inj_tail in Q. destruct Q as (-> & _). apply in_or_app. right. now left. }
    apply in_rev in Hi. destruct (B _ _ Hi) as (k & Rk & Ik). intros ->.
    apply (in_inputs srt (g_graph g) HS (proj1 HR)) in Ik. destruct Ik as (L & NEk).
    apply NP. apply (cycle_panics ops srt HS g id start [fr] c start WF HI); [|discriminate|exists O; constructor|].
    + apply (link_live (g_graph g) (proj1 HR) start k L).
    + eapply chain_more; [exact L|congruence|]. apply reaches_chain; [exact Rk|congruence].
  - exists (ins g). destruct (X2 (rev w) start mode_all eq_refl) as (c2 & M). exists c2. split; [exact IO|exact M].
Qed.

Lemma execute_frames_made : forall fuel start t frames (g : graph N St) c g' c' fr0, runnable g -> cinv c -> sinv (g_output g) ->
  keeps_key ops key cinv sinv (g_nodes g) (ins g) start (fun _ => True) ->
  (start < node_bound (g_graph g))%nat ->
  execute_frames ops srt fuel g (start :: t) (frames ++ [fr0]) c = Some (Ok (g', c', None)) ->
  keyed (g_nodes g) (g_nodes g') /\ cinv c' /\ sinv (g_output g') /\
  exists c1, cmade g fr0 start start mode_all (g_output g') c1 c'.
Proof.
  intros fuel start t. induction frames as [|fr frames IH]; intros g c g' c' fr0 HR CI SI KK HB H; cbn [app execute_frames] in H.
  - destruct (execute_frame _ _ _ _ _ _ _) as [[((g1, c1), [e1|])|]|] eqn:E; try discriminate.
    injection H as <- <-. eapply execute_frame_made; eauto.
  - destruct (execute_frame _ _ _ _ _ _ _) as [[((g1, c1), [e1|])|]|] eqn:E; try discriminate.
    pose proof (execute_frame_shape _ _ _ _ _ _ _ _ _ _ E) as S1.
    destruct (execute_frame_made _ _ _ _ _ _ _ _ HR CI SI KK HB E) as (K1 & CI1 & SI1 & _).
    assert (G1 : g_graph g1 = g_graph g) by apply S1.
    destruct (IH g1 c1 g' c' fr0) as (K2 & CI2 & SI2 & c2 & M).
    + eapply runnable_shape; eauto.
    + exact CI1.
    + exact SI1.
    + rewrite G1. eapply keeps_keyed; eauto.
    + now rewrite G1.
    + exact H.
    + split; [unfold keyed in *; congruence|]. split; [exact CI2|]. split; [exact SI2|]. exists c2.
      rewrite G1 in M. eapply made_keyed; eauto.
Qed.

Theorem execute_made : forall fuel (g : graph N St) id start frames fr0 c g' c', wf_graph ops g -> cinv c -> sinv (g_output g) ->
  find_index g id = Some start ->
  (forall inputs, (forall n, inputs_in_slot_order (g_graph g) n (inputs n)) ->
     keeps_key ops key cinv sinv (g_nodes g) inputs start (fun _ => True)) ->
  execute ops srt fuel g id (frames ++ [fr0]) c = Some (Ok (g', c', ExSuccess)) ->
  exists inputs c1,
    (forall n, inputs_in_slot_order (g_graph g) n (inputs n)) /\
    made ops key cinv sinv (g_nodes g) inputs fr0 start start mode_all (g_output g') c1 c' /\
    map key (g_nodes g') = map key (g_nodes g) /\ cinv c' /\ sinv (g_output g').
Proof.
  intros fuel g id start frames fr0 c g' c' WF CI SI HI KK H. pose proof (wf_runnable ops g WF) as HR.
  unfold execute in H. rewrite HI in H.
  destruct (Nat.lt_ge_cases start (node_bound (g_graph g))) as [HB|HB].
  2: { rewrite (all_upstream_panics srt (g_graph g) start HB) in H. discriminate. }
  destruct (all_upstream_ok srt (g_graph g) HS (proj1 HR) start HB) as (l & E & R). rewrite E in H.
  destruct (br_first _ _ _ R) as (t & ->). cbn [map fst] in H.
  destruct (execute_frames ops srt fuel g _ _ c) as [[((g1, c1), [e|])|]|] eqn:X; try discriminate.
  { destruct e; discriminate. }
  injection H as <- <-.
  assert (IO : forall n, inputs_in_slot_order (g_graph g) n (ins g n)).
  { intros n. exact (inputs_slot_order srt (g_graph g) HS (wg_stable _ _ WF) n). }
  destruct (execute_frames_made _ _ _ _ _ _ _ _ _ HR CI SI (KK _ IO) HB X) as (K1 & CI1 & SI1 & c2 & M).
  exists (ins g), c2. split; [exact IO|]. split; [exact M|]. split; [symmetry; exact K1|split; [exact CI1|exact SI1]].
Qed.
End Run.

(* ------------------------------ statuses ------------------------------ *)

Section Status.
Context {N St Ca F W T : Type}.
Variable ops : nodeops N St Ca F W.
Variable srt : edge_sort.
Variables (stat : N -> T) (code : node_status -> T).
Hypothesis HS : sorts srt.
Hypothesis RS : records_status ops stat code.

Notation ins g := (inputs_of srt (g_graph g)).

Definition fine (l : list N) (i : nat) : Prop :=
  exists n, nth_error l i = Some n /\ (stat n = code NsValid \/ stat n = code NsWarning).
Definition faulty (l : list N) (i : nat) : Prop :=
  exists n st, nth_error l i = Some n /\ stat n = code st /\ st <> NsValid /\ st <> NsWarning.

Lemma compute_phase_status : forall t (g : graph N St) fr c sc g' c' e,
  compute_phase ops srt g fr t c sc = Ok (g', c', e) ->
  match e with
  | None => forall i, In i (map fst t) \/ fine (g_nodes g) i -> fine (g_nodes g') i
  | Some _ => exists i, In i (map fst t) /\ faulty (g_nodes g') i
  end.
Proof.
  induction t as [|(i, m) t IH]; intros g fr c sc g' c' e H; cbn [compute_phase] in H.
  - injection H as <- _ <-. intros i [[]|X]. exact X.
  - destruct (input_streams _ _ _ _) as [is|]; [|discriminate]. cbn [bind] in H.
    unfold compute_node_output in H. unfold get_node in H.
    destruct (nth_error (g_nodes g) i) as [n|] eqn:En; [|discriminate]. cbn [bind] in H.
    destruct (n_compute _ _ _ _ _ _ _) as [(((n', st), out), c1)|] eqn:Ec; [|discriminate]. cbn [bind] in H.
    assert (LT : (i < length (g_nodes g))%nat) by (apply nth_error_Some; congruence).
    pose proof (RS _ _ _ _ _ _ _ _ _ _ Ec) as R.
    set (g1 := with_output (with_nodes g (set_nth (g_nodes g) i n')) out) in H.
    assert (X : nth_error (g_nodes g1) i = Some n') by (cbn; now apply set_nth_same).
    assert (BAD : forall ec, st <> NsValid -> st <> NsWarning -> Ok (g1, c1, Some ec) = Ok (g', c', e) ->
       match e with
       | None => forall j, In j (map fst ((i, m) :: t)) \/ fine (g_nodes g) j -> fine (g_nodes g') j
       | Some _ => exists j, In j (map fst ((i, m) :: t)) /\ faulty (g_nodes g') j
       end).
    { intros ec A B Q. injection Q as <- _ <-. exists i. split; [now left|]. exists n', st. auto. }
    assert (GOOD : (st = NsValid \/ st = NsWarning) -> compute_phase ops srt g1 fr t c1 ((i, out) :: sc) = Ok (g', c', e) ->
       match e with
       | None => forall j, In j (map fst ((i, m) :: t)) \/ fine (g_nodes g) j -> fine (g_nodes g') j
       | Some _ => exists j, In j (map fst ((i, m) :: t)) /\ faulty (g_nodes g') j
       end).
    { intros OK Q. apply IH in Q. destruct e.
      - destruct Q as (j & A & B). exists j. split; [now right|exact B].
      - assert (FI : fine (g_nodes g1) i).
        { exists n'. split; [exact X|]. destruct OK as [-> | ->]; auto. }
        intros j Hj. apply Q. destruct (Nat.eq_dec j i) as [->|NE]; [now right|].
        destruct Hj as [[E|Hj]|Hj]; [cbn in E; congruence|now left|right].
        destruct Hj as (k & E & P). exists k. split; [|exact P]. cbn. rewrite set_nth_other by congruence. exact E. }
    destruct st; cbn [bind] in H;
      first [apply GOOD; [now auto|exact H] | eapply BAD; [discriminate|discriminate|exact H]].
Qed.

(** Everything upstream is validated. *)
Lemma validate_one_covers : forall (g : graph N St) hc i mode new, asks_each ops -> runnable g ->
  (i < node_bound (g_graph g))%nat -> validate_one ops srt g hc i mode = Ok new -> incl (ins g i) (map fst new).
Proof.
  intros g hc i mode new AE HR HB H. unfold validate_one in H.
  rewrite (direct_upstream_ok srt (g_graph g) HS (proj1 HR)) in H by exact HB. cbn [bind] in H.
  destruct (get_nodes_ok g (ins g i) HR (inputs_bound srt HS g HR i)) as (ns & E1 & F1). rewrite E1 in H. cbn [bind] in H.
  destruct (get_node _ _); [|discriminate]. cbn [bind] in H.
  destruct (lookup i hc); [|discriminate].
  destruct (n_validate _ _ _ _ _) as [modes|] eqn:V; [|discriminate]. cbn [bind] in H. injection H as <-.
  apply AE in V. assert (L : length (ins g i) = length ns).
  { clear - F1. induction F1; cbn; congruence. }
  rewrite combine_fst_full by congruence. apply incl_refl.
Qed.

Lemma validate_loop_covers : forall fuel (g : graph N St) hc stack acc v, asks_each ops -> runnable g ->
  (forall i m, In (i, m) acc -> In i (map fst stack) \/ incl (ins g i) (map fst acc)) ->
  (forall i m, In (i, m) stack -> (i < node_bound (g_graph g))%nat) ->
  validate_loop ops srt fuel g hc stack acc = Some (Ok v) ->
  incl acc v /\ (forall i m, In (i, m) v -> incl (ins g i) (map fst v)).
Proof.
  induction fuel as [|fuel IH]; intros g hc stack acc v AE HR H1 H2 H; [discriminate|].
  destruct stack as [|(i, mode) rest].
  { cbn in H. injection H as <-. split; [apply incl_refl|]. intros i m Hi. destruct (H1 i m Hi) as [[]|X]. exact X. }
  rewrite validate_loop_step in H. destruct (validate_one ops srt g hc i mode) as [new|] eqn:V; [|discriminate].
  pose proof (H2 i mode (or_introl eq_refl)) as Bi.
  pose proof (validate_one_covers g hc i mode new AE HR Bi V) as CV.
  destruct (IH g hc (rev new ++ rest) (acc ++ new) v AE HR) as (A & B); [| |exact H|].
  - intros j m Hj. rewrite !map_app. apply in_app_iff in Hj. destruct Hj as [Hj|Hj].
    + destruct (H1 j m Hj) as [[E|X]|X].
      * cbn in E. subst j. right. apply incl_appr. exact CV.
      * left. apply in_or_app. right. exact X.
      * right. apply incl_appl. exact X.
    + left. apply in_or_app. left. rewrite map_rev, <- in_rev. apply (in_map fst) in Hj. exact Hj.
  - intros j m Hj. apply in_app_iff in Hj. destruct Hj as [Hj|Hj].
    + apply in_rev in Hj. exact (inputs_bound srt HS g HR i j (validate_one_fst ops srt HS g hc i mode new HR Bi V j m Hj)).
    + apply (H2 j m). now right.
  - split; [|exact B]. intros q Hq. apply A, in_or_app. now left.
Qed.

Lemma execute_frame_status : forall fuel (g : graph N St) start t fr c g' c' e, runnable g -> asks_each ops ->
  (start < node_bound (g_graph g))%nat ->
  execute_frame ops srt fuel g (start :: t) fr c = Some (Ok (g', c', e)) ->
  match e with
  | None => forall i, reaches (g_graph g) i start -> fine (g_nodes g') i
  | Some _ => exists i, reaches (g_graph g) i start /\ faulty (g_nodes g') i
  end.
Proof.
  intros fuel g start t fr c g' c' e HR AE HB H. unfold execute_frame in H.
  destruct (hash_phase _ _ _ _ _ _) as [hc|]; [|discriminate].
  destruct (validate_loop _ _ _ _ _ _ _) as [[v|]|] eqn:V; try discriminate. injection H as H.
  apply compute_phase_status in H.
  destruct (validate_loop_covers fuel g hc [(start, mode_all)] [(start, mode_all)] v AE HR) with (3 := V) as (A & B).
  - intros i m [E|[]]. injection E as <- <-. left. now left.
  - intros i m [E|[]]. injection E as <- <-. exact HB.
  - destruct e.
    + destruct H as (i & Hi & X). exists i. split; [|exact X].
      apply in_map_iff in Hi. destruct Hi as ((j, m) & <- & Hj). apply in_rev in Hj. cbn [fst].
      eapply (validate_upstream ops srt HS fuel g hc start _ _ v HR); [| |exact V|exact Hj].
      * intros i' m' [Q|[]]. injection Q as <- _. split; [exists O; constructor|exact HB].
      * intros i' m' [Q|[]]. injection Q as <- _. exists O. constructor.
    + intros i (k & Hi). apply H. left. rewrite map_rev, <- in_rev.
      induction Hi as [|k n m Hn IHn L].
      * apply (in_map fst v (start, mode_all)). apply A. now left.
      * destruct (Nat.eq_dec m n) as [->|NE]; [exact IHn|].
        apply in_map_iff in IHn. destruct IHn as ((n', mo) & E & Hin). cbn [fst] in E. subst n'.
        apply (B n mo Hin). apply (in_inputs srt (g_graph g) HS (proj1 HR)). split; assumption.
Qed.

Theorem execute_status : forall fuel (g : graph N St) id start frames c g' c' st, wf_graph ops g -> asks_each ops ->
  find_index g id = Some start -> frames <> [] ->
  execute ops srt fuel g id frames c = Some (Ok (g', c', st)) ->
  if match st with ExSuccess => true | _ => false end
  then forall i, reaches (g_graph g) i start -> fine (g_nodes g') i
  else exists i, reaches (g_graph g) i start /\ faulty (g_nodes g') i.
Proof.
  intros fuel g id start frames c g' c' st WF AE HI NE H. pose proof (wf_runnable ops g WF) as HR.
  unfold execute in H. rewrite HI in H.
  destruct (Nat.lt_ge_cases start (node_bound (g_graph g))) as [HB|HB].
  2: { rewrite (all_upstream_panics srt (g_graph g) start HB) in H. discriminate. }
  destruct (all_upstream_ok srt (g_graph g) HS (proj1 HR) start HB) as (l & E & R). rewrite E in H.
  destruct (br_first _ _ _ R) as (t & ->). cbn [map fst] in H.
  assert (X : forall frames (g : graph N St) c g' c' e, runnable g -> frames <> [] -> (start < node_bound (g_graph g))%nat ->
    execute_frames ops srt fuel g (start :: map fst t) frames c = Some (Ok (g', c', e)) ->
    match e with
    | None => forall i, reaches (g_graph g) i start -> fine (g_nodes g') i
    | Some _ => exists i, reaches (g_graph g) i start /\ faulty (g_nodes g') i
    end).
  { clear - HS RS AE. induction frames as [|fr frames IH]; intros g c g' c' e HR NE HB H; [congruence|].
    cbn [execute_frames] in H.
    destruct (execute_frame _ _ _ _ _ _ _) as [[((g1, c1), e1)|]|] eqn:E; try discriminate.
    pose proof (execute_frame_shape _ _ _ _ _ _ _ _ _ _ E) as S1.
    assert (G1 : g_graph g1 = g_graph g) by apply S1.
    apply (execute_frame_status _ _ _ _ _ _ _ _ _ HR AE HB) in E. destruct e1.
    - injection H as <- _ <-. exact E.
    - destruct frames as [|fr' frames].
      + cbn [execute_frames] in H. injection H as <- _ <-. exact E.
      + rewrite <- G1. eapply IH; [eapply runnable_shape; eauto|discriminate|now rewrite G1|exact H]. }
  destruct (execute_frames ops srt fuel g _ frames c) as [[((g1, c1), [e|])|]|] eqn:Y; try discriminate;
    injection H as <- _ <-; apply (X _ _ _ _ _ _ HR NE HB) in Y.
  - destruct e; exact Y.
  - exact Y.
Qed.
End Status.

(* ------------------------------ frame ranges ------------------------------ *)

Section Ranges.
Context {N St Ca F W : Type}.
Variable ops : nodeops N St Ca F W.
Variable srt : edge_sort.

(** The same graph with other state flags. *)
Definition flagged (s : graph_state) (e : exec_status) (g : graph N St) : graph N St := with_status (with_state g s) e.

Definition lift_flags s e (r : Res (graph N St * Ca * option error_code)) :=
  match r with Ok (g, c, o) => Ok (flagged s e g, c, o) | Panic => Panic end.

Lemma get_nodes_flags : forall s e (g : graph N St) is, get_nodes (flagged s e g) is = get_nodes g is.
Proof. induction is as [|i is IH]; cbn [get_nodes]; [reflexivity|]. unfold get_node. cbn [flagged with_status with_state g_nodes]. now rewrite IH. Qed.

Lemma hash_phase_flags : forall s e fr order (g : graph N St) hc,
  hash_phase ops srt (flagged s e g) fr order hc = hash_phase ops srt g fr order hc.
Proof.
  induction order as [|i order IH]; intros g hc; cbn [hash_phase]; [reflexivity|].
  unfold get_node, input_hashes. cbn [flagged with_status with_state g_nodes g_graph].
  destruct (nth_error (g_nodes g) i); [|reflexivity]. cbn [bind].
  destruct (direct_upstream _ _ _); [|reflexivity]. cbn [bind]. destruct (lookup_all _ _); [|reflexivity]. cbn [bind]. apply IH.
Qed.

Lemma validate_loop_flags : forall s e fuel (g : graph N St) hc stack acc,
  validate_loop ops srt fuel (flagged s e g) hc stack acc = validate_loop ops srt fuel g hc stack acc.
Proof.
  induction fuel as [|fuel IH]; intros g hc stack acc; [reflexivity|].
  destruct stack as [|(i, m) rest]; [reflexivity|]. rewrite !validate_loop_step.
  assert (E : validate_one ops srt (flagged s e g) hc i m = validate_one ops srt g hc i m).
  { unfold validate_one, get_node. change (g_graph (flagged s e g)) with (g_graph g).
    destruct (direct_upstream srt (g_graph g) i); [|reflexivity]. cbn [bind]. now rewrite get_nodes_flags. }
  rewrite E. destruct (validate_one ops srt g hc i m); [apply IH|reflexivity].
Qed.

Lemma compute_phase_flags : forall s e fr t (g : graph N St) c sc,
  compute_phase ops srt (flagged s e g) fr t c sc = lift_flags s e (compute_phase ops srt g fr t c sc).
Proof.
  intros s e fr. induction t as [|(i, m) t IH]; intros g c sc; cbn [compute_phase]; [reflexivity|].
  unfold input_streams, compute_node_output, get_node. cbn [flagged with_status with_state g_nodes g_graph g_output].
  destruct (direct_upstream srt (g_graph g) i) as [ms|]; [|reflexivity]. cbn [bind].
  destruct (lookup_all ms sc) as [vs|]; [|reflexivity]. cbn [bind].
  destruct (nth_error (g_nodes g) i) as [n|]; [|reflexivity]. cbn [bind].
  destruct (n_compute _ _ _ _ _ _ _) as [(((n', st), out), c1)|]; [|reflexivity]. cbn [bind].
  destruct st; cbn [bind]; try reflexivity;
    exact (IH (with_output (with_nodes g (set_nth (g_nodes g) i n')) out) c1 ((i, out) :: sc)).
Qed.

Lemma execute_frames_flags : forall s e fuel order frames (g : graph N St) c,
  execute_frames ops srt fuel (flagged s e g) order frames c =
  match execute_frames ops srt fuel g order frames c with Some r => Some (lift_flags s e r) | None => None end.
Proof.
  intros s e fuel order. induction frames as [|fr frames IH]; intros g c; cbn [execute_frames]; [reflexivity|].
  unfold execute_frame. rewrite hash_phase_flags. destruct (hash_phase _ _ _ _ _ _) as [hc|]; [|reflexivity].
  destruct order as [|start rest]; [reflexivity|]. rewrite validate_loop_flags.
  destruct (validate_loop _ _ _ _ _ _ _) as [[v|]|]; [|reflexivity|reflexivity].
  rewrite compute_phase_flags. destruct (compute_phase ops srt g fr (rev v) c []) as [((g1, c1), [o|])|]; [reflexivity| |reflexivity].
  cbn [lift_flags]. apply IH.
Qed.

(** Running the frames in two calls. *)
Lemma execute_split : forall fuel (g : graph N St) id fs1 fs2 c g1 c1,
  execute ops srt fuel g id fs1 c = Some (Ok (g1, c1, ExSuccess)) ->
  execute ops srt fuel g1 id fs2 c1 =
  match execute ops srt fuel g id (fs1 ++ fs2) c with
  | Some (Ok (g', c', st)) => Some (Ok (with_state g' GsClean, c', st))
  | r => r
  end.
Proof.
  intros fuel g id fs1 fs2 c g1 c1 H. unfold execute in H at 1. unfold execute.
  destruct (find_index g id) as [start|] eqn:FI; [|discriminate].
  destruct (all_upstream srt (g_graph g) start) as [l|] eqn:U; [|discriminate].
  destruct (execute_frames ops srt fuel g (map fst l) fs1 c) as [[((g2, c2), [e|])|]|] eqn:E1; try discriminate.
  { destruct e; discriminate. }
  injection H as <- <-.
  assert (S2 : same_shape g g2) by exact (execute_frames_shape _ _ _ _ _ _ _ _ _ _ E1).
  destruct S2 as (G2 & _ & I2 & _ & _).
  change (find_index (with_status (with_state g2 GsClean) ExSuccess) id) with (position id (g_ids g2)).
  rewrite I2. unfold find_index in FI. rewrite FI.
  change (g_graph (with_status (with_state g2 GsClean) ExSuccess)) with (g_graph g2). rewrite G2, U.
  change (with_status (with_state g2 GsClean) ExSuccess) with (flagged GsClean ExSuccess g2).
  rewrite execute_frames_flags.
  assert (AP : forall fs1 (g g2 : graph N St) c c2, execute_frames ops srt fuel g (map fst l) fs1 c = Some (Ok (g2, c2, None)) ->
    execute_frames ops srt fuel g (map fst l) (fs1 ++ fs2) c = execute_frames ops srt fuel g2 (map fst l) fs2 c2).
  { clear. induction fs1 as [|fr fs1 IH]; intros g g2 c c2 H; cbn [app execute_frames] in *.
    - injection H as <- <-. reflexivity.
    - destruct (execute_frame _ _ _ _ _ _ _) as [[((g1, c1), [e|])|]|]; try discriminate. apply IH. exact H. }
  rewrite (AP _ _ _ _ _ E1).
  destruct (execute_frames ops srt fuel g2 (map fst l) fs2 c2) as [[((g3, c3), [e|])|]|]; reflexivity.
Qed.

Lemma execute_split_success : forall fuel (g : graph N St) id fs1 fs2 c g' c',
  execute ops srt fuel g id (fs1 ++ fs2) c = Some (Ok (g', c', ExSuccess)) <->
  exists g1 c1, execute ops srt fuel g id fs1 c = Some (Ok (g1, c1, ExSuccess)) /\
                execute ops srt fuel g1 id fs2 c1 = Some (Ok (g', c', ExSuccess)).
Proof.
  intros fuel g id fs1 fs2 c g' c'. split.
  - intros H.
    assert (S1 : exists g1 c1, execute ops srt fuel g id fs1 c = Some (Ok (g1, c1, ExSuccess))).
    { unfold execute in *. destruct (find_index g id); [|discriminate]. destruct (all_upstream _ _ _) as [l|]; [|discriminate].
      assert (X : forall fs1 (g : graph N St) c g2 c2, execute_frames ops srt fuel g (map fst l) (fs1 ++ fs2) c = Some (Ok (g2, c2, None)) ->
                exists g1 c1, execute_frames ops srt fuel g (map fst l) fs1 c = Some (Ok (g1, c1, None))).
      { clear. induction fs1 as [|fr fs1 IH]; intros g c g2 c2 H; cbn [app execute_frames] in *; [eauto|].
        destruct (execute_frame _ _ _ _ _ _ _) as [[((g1, c1), [e|])|]|]; try discriminate. eapply IH; eauto. }
      destruct (execute_frames ops srt fuel g (map fst l) (fs1 ++ fs2) c) as [[((g2, c2), [e|])|]|] eqn:E; try discriminate.
      - destruct e; discriminate.
      - destruct (X _ _ _ _ _ E) as (g1 & c1 & ->). eauto. }
    destruct S1 as (g1 & c1 & S1). exists g1, c1. split; [exact S1|].
    rewrite (execute_split _ _ _ _ fs2 _ _ _ S1), H. f_equal. f_equal.
    assert (g_state g' = GsClean).
    { unfold execute in H. destruct (find_index g id); [|discriminate]. destruct (all_upstream _ _ _) as [l|]; [|discriminate].
      destruct (execute_frames ops srt fuel g (map fst l) (fs1 ++ fs2) c) as [[((g2, c2), [e|])|]|] eqn:E; try discriminate.
      - destruct e; discriminate.
      - injection H as <- _. reflexivity. }
    destruct g'. cbn in *. now subst.
  - intros (g1 & c1 & S1 & S2). rewrite (execute_split _ _ _ _ fs2 _ _ _ S1) in S2.
    destruct (execute ops srt fuel g id (fs1 ++ fs2) c) as [[((g2, c2), st)|]|] eqn:E; try discriminate.
    injection S2 as <- <- ->.
    assert (g_state g2 = GsClean).
    { unfold execute in E. destruct (find_index g id); [|discriminate]. destruct (all_upstream _ _ _) as [l|]; [|discriminate].
      destruct (execute_frames ops srt fuel g (map fst l) (fs1 ++ fs2) c) as [[((g3, c3), [e|])|]|]; try discriminate.
      - destruct e; discriminate.
      - injection E as <- _. reflexivity. }
    destruct g2. cbn in *. now subst.
Qed.

Lemma execute_failure_stops : forall fuel (g : graph N St) id fs1 fs2 c g1 c1,
  execute ops srt fuel g id fs1 c = Some (Ok (g1, c1, ExError)) ->
  execute ops srt fuel g id (fs1 ++ fs2) c = Some (Ok (g1, c1, ExError)).
Proof.
  intros fuel g id fs1 fs2 c g1 c1 H. unfold execute in *. destruct (find_index g id); [|exact H].
  destruct (all_upstream _ _ _) as [l|]; [|discriminate].
  assert (X : forall fs1 (g : graph N St) c g2 c2 e, execute_frames ops srt fuel g (map fst l) fs1 c = Some (Ok (g2, c2, Some e)) ->
            execute_frames ops srt fuel g (map fst l) (fs1 ++ fs2) c = Some (Ok (g2, c2, Some e))).
  { clear. induction fs1 as [|fr fs1 IH]; intros g c g2 c2 e H; cbn [app execute_frames] in *; [discriminate|].
    destruct (execute_frame _ _ _ _ _ _ _) as [[((g1, c1), [e'|])|]|]; try discriminate; [exact H|]. now apply IH. }
  destruct (execute_frames ops srt fuel g (map fst l) fs1 c) as [[((g2, c2), [e|])|]|] eqn:E; try discriminate.
  rewrite (X _ _ _ _ _ _ E). exact H.
Qed.
End Ranges.

(** Executing a node with one input is executing the input and then the node. *)
From Coq Require Import Permutation.
From Verif Require Import Machine Loops GraphModel GraphSpec GraphWalk GraphExec GraphHistory IsoProofs PeelSpec.

Section Peel.
Context {N St Ca F W : Type}.
Variable ops : nodeops N St Ca F W.
Variable srt : edge_sort.
Hypothesis HS : sorts srt.
Notation ins g := (inputs_of srt (g_graph g)).

(** Walking. *)
Section Walk.
Variable sg : stable.
Hypothesis WS : wf_stable sg.
Variables start a : nat.
Hypothesis IN : inputs_in_slot_order sg start [a].
Hypothesis NC : ~ reaches sg start a.

Lemma above_link n m : reaches sg n a -> link sg m n -> reaches sg m a.
Proof. intros (k & U) L. exists (S k). now apply (up_step _ _ _ n). Qed.
Lemma above_not n : reaches sg n a -> n <> start.
Proof. intros R ->. now apply NC. Qed.

Lemma inputs_single : inputs_of srt sg start = [a].
Proof.
  destruct (inputs_slot_order srt sg HS WS start) as (ND & I & _). destruct IN as (_ & J & _).
  assert (E : forall m, In m (inputs_of srt sg start) <-> m = a).
  { intros m. rewrite I, <- J. cbn. intuition congruence. }
  destruct (inputs_of srt sg start) as [|m l]; [destruct (proj2 (E a) eq_refl)|].
  pose proof (proj1 (E m) (or_introl eq_refl)) as ->. f_equal.
  destruct l as [|m' l]; [reflexivity|]. pose proof (proj1 (E m') (or_intror (or_introl eq_refl))) as ->.
  inversion ND as [|? ? X]; subst. destruct X. now left.
Qed.

Lemma start_bound : (start < node_bound sg)%nat /\ (a < node_bound sg)%nat.
Proof.
  destruct IN as (_ & J & _). destruct (proj1 (J a) (or_introl eq_refl)) as ((s & L) & _).
  destruct (ws_ends_live _ WS _ L) as (LA & LS). split; now apply live_lt_bound.
Qed.

(** The set of discovered nodes matters only upstream of [a]. *)
Definition also (d d' : list nat) : Prop := forall n, n <> start -> memn n d' = memn n d.

Lemma memn_cons m n d : memn m (n :: d) = Nat.eqb m n || memn m d.
Proof. reflexivity. Qed.
Lemma fresh_also es : (forall e, In e es -> e_src e <> start) -> forall d d', also d d' ->
  fresh d' es = fresh d es /\ also (rev (fresh d es) ++ d) (rev (fresh d es) ++ d').
Proof.
  induction es as [|e es IH]; intros H d d' A; cbn [fresh rev app]; [auto|].
  rewrite (A (e_src e)) by (apply H; now left). destruct (memn (e_src e) d) eqn:M.
  - apply IH; [intros x Hx; apply H; now right|exact A].
  - assert (A' : also (e_src e :: d) (e_src e :: d')).
    { intros n Hn. rewrite !memn_cons. now rewrite A. }
    destruct (IH (fun x Hx => H x (or_intror Hx)) _ _ A') as (-> & B). split; [reflexivity|].
    cbn [rev]. rewrite <- !app_assoc. exact B.
Qed.

Definition deeper (nd : nat * nat) : nat * nat := (fst nd, S (snd nd)).

Lemma walk_deeper fuel : forall st d d', also d d' -> (forall nd, In nd st -> reaches sg (fst nd) a) ->
  walk_all fuel srt sg (Walker (map deeper st) d') =
  match walk_all fuel srt sg (Walker st d) with
  | Some (Ok l) => Some (Ok (map deeper l))
  | r => r
  end.
Proof.
  induction fuel as [|fuel IH]; intros st d d' A R; [reflexivity|]. cbn [walk_all].
  destruct st as [|(n, k) st]; [reflexivity|]. cbn [map]. change (deeper (n, k)) with (n, S k).
  rewrite !step_ok by assumption.
  assert (RN : reaches sg n a) by (apply (R (n, k)); now left).
  assert (HE : forall e, In e (srt (sg_incoming sg n)) -> reaches sg (e_src e) a).
  { intros e He. apply (Permutation_in _ (proj1 (HS _))) in He. apply (in_incoming sg WS) in He. destruct He as (He & ED).
    apply (above_link n); [exact RN|]. exists (e_slot e). unfold feeds. rewrite <- ED. destruct e; exact He. }
  destruct (fresh_also (srt (sg_incoming sg n)) (fun e He => above_not _ (HE e He)) d d' A) as (-> & B).
  set (fr := fresh d _) in *.
  replace (map deeper st ++ map (fun m => (m, S (S k))) fr) with (map deeper (st ++ map (fun m => (m, S k)) fr))
    by (rewrite map_app, map_map; reflexivity).
  rewrite (IH _ _ _ B).
  - destruct (walk_all _ _ _ _) as [[l|]|]; reflexivity.
  - intros nd Hnd. apply in_app_or in Hnd. destruct Hnd as [Hnd|Hnd]; [apply R; now right|].
    apply in_map_iff in Hnd. destruct Hnd as (m & <- & Hm). cbn [fst]. subst fr. clear - Hm HE.
    revert d Hm. induction (srt (sg_incoming sg n)) as [|e es IH]; intros d Hm; [destruct Hm|]. cbn [fresh] in Hm.
    destruct (memn _ _); [apply (IH (fun x Hx => HE x (or_intror Hx)) d Hm)|].
    destruct Hm as [<-|Hm]; [apply HE; now left|exact (IH (fun x Hx => HE x (or_intror Hx)) _ Hm)].
Qed.

Lemma upstream_peel : exists la, all_upstream srt sg a = Ok la /\ all_upstream srt sg start = Ok ((start, 0%nat) :: map deeper la) /\
  (forall n, In n (map fst la) -> reaches sg n a) /\ In a (map fst la).
Proof.
  destruct start_bound as (SB & AB).
  destruct (all_upstream_ok srt sg HS WS a AB) as (la & EA & RA).
  destruct (all_upstream_ok srt sg HS WS start SB) as (ls & ES & RS).
  exists la. split; [exact EA|]. split.
  - unfold all_upstream, walker_new in *. rewrite (proj2 (Nat.ltb_lt _ _) SB) in ES |- *. rewrite (proj2 (Nat.ltb_lt _ _) AB) in EA.
    cbn [bind] in *. destruct (walk_all (walk_fuel sg) srt sg (Walker [(a, 0%nat)] [a])) as [ra|] eqn:WA; [|discriminate]. subst ra.
    destruct (walk_all (walk_fuel sg) srt sg (Walker [(start, 0%nat)] [start])) as [rs|] eqn:WT; [|discriminate]. subst rs.
    pose proof (walk_mono srt sg _ _ _ WT) as WM.
    change (walk_all (S (walk_fuel sg)) srt sg (Walker [(start, 0%nat)] [start]) = Some (Ok ls)) in WM.
    cbn [walk_all] in WM. rewrite step_ok in WM by assumption. cbn [app] in WM.
    rewrite fresh_inputs, inputs_single in WM by assumption. cbn [map rev app] in WM.
    pose proof (walk_deeper (walk_fuel sg) [(a, 0%nat)] [a] [a; start]) as WD. rewrite WA in WD.
    cbn [map] in WD. change (deeper (a, 0%nat)) with (a, 1%nat) in WD. rewrite WD in WM.
    + congruence.
    + intros n Hn. rewrite !memn_cons. destruct (Nat.eqb_spec n start); [congruence|]. reflexivity.
    + intros nd [<-|[]]. exists 0%nat. constructor.
  - split.
    + intros n Hn. apply in_map_iff in Hn. destruct Hn as ((m, k) & <- & Hm).
      exists k. exact (proj1 (proj1 (br_dist _ _ _ RA _ _) Hm)).
    + destruct (br_first _ _ _ RA) as (t & ->). now left.
Qed.
End Walk.

(** Hashing. *)
Lemma hash_phase_app g fr l1 : forall l2 hc, hash_phase ops srt g fr (l1 ++ l2) hc =
  match hash_phase ops srt g fr l1 hc with Ok hc' => hash_phase ops srt g fr l2 hc' | Panic => Panic end.
Proof.
  induction l1 as [|i l1 IH]; intros l2 hc; [reflexivity|]. cbn [app hash_phase].
  destruct (get_node g i); [|reflexivity]. cbn [bind]. destruct (input_hashes srt g i hc); [|reflexivity]. cbn [bind]. apply IH.
Qed.
Lemma hash_phase_has g fr l : forall hc hc', hash_phase ops srt g fr l hc = Ok hc' ->
  forall i, In i l \/ In i (map fst hc) -> In i (map fst hc').
Proof.
  induction l as [|j l IH]; intros hc hc' H i Hi; cbn [hash_phase] in H.
  - injection H as <-. destruct Hi as [[]|Hi]. exact Hi.
  - destruct (get_node g j); [|discriminate]. cbn [bind] in H. destruct (input_hashes srt g j hc); [|discriminate]. cbn [bind] in H.
    apply (IH _ _ H). cbn [map fst]. destruct Hi as [[->|Hi]|Hi]; [right; now left|now left|right; now right].
Qed.

(** The compute loop with the streams computed so far. *)
Fixpoint phase_streams (g : graph N St) (fr : F) (todo : list (nat * Z)) (c : Ca) (sc : list (nat * St))
  : Res (graph N St * Ca * list (nat * St) * option error_code) :=
  match todo with
  | [] => Ok (g, c, sc, None)
  | (i, mode) :: t =>
      let* ins := input_streams srt g i sc in
      let* (g', c', sc', e) := compute_node_output ops g ins i fr mode c sc in
      match e with
      | Some e => Ok (g', c', sc', Some e)
      | None => phase_streams g' fr t c' sc'
      end
  end.
Lemma phase_drop fr todo : forall g c sc, compute_phase ops srt g fr todo c sc =
  match phase_streams g fr todo c sc with Ok (g', c', _, e) => Ok (g', c', e) | Panic => Panic end.
Proof.
  induction todo as [|(i, mode) t IH]; intros g c sc; cbn [compute_phase phase_streams]; [reflexivity|].
  destruct (input_streams srt g i sc); [|reflexivity]. cbn [bind].
  destruct (compute_node_output ops g _ i fr mode c sc) as [(((g', c'), sc'), [e|])|]; cbn [bind]; [reflexivity|apply IH|reflexivity].
Qed.
Lemma phase_app fr l1 : forall l2 g c sc, phase_streams g fr (l1 ++ l2) c sc =
  match phase_streams g fr l1 c sc with
  | Ok (g', c', sc', None) => phase_streams g' fr l2 c' sc'
  | r => r
  end.
Proof.
  induction l1 as [|(i, mode) t IH]; intros l2 g c sc; cbn [app phase_streams]; [reflexivity|].
  destruct (input_streams srt g i sc); [|reflexivity]. cbn [bind].
  destruct (compute_node_output ops g _ i fr mode c sc) as [(((g', c'), sc'), [e|])|]; cbn [bind]; [reflexivity|apply IH|reflexivity].
Qed.

(** What the loop leaves alone. *)
Lemma phase_keeps fr l : forall g c sc g' c' sc' e, phase_streams g fr l c sc = Ok (g', c', sc', e) ->
  g_graph g' = g_graph g /\ g_ids g' = g_ids g /\ g_state g' = g_state g /\ g_status g' = g_status g /\
  (forall i, ~ In i (map fst l) -> nth_error (g_nodes g') i = nth_error (g_nodes g) i).
Proof.
  induction l as [|(i, mode) l IH]; intros g c sc g' c' sc' e H; cbn [phase_streams] in H.
  - injection H as <- <- <- <-. auto.
  - destruct (input_streams srt g i sc) as [vs|]; [|discriminate]. cbn [bind] in H.
    destruct (compute_node_output ops g vs i fr mode c sc) as [(((g1, c1), sc1), e1)|] eqn:E; [|discriminate]. cbn [bind] in H.
    assert (K : g_graph g1 = g_graph g /\ g_ids g1 = g_ids g /\ g_state g1 = g_state g /\ g_status g1 = g_status g /\
       (forall j, j <> i -> nth_error (g_nodes g1) j = nth_error (g_nodes g) j)).
    { unfold compute_node_output in E. destruct (get_node g i) as [n|]; [|discriminate]. cbn [bind] in E.
      destruct (n_compute ops n fr mode vs (g_output g) c) as [(((n', st), out), c2)|]; [|discriminate]. cbn [bind] in E.
      destruct st; injection E as <- <- <- <-; repeat split; intros j Hj; apply set_nth_other; congruence. }
    destruct K as (K1 & K2 & K3 & K4 & K5). destruct e1 as [e1|].
    + injection H as <- <- <- <-. repeat split; auto. intros j Hj. apply K5. intros ->. apply Hj. now left.
    + destruct (IH _ _ _ _ _ _ _ H) as (J1 & J2 & J3 & J4 & J5). repeat split; try congruence.
      intros j Hj. rewrite J5 by (intros X; apply Hj; now right). apply K5. intros ->. apply Hj. now left.
Qed.

(** Validation. *)
Section Frame.
Variable g : graph N St.
Hypothesis WF : wf_graph ops g.
Variables start a : nat.
Hypothesis IN : inputs_in_slot_order (g_graph g) start [a].
Hypothesis NC : ~ reaches (g_graph g) start a.

Lemma validate_peel first hc hc' : (forall i, i <> start -> lookup i hc' = lookup i hc) ->
  forall fuel st v, (forall q, In q st -> reaches (g_graph g) (fst q) a) -> (forall q, In q v -> reaches (g_graph g) (fst q) a) ->
  validate_loop ops srt fuel g hc' st (first :: v) =
    match validate_loop ops srt fuel g hc st v with Some (Ok l) => Some (Ok (first :: l)) | r => r end /\
  forall l, validate_loop ops srt fuel g hc st v = Some (Ok l) -> exists t, l = v ++ t /\ forall q, In q l -> reaches (g_graph g) (fst q) a.
Proof.
  intros HH. induction fuel as [|fuel IH]; intros st v RS RV; cbn [validate_loop]; [split; [reflexivity|discriminate]|].
  destruct st as [|(i, mode) st].
  { split; [reflexivity|]. intros l [= <-]. exists []. split; [now rewrite app_nil_r|exact RV]. }
  assert (RI : reaches (g_graph g) i a) by (apply (RS (i, mode)); now left).
  rewrite (HH i (above_not _ _ _ NC i RI)).
  destruct (direct_upstream srt (g_graph g) i) as [ms|] eqn:DU; [|split; [reflexivity|discriminate]]. cbn [bind].
  destruct (get_nodes g ms) as [ns|]; [|split; [reflexivity|discriminate]]. cbn [bind].
  destruct (get_node g i) as [n|]; [|split; [reflexivity|discriminate]]. cbn [bind].
  destruct (lookup i hc) as [h|]; [|split; [reflexivity|discriminate]].
  destruct (n_validate ops n mode h ns) as [modes|]; [|split; [reflexivity|discriminate]]. cbn [bind].
  assert (RM : forall q, In q (combine ms modes) -> reaches (g_graph g) (fst q) a).
  { intros (j, m) Hq. apply in_combine_l in Hq. cbn [fst].
    assert (IB : (i < node_bound (g_graph g))%nat).
    { destruct (Nat.lt_ge_cases i (node_bound (g_graph g))) as [X|X]; [exact X|].
      unfold direct_upstream, walker_new in DU. rewrite (proj2 (Nat.ltb_ge _ _) X) in DU. discriminate. }
    rewrite (direct_upstream_ok srt (g_graph g) HS (wg_stable _ _ WF) i IB) in DU. injection DU as <-.
    apply (in_inputs srt (g_graph g) HS (wg_stable _ _ WF)) in Hq. apply (above_link _ _ i); tauto. }
  change ((first :: v) ++ combine ms modes) with (first :: (v ++ combine ms modes)).
  destruct (IH (rev (combine ms modes) ++ st) (v ++ combine ms modes)) as (E & X).
  { intros q Hq. apply in_app_or in Hq. destruct Hq as [Hq|Hq]; [apply RM; now apply in_rev|apply RS; now right]. }
  { intros q Hq. apply in_app_or in Hq. destruct Hq; auto. }
  split; [exact E|]. intros l Hl. destruct (X l Hl) as (t & -> & R). exists (combine ms modes ++ t). split; [now rewrite app_assoc|exact R].
Qed.

Lemma frame_peel n fr c fuel la order : nth_error (g_nodes g) start = Some n ->
  (forall h m, n_validate ops n mode_all h [m] = Ok [mode_all]) ->
  all_upstream srt (g_graph g) a = Ok la -> order = map fst la ->
  (forall m, In m order -> reaches (g_graph g) m a) -> In a order ->
  execute_frame ops srt (S fuel) g (start :: order) fr c =
  match execute_frame ops srt fuel g order fr c with
  | Some (Ok (g1, c1, None)) =>
      match n_compute ops n fr mode_all [g_output g1] (g_output g1) c1 with
      | Panic => Some Panic
      | Ok (n', st, out, c2) =>
          let g2 := with_output (with_nodes g1 (set_nth (g_nodes g1) start n')) out in
          match st with
          | NsValid | NsWarning => Some (Ok (g2, c2, None))
          | NsUninitialized => Some (Ok (g2, c2, Some EcUninitialized))
          | NsError | NsNonExistent => Some (Ok (g2, c2, Some EcFailure))
          end
      end
  | r => r
  end.
Proof.
  intros NN VA EA -> RO AO. pose proof (wg_stable _ _ WF) as WS.
  destruct (start_bound (g_graph g) WS start a IN) as (SB & AB).
  pose proof (direct_upstream_ok srt (g_graph g) HS WS start SB) as DU. rewrite (inputs_single (g_graph g) WS start a IN) in DU.
  destruct (all_upstream_ok srt (g_graph g) HS WS a AB) as (la' & EA' & RA). rewrite EA in EA'. injection EA' as <-.
  destruct (br_first _ _ _ RA) as (t & ->). cbn [map fst] in *.
  unfold execute_frame. cbn [rev]. rewrite (hash_phase_app g fr (rev (map fst t) ++ [a]) [start]).
  change (rev (map fst t) ++ [a]) with (rev (a :: map fst t)).
  destruct (hash_phase ops srt g fr (rev (a :: map fst t)) []) as [hc|] eqn:HP; [|reflexivity].
  cbn [hash_phase]. unfold get_node at 1. rewrite NN. cbn [bind]. unfold input_hashes at 1. rewrite DU. cbn [bind lookup_all].
  destruct (lookup_some a hc) as (ha & LA).
  { apply (hash_phase_has _ _ _ _ _ HP). left. apply -> in_rev. now left. }
  rewrite LA. cbn [bind]. set (hs := n_hash ops n fr [ha]).
  cbn [validate_loop]. rewrite DU. cbn [bind get_nodes]. destruct (get_node_ok g a (conj WS (wg_len _ _ WF)) AB) as (na & GA & _). rewrite GA. cbn [bind].
  unfold get_node at 1. rewrite NN. cbn [bind lookup]. rewrite Nat.eqb_refl, VA. cbn [bind combine rev app].
  destruct (validate_peel (start, mode_all) hc ((start, hs) :: hc)) with (fuel := fuel) (st := [(a, mode_all)]) (v := [(a, mode_all)]) as (E & X).
  { intros i Hi. cbn [lookup]. destruct (Nat.eqb_spec i start); [congruence|reflexivity]. }
  { intros q [<-|[]]. exists 0%nat. constructor. }
  { intros q [<-|[]]. exists 0%nat. constructor. }
  rewrite E. destruct (validate_loop ops srt fuel g hc [(a, mode_all)] [(a, mode_all)]) as [[l|]|] eqn:VL; [|reflexivity|reflexivity].
  destruct (X l eq_refl) as (t' & -> & RL). clear E X. rewrite !phase_drop. cbn [app rev].
  rewrite (phase_app fr (rev t' ++ [(a, mode_all)]) [(start, mode_all)]).
  destruct (phase_streams g fr (rev t' ++ [(a, mode_all)]) c []) as [(((g1, c1), sc), [e|])|] eqn:PH; [reflexivity| |reflexivity].
  (* the last stream computed is that of the input *)
  assert (SC : exists sc0, sc = (a, g_output g1) :: sc0).
  { rewrite phase_app in PH. destruct (phase_streams g fr (rev t') c []) as [(((g0, c0), sc0), [e0|])|]; try discriminate PH.
    cbn [phase_streams] in PH. destruct (input_streams srt g0 a sc0) as [vs|]; [|discriminate]. cbn [bind] in PH.
    unfold compute_node_output in PH. destruct (get_node g0 a) as [m|]; [|discriminate]. cbn [bind] in PH.
    destruct (n_compute ops m fr mode_all vs (g_output g0) c0) as [(((n', st), out), c2)|]; [|discriminate]. cbn [bind] in PH.
    destruct st; cbn [phase_streams] in PH; try discriminate PH; injection PH as <- <- <-; exists sc0; reflexivity. }
  destruct SC as (sc0 & ->).
  destruct (phase_keeps _ _ _ _ _ _ _ _ _ PH) as (KG & KI & KS & KT & KN).
  cbn [phase_streams]. unfold input_streams. rewrite KG, DU. cbn [bind lookup_all lookup]. rewrite Nat.eqb_refl. cbn [bind].
  unfold compute_node_output, get_node. rewrite KN, NN.
  2: { intros Hs. apply in_map_iff in Hs. destruct Hs as (q & Eq & Hq). apply NC. rewrite <- Eq. apply RL.
       apply in_app_or in Hq. destruct Hq as [Hq|Hq]; [right; now apply in_rev|left; destruct Hq as [<-|[]]; reflexivity]. }
  cbn [bind]. destruct (n_compute ops n fr mode_all [g_output g1] (g_output g1) c1) as [(((n', st), out), c2)|]; [|reflexivity]. cbn [bind].
  destruct st; reflexivity.
Qed.

Theorem execute_peel id ida n fr c fuel :
  find_index g id = Some start -> find_index g ida = Some a -> nth_error (g_nodes g) start = Some n ->
  (forall h m, n_validate ops n mode_all h [m] = Ok [mode_all]) ->
  execute ops srt (S fuel) g id [fr] c = then_node ops start n fr (g_state g) (execute ops srt fuel g ida [fr] c).
Proof.
  intros FI FA NN VA. pose proof (wg_stable _ _ WF) as WS.
  destruct (upstream_peel (g_graph g) WS start a IN NC) as (la & EA & ES & RA & AO).
  unfold execute. rewrite FI, FA, EA, ES. cbn [map fst].
  replace (map fst (map deeper la)) with (map fst la) by (rewrite map_map; reflexivity).
  cbn [execute_frames]. rewrite (frame_peel n fr c fuel la (map fst la) NN VA EA eq_refl RA AO).
  destruct (execute_frame ops srt fuel g (map fst la) fr c) as [[((g1, c1), [e|])|]|] eqn:X; [destruct e; reflexivity| |reflexivity|reflexivity].
  assert (KS : g_state g1 = g_state g).
  { unfold execute_frame in X. destruct (hash_phase _ _ _ _ _ _) as [hc|]; [|discriminate]. destruct (map fst la) as [|i0 r]; [discriminate|].
    destruct (validate_loop _ _ _ _ _ _ _) as [[l|]|]; try discriminate. rewrite phase_drop in X.
    destruct (phase_streams g fr (rev l) c []) as [(((g0, c0), sc0), e0)|] eqn:P; [|discriminate]. injection X as <- <- ->.
    destruct (phase_keeps _ _ _ _ _ _ _ _ _ P) as (_ & _ & KS & _). exact KS. }
  cbn [then_node with_status with_state g_output].
  destruct (n_compute ops n fr mode_all [g_output g1] (g_output g1) c1) as [(((n', st), out), c2)|]; [|reflexivity].
  rewrite <- KS. destruct st; reflexivity.
Qed.
End Frame.
End Peel.

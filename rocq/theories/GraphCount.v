(** When execution panics, and how many node computations it performs. *)
From Coq Require Import Permutation Sorted.
From Verif Require Import Machine GraphModel GraphSpec GraphWalk GraphExec GraphMeaning.

Scheme unfolds_ind2 := Minimality for unfolds Sort Prop
  with unfolds_all_ind2 := Minimality for unfolds_all Sort Prop.
Combined Scheme unfolds_mutind from unfolds_ind2, unfolds_all_ind2.

Lemma unfolds_fun : forall inputs,
  (forall i L, unfolds inputs i L -> forall L', unfolds inputs i L' -> L = L') /\
  (forall is L, unfolds_all inputs is L -> forall L', unfolds_all inputs is L' -> L = L').
Proof.
  intros inputs. apply unfolds_mutind.
  - intros i L _ IH L' H. inversion H; subst. f_equal. auto.
  - intros L' H. now inversion H.
  - intros i is L Ls _ IH1 _ IH2 L' H. inversion H; subst. f_equal; auto.
Qed.

Lemma unfolds_all_app : forall inputs a b La Lb, unfolds_all inputs a La -> unfolds_all inputs b Lb ->
  unfolds_all inputs (a ++ b) (La ++ Lb).
Proof.
  intros inputs a. induction a as [|i a IH]; intros b La Lb Ha Hb; inversion Ha; subst; [exact Hb|].
  cbn. rewrite <- app_assoc. constructor; auto.
Qed.

Lemma unfolds_all_perm : forall inputs a b, Permutation a b -> forall La, unfolds_all inputs a La ->
  exists Lb, unfolds_all inputs b Lb /\ Permutation La Lb.
Proof.
  intros inputs a b P. induction P as [|x a b P IH|x y a|a b c P1 IH1 P2 IH2]; intros La H.
  - exists La. split; [exact H|constructor 1 || reflexivity].
  - inversion H; subst. destruct (IH _ H4) as (Lb & H5 & P5). exists (L ++ Lb).
    split; [constructor; assumption|]. now apply Permutation_app_head.
  - inversion H; subst. inversion H4; subst. exists (L0 ++ (L ++ Ls0)). split.
    + constructor; [assumption|]. constructor; assumption.
    + rewrite !app_assoc. apply Permutation_app_tail, Permutation_app_comm.
  - destruct (IH1 _ H) as (Lb & H1 & Q1). destruct (IH2 _ H1) as (Lc & H2 & Q2).
    exists Lc. split; [exact H2|]. eapply Permutation_trans; eauto.
Qed.

Section Count.
Context {N St Ca F W : Type}.
Variable ops : nodeops N St Ca F W.
Variable srt : edge_sort.
Hypothesis HS : sorts srt.
Hypothesis TOT : total_ops ops.
Notation ins g := (inputs_of srt (g_graph g)).

(** Every entry's inputs occur later in the list. *)
Definition closed (inputs : nat -> list nat) (v : list nat) : Prop :=
  forall l1 j l2, v = l1 ++ j :: l2 -> incl (inputs j) l2.

Lemma closed_app : forall inputs a b, closed inputs a -> closed inputs b -> closed inputs (a ++ b).
Proof.
  intros inputs a b Ha Hb l1 j l2 E. destruct (split_app_cases _ _ _ _ _ E) as [(l & E1 & ->)|(l & E1 & _)].
  - intros x Hx. apply in_app_iff. left. exact (Ha _ _ _ E1 _ Hx).
  - exact (Hb _ _ _ E1).
Qed.

Lemma validate_one_total : forall (g : graph N St) hc i mode, runnable g ->
  (i < node_bound (g_graph g))%nat -> In i (map fst hc) ->
  exists new, validate_one ops srt g hc i mode = Ok new /\ map fst new = ins g i.
Proof.
  intros g hc i mode HR HB Hin. unfold validate_one.
  rewrite (direct_upstream_ok srt (g_graph g) HS (proj1 HR)) by exact HB. cbn [bind].
  destruct (get_nodes_ok g (ins g i) HR (inputs_bound srt HS g HR i)) as (ns & E1 & F1).
  rewrite E1. cbn [bind]. destruct (get_node_ok g i HR HB) as (n & E2 & E3). rewrite E2. cbn [bind].
  destruct (lookup_some i hc Hin) as (h & E4). rewrite E4.
  destruct (proj1 TOT n mode h ns) as (modes & E5 & L5). rewrite E5. cbn [bind].
  eexists. split; [reflexivity|]. apply combine_fst_full. rewrite L5. eapply forall2_len; eassumption.
Qed.

(** Running the loop on a stack prefix. *)
Definition grows (g : graph N St) (hc : list (nat * Z)) (stack : list (nat * Z)) : Prop :=
  exists k new L, unfolds_all (ins g) (map fst stack) L /\
    Permutation (map fst stack ++ map fst new) L /\
    closed (ins g) (map fst new) /\
    (forall j, In j (map fst stack) -> incl (ins g j) (map fst new)) /\
    (forall rest acc fuel,
       validate_loop ops srt (k + fuel) g hc (stack ++ rest) acc =
       validate_loop ops srt fuel g hc rest (acc ++ new)).

Lemma grows_app : forall g hc s, (forall p, In p s -> grows g hc [p]) -> grows g hc s.
Proof.
  intros g hc s. induction s as [|p s IH]; intros H.
  - exists O, [], []. repeat split; try constructor.
    + intros l1 j l2 E. destruct l1; discriminate.
    + intros j [].
    + intros. cbn. now rewrite app_nil_r.
  - destruct (H p (or_introl eq_refl)) as (k1 & n1 & L1 & U1 & P1 & C1 & I1 & E1).
    destruct IH as (k2 & n2 & L2 & U2 & P2 & C2 & I2 & E2); [intros q Hq; apply H; now right|].
    exists (k1 + k2)%nat, (n1 ++ n2), (L1 ++ L2). split; [|split; [|split; [|split]]].
    + apply (unfolds_all_app (ins g) (map fst [p]) (map fst s)); assumption.
    + rewrite map_app. change (map fst (p :: s)) with (map fst [p] ++ map fst s).
      rewrite <- P1, <- P2, <- !app_assoc. apply Permutation_app_head.
      rewrite !app_assoc. apply Permutation_app_tail, Permutation_app_comm.
    + rewrite map_app. now apply closed_app.
    + intros j Hj x Hx. rewrite map_app, in_app_iff. change (map fst (p :: s)) with (map fst [p] ++ map fst s) in Hj.
      apply in_app_iff in Hj. destruct Hj as [Hj|Hj]; [left; exact (I1 _ Hj _ Hx)|right; exact (I2 _ Hj _ Hx)].
    + intros rest acc fuel. rewrite <- Nat.add_assoc. change ((p :: s) ++ rest) with ([p] ++ (s ++ rest)).
      now rewrite E1, E2, app_assoc.
Qed.

Lemma grows_ordered : forall g hc order, runnable g ->
  (forall i, In i order -> (i < node_bound (g_graph g))%nat) ->
  ordered (ins g) order -> map fst hc = order ->
  forall i mode, In i order -> grows g hc [(i, mode)].
Proof.
  intros g hc order HR HB HO HH.
  assert (G : forall len l2 l1 i, length l2 = len -> order = l1 ++ i :: l2 -> forall mode, grows g hc [(i, mode)]).
  { induction len as [len IH] using (well_founded_induction lt_wf).
    intros l2 l1 i HL E mode.
    assert (Hi : In i order) by (rewrite E; apply in_app_iff; right; now left).
    destruct (validate_one_total g hc i mode HR (HB i Hi)) as (new & V & FST); [now rewrite HH|].
    assert (X : grows g hc (rev new)).
    { apply grows_app. intros (j, m) Hj. apply in_rev in Hj.
      assert (Hin : In j (ins g i)) by (rewrite <- FST; apply (in_map fst) in Hj; exact Hj).
      apply (HO _ _ _ E) in Hin. apply in_split in Hin. destruct Hin as (a & b & ->).
      apply (IH (length b)) with (l2 := b) (l1 := l1 ++ i :: a); [|reflexivity|].
      - rewrite <- HL, app_length. cbn. lia.
      - rewrite E, <- app_assoc. reflexivity. }
    destruct X as (k & nn & L & U & P & C & I & X).
    assert (PR : Permutation (map fst (rev new)) (ins g i)).
    { rewrite map_rev, FST. apply Permutation_sym, Permutation_rev. }
    destruct (unfolds_all_perm _ _ _ PR _ U) as (L' & U' & P').
    exists (S k), (new ++ nn), ((i :: L') ++ []). split; [|split; [|split; [|split]]].
    - cbn [map fst]. constructor; [|constructor]. constructor. exact U'.
    - cbn [map fst app]. rewrite app_nil_r, map_app. constructor. rewrite <- P', <- P.
      apply Permutation_app_tail. rewrite map_rev. apply Permutation_rev.
    - intros a j b Eab. rewrite map_app in Eab.
      destruct (split_app_cases _ _ _ _ _ Eab) as [(l & E1 & ->)|(l & E1 & _)].
      + intros x Hx. apply in_app_iff. right. apply (I j); [|exact Hx].
        rewrite map_rev, <- in_rev, E1. apply in_app_iff. right. now left.
      + exact (C _ _ _ E1).
    - intros j [<-|[]] x Hx. cbn [fst] in Hx. rewrite map_app, in_app_iff. left. now rewrite FST.
    - intros rest acc fuel. cbn [Nat.add app]. rewrite validate_loop_step, V, X. now rewrite app_assoc. }
  intros i mode Hi. apply in_split in Hi. destruct Hi as (l1 & l2 & E). exact (G _ l2 l1 i eq_refl E mode).
Qed.

Lemma compute_phase_total : forall fr t (g : graph N St) c sc, runnable g ->
  (forall i m, In (i, m) t -> (i < node_bound (g_graph g))%nat) ->
  (forall t1 i m t2, t = t1 ++ (i, m) :: t2 -> incl (ins g i) (rev (map fst t1) ++ map fst sc)) ->
  exists g' c' e, compute_phase ops srt g fr t c sc = Ok (g', c', e) /\
    (forall cnt, counting_ops ops cnt -> e = None /\ cnt c' = (cnt c + length t)%nat).
Proof.
  intros fr. induction t as [|(i, m) t IH]; intros g c sc HR HB HO; cbn [compute_phase].
  - exists g, c, None. split; [reflexivity|]. intros cnt _. cbn. split; [reflexivity|lia].
  - pose proof (HB i m (or_introl eq_refl)) as Bi.
    unfold input_streams. rewrite (direct_upstream_ok srt (g_graph g) HS (proj1 HR)) by exact Bi. cbn [bind].
    destruct (lookup_all_ok (ins g i) sc) as (vs & E1 & F1); [exact (HO [] i m t eq_refl)|].
    rewrite E1. cbn [bind]. unfold compute_node_output.
    destruct (get_node_ok g i HR Bi) as (n & E2 & E3). rewrite E2. cbn [bind].
    destruct (proj2 TOT n fr m vs (g_output g) c) as ((((n' & st) & out) & c1) & E4). rewrite E4. cbn [bind].
    set (g1 := with_output (with_nodes g (set_nth (g_nodes g) i n')) out).
    assert (S1 : same_shape g g1).
    { unfold same_shape, g1, with_output, with_nodes. cbn. rewrite set_nth_length. repeat split. }
    assert (X : exists g' c' e, compute_phase ops srt g1 fr t c1 ((i, out) :: sc) = Ok (g', c', e) /\
       (forall cnt, counting_ops ops cnt -> e = None /\ cnt c' = (cnt c1 + length t)%nat)).
    { apply IH.
      - eapply runnable_shape; eauto.
      - intros j mj Hj. apply (HB j mj). now right.
      - intros t1 j mj t2 ->. cbn. pose proof (HO ((i, m) :: t1) j mj t2 eq_refl) as H. cbn in H.
        rewrite <- app_assoc in H. exact H. }
    destruct X as (g' & c' & e & X1 & X2).
    destruct st; try (exists g1, c1, (Some EcFailure); split; [reflexivity|];
      intros cnt CN; destruct (CN _ _ _ _ _ _ _ _ _ _ E4) as ([Q|Q] & _); discriminate);
     try (exists g1, c1, (Some EcUninitialized); split; [reflexivity|];
      intros cnt CN; destruct (CN _ _ _ _ _ _ _ _ _ _ E4) as ([Q|Q] & _); discriminate);
     (exists g', c', e; split; [exact X1|]; intros cnt CN; destruct (X2 cnt CN) as (-> & Y);
      destruct (CN _ _ _ _ _ _ _ _ _ _ E4) as (_ & Q); cbn [length]; split; [reflexivity|lia]).
Qed.

Lemma execute_frame_total : forall (g : graph N St) order fr start t, runnable g ->
  order = start :: t ->
  (forall i, In i order -> (i < node_bound (g_graph g))%nat) -> ordered (ins g) order ->
  exists fuel0 L, unfolds (ins g) start L /\
    forall c, exists g' c' e, (forall fuel, (fuel0 <= fuel)%nat ->
      execute_frame ops srt fuel g order fr c = Some (Ok (g', c', e))) /\
    (forall cnt, counting_ops ops cnt -> e = None /\ cnt c' = (cnt c + length L)%nat).
Proof.
  intros g order fr start t HR EO HB HO. unfold execute_frame.
  destruct (hash_phase_ordered ops srt HS g fr order HR HB HO) as (hc & E & HH). rewrite E.
  assert (Hs : In start order) by (rewrite EO; now left).
  destruct (grows_ordered g hc order HR HB HO HH start mode_all Hs) as (k & new & L & U & P & C & I & V).
  cbn [map fst] in U. inversion U; subst. inversion H3; subst. rewrite app_nil_r in P. cbn [map fst app] in *.
  exists (S k), L0. split; [assumption|]. intros c.
  destruct (compute_phase_total fr (rev ((start, mode_all) :: new)) g c [] HR) as (g' & c' & e & X1 & X2).
  - intros i m Hi. apply in_rev in Hi. destruct Hi as [Ei|Hi].
    + injection Ei as <- _. exact (HB _ Hs).
    + (* everything pushed is an input of something *)
      apply (in_map fst) in Hi. cbn in Hi.
      assert (IL : In i L0) by (eapply Permutation_in; [exact P|]; now right).
      clear - HR IL H1 Hs HB HS.
      assert (G : (forall j L, unfolds (ins g) j L -> (j < node_bound (g_graph g))%nat ->
                    forall x, In x L -> (x < node_bound (g_graph g))%nat) /\
                  (forall is L, unfolds_all (ins g) is L -> (forall j, In j is -> (j < node_bound (g_graph g))%nat) ->
                    forall x, In x L -> (x < node_bound (g_graph g))%nat)).
      { apply unfolds_mutind.
        - intros j L _ IH Bj x [<-|Hx]; [exact Bj|]. apply IH; [|exact Hx].
          intros y Hy. exact (inputs_bound srt HS g HR j y Hy).
        - intros _ x [].
        - intros j is L Ls _ IH1 _ IH2 B x Hx. apply in_app_iff in Hx. destruct Hx as [Hx|Hx].
          + apply IH1; [|exact Hx]. apply B. now left.
          + apply IH2; [|exact Hx]. intros y Hy. apply B. now right. }
      exact (proj1 G _ _ H1 (HB _ Hs) _ IL).
  - intros t1 i m t2 Er. apply (f_equal (@rev _)) in Er. rewrite rev_involutive, rev_app_distr in Er.
    cbn in Er. rewrite <- app_assoc in Er. cbn in Er. cbn. rewrite app_nil_r, <- map_rev.
    destruct (rev t2) as [|q t2']; cbn in Er.
    + injection Er as <- _ <-. apply (I start). now left.
    + injection Er as _ Er. apply (C (map fst t2') i). rewrite Er, map_app. reflexivity.
  - exists g', c', e. split.
    + intros fuel Hf. cbn [hd]. replace fuel with (k + S (fuel - S k))%nat by lia.
      rewrite (V [] [(start, mode_all)] (S (fuel - S k))). cbn [validate_loop app].
      now rewrite X1.
    + intros cnt CN. destruct (X2 cnt CN) as (-> & Y). split; [reflexivity|].
      rewrite Y. f_equal. rewrite rev_length. apply Permutation_length in P. cbn in *. rewrite map_length in P. lia.
Qed.

Lemma execute_frames_total : forall order start t frames (g : graph N St) c, runnable g ->
  order = start :: t ->
  (forall i, In i order -> (i < node_bound (g_graph g))%nat) -> ordered (ins g) order ->
  exists fuel0 g' c' e, (forall fuel, (fuel0 <= fuel)%nat ->
      execute_frames ops srt fuel g order frames c = Some (Ok (g', c', e))) /\
    forall cnt L, unfolds (ins g) start L -> counting_ops ops cnt ->
      e = None /\ cnt c' = (cnt c + length frames * length L)%nat.
Proof.
  intros order start t. induction frames as [|fr frames IH]; intros g c HR EO HB HO.
  - exists O, g, c, None. split; [reflexivity|]. intros. cbn. split; [reflexivity|lia].
  - destruct (execute_frame_total g order fr start t HR EO HB HO) as (k1 & L1 & U1 & X).
    destruct (X c) as (g1 & c1 & e1 & X1 & X2). destruct e1 as [e1|].
    + exists k1, g1, c1, (Some e1). split.
      * intros fuel Hf. cbn [execute_frames]. now rewrite (X1 fuel Hf).
      * intros cnt L _ CN. destruct (X2 cnt CN). discriminate.
    + assert (S1 : same_shape g g1) by (eapply execute_frame_shape; eapply (X1 k1); lia).
      assert (G1 : g_graph g1 = g_graph g) by apply S1.
      destruct (IH g1 c1) as (k2 & g2 & c2 & e2 & Y1 & Y2).
      { eapply runnable_shape; eauto. } { exact EO. } { now rewrite G1. } { now rewrite G1. }
      exists (Nat.max k1 k2), g2, c2, e2. split.
      * intros fuel Hf. cbn [execute_frames]. rewrite (X1 fuel) by lia. apply Y1. lia.
      * intros cnt L U CN. destruct (X2 cnt CN) as (_ & Z1).
        rewrite <- G1 in U. destruct (Y2 cnt L U CN) as (-> & Z2). split; [reflexivity|].
        rewrite G1 in U. assert (L1 = L) by exact (proj1 (unfolds_fun (ins g)) _ _ U1 _ U). subst L1.
        cbn [length]. lia.
Qed.

(** With nodes that do not panic themselves, an execution whose traversal order
    is good does not panic and, if the nodes always succeed, computes one node
    per path and frame. *)
Theorem execute_total : forall (g : graph N St) id start l frames c, runnable g ->
  find_index g id = Some start -> (start < node_bound (g_graph g))%nat ->
  all_upstream srt (g_graph g) start = Ok l -> ordered (ins g) (map fst l) ->
  exists fuel0 g' c' st, (forall fuel, (fuel0 <= fuel)%nat ->
      execute ops srt fuel g id frames c = Some (Ok (g', c', st))) /\
    forall cnt L, unfolds (ins g) start L -> counting_ops ops cnt ->
      st = ExSuccess /\ cnt c' = (cnt c + length frames * length L)%nat.
Proof.
  intros g id start l frames c HR HI HB HL HO.
  destruct (all_upstream_ok srt (g_graph g) HS (proj1 HR) start HB) as (l' & E & R).
  assert (l' = l) by congruence. subst l'.
  destruct (br_first _ _ _ R) as (t & ->).
  destruct (execute_frames_total (map fst ((start, O) :: t)) start (map fst t) frames g c HR eq_refl
              (bfs_bounds g start _ HR HB R) HO) as (k & g' & c' & e & X1 & X2).
  destruct e as [e|].
  - exists k. do 3 eexists. split.
    + intros fuel Hf. unfold execute. rewrite HI, HL, (X1 fuel Hf). reflexivity.
    + intros cnt L U CN. destruct (X2 cnt L U CN). discriminate.
  - exists k. do 3 eexists. split.
    + intros fuel Hf. unfold execute. rewrite HI, HL, (X1 fuel Hf). reflexivity.
    + intros cnt L U CN. destruct (X2 cnt L U CN). auto.
Qed.

(** Exactly when: some node is visited before a node it feeds. *)
Definition bad_order (sg : stable) (order : list nat) : Prop :=
  exists l1 m l2 n l3, order = l1 ++ m :: l2 ++ n :: l3 /\ link sg m n.

Lemma not_ordered_bad : forall (g : graph N St) start l, runnable g -> bfs_result (g_graph g) start l ->
  (~ ordered (ins g) (map fst l) <-> bad_order (g_graph g) (map fst l)).
Proof.
  intros g start l HR R. pose proof (br_nodup _ _ _ R) as ND. split.
  - intros NO. destruct (ordered_dec (ins g) (map fst l)) as [H|(l1 & n & l2 & x & E & Hx & Hn)]; [contradiction|].
    pose proof (proj1 (in_inputs srt (g_graph g) HS (proj1 HR) n x) Hx) as (L & NE).
    assert (RX : In x (map fst l)).
    { apply (br_complete _ _ _ R). eapply reaches_link; [|exact L]. apply (br_complete _ _ _ R).
      rewrite E. apply in_app_iff. right. now left. }
    rewrite E in RX. apply in_app_iff in RX. destruct RX as [RX|[RX|RX]]; [|congruence|contradiction].
    apply in_split in RX. destruct RX as (a & b & ->). exists a, x, b, n, l2. split; [|exact L].
    rewrite E, <- app_assoc. reflexivity.
  - intros (l1 & m & l2 & n & l3 & E & L) HO. rewrite E in ND, HO.
    assert (NE : m <> n). { intros ->. apply NoDup_remove_2 in ND. apply ND, in_app_iff. right. apply in_app_iff. right. now left. }
    assert (X : In m l3).
    { apply (HO (l1 ++ m :: l2) n l3); [rewrite <- app_assoc; reflexivity|].
      apply (proj2 (in_inputs srt (g_graph g) HS (proj1 HR) n m)). auto. }
    apply NoDup_remove_2 in ND. apply ND, in_app_iff. right. apply in_app_iff. right. now right.
Qed.

Theorem execute_panics_iff : forall (g : graph N St) id start l frames c, runnable g ->
  find_index g id = Some start -> (start < node_bound (g_graph g))%nat -> frames <> [] ->
  all_upstream srt (g_graph g) start = Ok l ->
  ((exists fuel, execute ops srt fuel g id frames c = Some Panic) <-> bad_order (g_graph g) (map fst l)).
Proof.
  intros g id start l frames c HR HI HB HF HL.
  destruct (all_upstream_ok srt (g_graph g) HS (proj1 HR) start HB) as (l' & E & R).
  assert (l' = l) by congruence. subst l'. rewrite <- (not_ordered_bad g start l HR R). split.
  - intros (fuel & X) HO. destruct (execute_total g id start l frames c HR HI HB HL HO) as (k & g' & c' & st & Y & _).
    destruct (execute_finishes ops srt HS g id frames c HR) as (k2 & r & Z).
    assert (MONO : forall f f' r, (f <= f')%nat -> execute ops srt f g id frames c = Some r ->
              execute ops srt f' g id frames c = Some r).
    { clear. intros f f' r Hf.
      assert (VL : forall f f' (g : graph N St) hc st acc r, (f <= f')%nat -> validate_loop ops srt f g hc st acc = Some r ->
                validate_loop ops srt f' g hc st acc = Some r).
      { clear. induction f as [|f IH]; intros f' g hc st acc r Hf H; [discriminate|].
        destruct f' as [|f']; [lia|]. destruct st as [|(i, m) rest]; [exact H|].
        rewrite validate_loop_step in *. destruct (validate_one ops srt g hc i m); [|exact H].
        apply IH; [lia|exact H]. }
      assert (EF : forall (g : graph N St) order fr c r, execute_frame ops srt f g order fr c = Some r ->
                 execute_frame ops srt f' g order fr c = Some r).
      { intros g0 order fr c0 r0 H. unfold execute_frame in *. destruct (hash_phase _ _ _ _ _ _); [|exact H].
        destruct order; [exact H|]. destruct (validate_loop ops srt f _ _ _ _) eqn:V; [|discriminate].
        now rewrite (VL _ _ _ _ _ _ _ Hf V). }
      assert (EFS : forall frames order (g : graph N St) c r, execute_frames ops srt f g order frames c = Some r ->
                 execute_frames ops srt f' g order frames c = Some r).
      { clear - EF. induction frames as [|fr frames IH]; intros order g c r H; [exact H|]. cbn [execute_frames] in *.
        destruct (execute_frame ops srt f g order fr c) as [x|] eqn:V; [|discriminate].
        rewrite (EF _ _ _ _ _ V). destruct x as [((g1, c1), [e|])|]; try exact H. now apply IH. }
      unfold execute. destruct (find_index g id); [|trivial]. destruct (all_upstream _ _ _); [|trivial].
      destruct (execute_frames ops srt f g _ frames c) as [x|] eqn:V; [|discriminate].
      now rewrite (EFS _ _ _ _ _ V). }
    pose proof (MONO _ (Nat.max fuel k) _ (Nat.le_max_l _ _) X) as A.
    rewrite (Y (Nat.max fuel k)) in A by lia. discriminate.
  - intros NO. exists O. apply (execute_unordered ops srt HS g id start frames c l); assumption.
Qed.

(* ------------------------------ trees ------------------------------ *)

(** [up_chain k x a]: [k] links between distinct nodes lead from [x] down to [a]. *)
Inductive up_chain (sg : stable) : nat -> nat -> nat -> Prop :=
| uc_here : forall a, up_chain sg 0 a a
| uc_step : forall k x n a, link sg x n -> x <> n -> up_chain sg k n a -> up_chain sg (S k) x a.

Lemma up_chain_snoc : forall sg k x a b, up_chain sg k x a -> link sg a b -> a <> b -> up_chain sg (S k) x b.
Proof.
  intros sg k x a b H L NE. induction H as [a|k x n a L' NE' H IH].
  - econstructor; [exact L|exact NE|constructor].
  - econstructor; [exact L'|exact NE'|]. apply IH; assumption.
Qed.

Lemma up_chain_reaches : forall sg k x a start, up_chain sg k x a -> reaches sg a start -> reaches sg x start.
Proof.
  intros sg k x a start H. induction H as [a|k x n a L NE H IH]; intros R; [exact R|].
  eapply reaches_link; [|exact L]. auto.
Qed.

Lemma tree_chain_unique : forall sg start, tree sg start ->
  forall k x a b, up_chain sg k x a -> up_chain sg k x b -> reaches sg a start -> reaches sg b start -> a = b.
Proof.
  intros sg start (T1 & _) k x a b H. revert b. induction H as [a|k x n a L NE H IH]; intros b Hb Ra Rb.
  - now inversion Hb.
  - inversion Hb as [|k' x' n' b' L' NE' H' E1 E2 E3]; subst.
    assert (n = n').
    { apply (T1 x n n'); try assumption; eapply up_chain_reaches; eauto. }
    subst n'. now apply IH.
Qed.

Lemma tree_dist : forall sg start, tree sg start -> forall m n dm dn, link sg m n -> m <> n ->
  is_dist sg start n dn -> is_dist sg start m dm -> dm = S dn.
Proof.
  intros sg start (T1 & T2) m n dm dn Hl Hne Dn Dm. destruct Dm as (U & M). destruct U as [|k n' m' U L].
  - exfalso. apply Hne. symmetry. apply T2; [|exact Hl]. exists dn. apply Dn.
  - destruct (Nat.eq_dec m' n') as [->|Hne'].
    + pose proof (M k U). lia.
    + assert (n = n').
      { apply (T1 m'); try assumption; [exists dn; apply Dn|exists k; exact U]. }
      subst n'. pose proof (proj2 Dn k U). pose proof (M (S dn)). 
      assert (up sg start (S dn) m') by (econstructor; [apply Dn|exact L]). specialize (H0 H1). lia.
Qed.

Lemma chain_dist : forall sg start l, bfs_result sg start l -> tree sg start ->
  forall k x a da, up_chain sg k x a -> is_dist sg start a da -> is_dist sg start x (k + da).
Proof.
  intros sg start l R T k x a da H. induction H as [a|k x n a L NE H IH]; intros D; [exact D|].
  specialize (IH D).
  assert (RX : reaches sg x start).
  { eapply reaches_link; [|exact L]. exists (k + da)%nat. apply IH. }
  destruct (bfs_dist_exists sg start l x R RX) as (dx & Dx).
  assert (dx = S (k + da)) by exact (tree_dist sg start T x n dx _ L NE IH Dx). subst dx. exact Dx.
Qed.

Theorem tree_unfolds_once : forall (g : graph N St) start l L, runnable g ->
  bfs_result (g_graph g) start l -> tree (g_graph g) start ->
  unfolds (ins g) start L -> NoDup L /\ forall x, In x L <-> reaches (g_graph g) x start.
Proof.
  intros g start l L HR R T U.
  assert (CH : (forall i M, unfolds (ins g) i M -> forall x, In x M -> exists k, up_chain (g_graph g) k x i) /\
     (forall is M, unfolds_all (ins g) is M -> forall x, In x M ->
        exists j k, In j is /\ up_chain (g_graph g) k x j)).
  { apply unfolds_mutind.
    - intros i M _ IH x [<-|Hx]; [exists O; constructor|]. destruct (IH x Hx) as (j & k & Hj & C).
      apply (proj1 (in_inputs srt (g_graph g) HS (proj1 HR) i j)) in Hj. destruct Hj as (L1 & NE).
      exists (S k). eapply up_chain_snoc; eauto.
    - intros x [].
    - intros i is M Ms _ IH1 _ IH2 x Hx. apply in_app_iff in Hx. destruct Hx as [Hx|Hx].
      + destruct (IH1 x Hx) as (k & C). exists i, k. split; [now left|exact C].
      + destruct (IH2 x Hx) as (j & k & Hj & C). exists j, k. split; [now right|exact C]. }
  assert (ND : (forall i M, unfolds (ins g) i M -> reaches (g_graph g) i start -> NoDup M) /\
     (forall is M, unfolds_all (ins g) is M -> NoDup is ->
        (exists i, reaches (g_graph g) i start /\ forall j, In j is -> link (g_graph g) j i /\ j <> i) -> NoDup M)).
  { apply unfolds_mutind.
    - intros i M UM IH Ri. assert (LI : forall j, In j (ins g i) -> link (g_graph g) j i /\ j <> i).
      { intros j Hj. now apply (proj1 (in_inputs srt (g_graph g) HS (proj1 HR) i j)). }
      constructor.
      + intros Hi. destruct (proj2 CH _ _ UM i Hi) as (j & k & Hj & C). destruct (LI j Hj) as (L1 & NE).
        destruct (bfs_dist_exists _ start l i R Ri) as (di & Di).
        pose proof (chain_dist _ start l R T (S k) i i di (up_chain_snoc _ _ _ _ _ C L1 NE) Di) as D2.
        pose proof (proj2 D2 di (proj1 Di)). lia.
      + apply IH; [apply (inputs_nodup srt (g_graph g) HS (proj1 HR) i)|]. exists i. auto.
    - intros _ _. constructor.
    - intros i is M Ms UM IH1 UMs IH2 NDi (p & Rp & HP). inversion NDi; subst.
      assert (Ri : reaches (g_graph g) i start).
      { eapply reaches_link; [exact Rp|]. apply HP. now left. }
      apply nodup_app_intro.
      + apply IH1. exact Ri.
      + apply IH2; [assumption|]. exists p. split; [exact Rp|]. intros j Hj. apply HP. now right.
      + intros x Hx Hy. destruct (proj1 CH _ _ UM x Hx) as (k1 & C1).
        destruct (proj2 CH _ _ UMs x Hy) as (j & k2 & Hj & C2).
        destruct (HP i (or_introl eq_refl)) as (Li & NEi). destruct (HP j (or_intror Hj)) as (Lj & NEj).
        assert (Rj : reaches (g_graph g) j start) by (eapply reaches_link; [exact Rp|exact Lj]).
        destruct (bfs_dist_exists _ start l p R Rp) as (dp & Dp).
        pose proof (chain_dist _ start l R T _ _ _ _ (up_chain_snoc _ _ _ _ _ C1 Li NEi) Dp) as D1.
        pose proof (chain_dist _ start l R T _ _ _ _ (up_chain_snoc _ _ _ _ _ C2 Lj NEj) Dp) as D2.
        assert (k1 = k2).
        { pose proof (proj2 D1 _ (proj1 D2)). pose proof (proj2 D2 _ (proj1 D1)). lia. }
        subst k2. assert (i = j) by exact (tree_chain_unique _ start T k1 x i j C1 C2 Ri Rj). subst j. contradiction. }
  split; [apply (proj1 ND _ _ U); exists O; constructor|].
  intros x. split.
  - intros Hx. destruct (proj1 CH _ _ U x Hx) as (k & C). eapply up_chain_reaches; [exact C|]. exists O. constructor.
  - intros (k & Hk).
    assert (CL : (forall i M, unfolds (ins g) i M -> forall n m, In n M -> link (g_graph g) m n -> In m M) /\
       (forall is M, unfolds_all (ins g) is M -> incl is M /\ forall n m, In n M -> link (g_graph g) m n -> In m M)).
    { apply unfolds_mutind.
      - intros i M _ (IH1 & IH2) n m [<-|Hn] Lm.
        + destruct (Nat.eq_dec m i) as [->|NE]; [now left|]. right. apply IH1.
          apply (proj2 (in_inputs srt (g_graph g) HS (proj1 HR) i m)). auto.
        + right. eapply IH2; eauto.
      - split; [intros x0 []|intros n m []].
      - intros i is M Ms UM IH1 _ (IH2 & IH3). split.
        + intros j [<-|Hj]; apply in_app_iff; [left; inversion UM; now left|right; auto].
        + intros n m Hn Lm. apply in_app_iff in Hn. apply in_app_iff. destruct Hn as [Hn|Hn]; [left|right]; eauto. }
    induction Hk as [|k n m Hk IH Lm]; [inversion U; now left|]. exact (proj1 CL _ _ U n m IH Lm).
Qed.

End Count.

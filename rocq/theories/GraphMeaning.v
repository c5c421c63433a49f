(** Execution computes the recursive meaning of the graph. *)
From Coq Require Import Permutation Sorted.
From Verif Require Import Machine GraphModel GraphSpec GraphWalk GraphExec.

Scheme means_ind2 := Minimality for means Sort Prop
  with means_all_ind2 := Minimality for means_all Sort Prop.
Combined Scheme means_mutind from means_ind2, means_all_ind2.

Lemma forall2_len : forall {A B} (R : A -> B -> Prop) l m, Forall2 R l m -> length l = length m.
Proof. intros A B R l m H. induction H; cbn; congruence. Qed.

(* --------------------- facts about the specification --------------------- *)

Section MeaningFacts.
Context {St F K : Type}.
Variables (val : K -> Z -> list K -> list Z) (sem : K -> F -> Z -> list St -> St).
Variables (inputs : nat -> list nat) (keys : list K) (fr : F).
Notation means := (means val sem inputs keys fr).
Notation means_all := (means_all val sem inputs keys fr).
Notation asked := (asked val inputs keys).

Lemma forall2_fun : forall (is : list nat) (a b : list K),
  Forall2 (fun j kj => nth_error keys j = Some kj) is a ->
  Forall2 (fun j kj => nth_error keys j = Some kj) is b -> a = b.
Proof.
  induction is as [|i is IH]; intros a b Ha Hb; inversion Ha; inversion Hb; subst; [reflexivity|].
  f_equal; [congruence|]. now apply IH.
Qed.

Lemma means_fun :
  (forall i mode v, means i mode v -> forall v', means i mode v' -> v = v') /\
  (forall is modes vs, means_all is modes vs -> forall vs', means_all is modes vs' -> vs = vs').
Proof.
  apply means_mutind.
  - intros i mode k iks vs E1 E2 _ IH v' H. inversion H; subst.
    assert (k0 = k) by congruence. subst k0.
    assert (iks0 = iks) by (eapply forall2_fun; eauto). subst iks0.
    f_equal. apply IH. assumption.
  - intros vs' H. inversion H. reflexivity.
  - intros i is mode modes v vs _ IH1 _ IH2 vs' H. inversion H; subst. f_equal; auto.
Qed.

Section Agree.
Variables (start : nat) (mode0 : Z).
Hypothesis AG : modes_agree val sem inputs keys fr start mode0.
Hypothesis LEN : forall k mode ks, length (val k mode ks) = length ks.

Lemma means_all_transfer_aux :
  (forall i mode v, means i mode v -> asked start mode0 i mode ->
     forall mode', asked start mode0 i mode' -> means i mode' v) /\
  (forall is modes vs, means_all is modes vs -> forall modes', length modes' = length is ->
     (forall j m, In (j, m) (combine is modes) -> asked start mode0 j m) ->
     (forall j m, In (j, m) (combine is modes') -> asked start mode0 j m) ->
     means_all is modes' vs).
Proof.
  apply means_mutind.
  - intros i mode k iks vs E1 E2 _ IH A1 mode' A2.
    rewrite (AG i mode mode' k A1 A2 E1). econstructor; [exact E1|exact E2|].
    apply IH.
    + rewrite LEN. symmetry. eapply forall2_len; eassumption.
    + intros j m Hj. eapply asked_input; [exact A1|exact E1|exact E2|exact Hj].
    + intros j m Hj. eapply asked_input; [exact A2|exact E1|exact E2|exact Hj].
  - intros modes' HL _ _. destruct modes'; [constructor|discriminate].
  - intros i is mode modes v vs _ IH1 _ IH2 modes' HL A1 A2.
    destruct modes' as [|m' modes']; [discriminate|]. constructor.
    + apply IH1; [apply A1|apply A2]; now left.
    + apply IH2; [cbn in HL; lia| |]; intros j m Hj; [apply A1|apply A2]; now right.
Qed.

Lemma means_transfer : forall i mode mode' v, means i mode v ->
  asked start mode0 i mode -> asked start mode0 i mode' -> means i mode' v.
Proof. intros. eapply (proj1 means_all_transfer_aux); eauto. Qed.
End Agree.
End MeaningFacts.

(* ------------------------------ execution ------------------------------ *)

Section Run.
Context {N St Ca F W K : Type}.
Variable ops : nodeops N St Ca F W.
Variable srt : edge_sort.
Variables (key : N -> K) (val : K -> Z -> list K -> list Z) (sem : K -> F -> Z -> list St -> St).
Variable cinv : Ca -> Prop.
Hypothesis HS : sorts srt.
Hypothesis PO : pure_ops ops key val sem cinv.

Notation ins g := (inputs_of srt (g_graph g)).
Notation kmeans g := (means val sem (ins g) (map key (g_nodes g))).
Notation kasked g := (asked val (ins g) (map key (g_nodes g))).

Lemma nodes_keys : forall (g : graph N St) is ns,
  Forall2 (fun i n => nth_error (g_nodes g) i = Some n) is ns ->
  Forall2 (fun j kj => nth_error (map key (g_nodes g)) j = Some kj) is (map key ns).
Proof. intros g is ns H. induction H; cbn; constructor; auto. now apply map_nth_error. Qed.

Lemma validate_one_pure : forall (g : graph N St) hc i mode, runnable g ->
  (i < node_bound (g_graph g))%nat -> In i (map fst hc) ->
  exists n iks, nth_error (g_nodes g) i = Some n /\
    Forall2 (fun j kj => nth_error (map key (g_nodes g)) j = Some kj) (ins g i) iks /\
    validate_one ops srt g hc i mode = Ok (combine (ins g i) (val (key n) mode iks)).
Proof.
  intros g hc i mode HR HB Hin. unfold validate_one.
  rewrite (direct_upstream_ok srt (g_graph g) HS (proj1 HR)) by exact HB. cbn [bind].
  destruct (get_nodes_ok g (ins g i) HR (inputs_bound srt HS g HR i)) as (ns & E1 & F1).
  rewrite E1. cbn [bind]. destruct (get_node_ok g i HR HB) as (n & E2 & E3). rewrite E2. cbn [bind].
  destruct (lookup_some i hc Hin) as (h & E4). rewrite E4, (po_val _ _ _ _ _ PO). cbn [bind].
  exists n, (map key ns). repeat split; [exact E3|]. now apply nodes_keys.
Qed.

(** State of the validation loop. *)
Record vinv (g : graph N St) (start : nat) (order : list nat) (stack acc : list (nat * Z)) : Prop := {
  vi_later : forall l1 i m l2, acc = l1 ++ (i, m) :: l2 ->
    incl (ins g i) (map fst l2) \/ In i (map fst stack);
  vi_asked : forall i m, In (i, m) acc -> kasked g start mode_all i m;
  vi_stack : incl stack acc;
  vi_order : forall i m, In (i, m) acc -> In i order;
  vi_first : exists t, acc = (start, mode_all) :: t
}.

Lemma combine_fst_full : forall {A B} (l : list A) (m : list B), length l = length m ->
  map fst (combine l m) = l.
Proof.
  induction l as [|a l IH]; intros [|b m] H; cbn in *; try discriminate; [reflexivity|].
  f_equal. apply IH. lia.
Qed.

Lemma split_app_cases : forall {A} (l1 : list A) x l2 a b, a ++ b = l1 ++ x :: l2 ->
  (exists l2', a = l1 ++ x :: l2' /\ l2 = l2' ++ b) \/ (exists l1', b = l1' ++ x :: l2 /\ l1 = a ++ l1').
Proof.
  induction l1 as [|y l1 IH]; intros x l2 a b E.
  - destruct a as [|z a]; cbn in E.
    + right. exists []. split; [exact E|reflexivity].
    + injection E as -> <-. left. exists a. split; reflexivity.
  - destruct a as [|z a]; cbn in E.
    + right. exists (y :: l1). split; [exact E|reflexivity].
    + injection E as -> E. destruct (IH x l2 a b E) as [(l2' & -> & ->)|(l1' & -> & ->)].
      * left. exists l2'. split; reflexivity.
      * right. exists l1'. split; reflexivity.
Qed.

Lemma vinv_step : forall (g : graph N St) start order hc i mode rest acc, runnable g ->
  (forall i, In i order -> (i < node_bound (g_graph g))%nat) -> ordered (ins g) order ->
  map fst hc = order ->
  vinv g start order ((i, mode) :: rest) acc ->
  exists new, validate_one ops srt g hc i mode = Ok new /\
    vinv g start order (rev new ++ rest) (acc ++ new).
Proof.
  intros g start order hc i mode rest acc HR HB HO HH I.
  assert (Hacc : In (i, mode) acc) by (apply (vi_stack _ _ _ _ _ I); now left).
  assert (Hi : In i order) by exact (vi_order _ _ _ _ _ I _ _ Hacc).
  destruct (validate_one_pure g hc i mode HR (HB i Hi)) as (n & iks & E1 & F1 & V).
  { rewrite HH. exact Hi. }
  set (new := combine (ins g i) (val (key n) mode iks)) in *.
  assert (FST : map fst new = ins g i).
  { apply combine_fst_full. rewrite (po_len _ _ _ _ _ PO). eapply forall2_len; eauto. }
  exists new. split; [exact V|]. constructor.
  - intros l1 j m l2 E. destruct (split_app_cases _ _ _ _ _ E) as [(l2' & -> & ->)|(l1' & E' & ->)].
    + destruct (vi_later _ _ _ _ _ I l1 j m l2' eq_refl) as [H|[<-|H]].
      * left. intros x Hx. rewrite map_app, in_app_iff. left. now apply H.
      * left. cbn. intros x Hx. rewrite map_app, in_app_iff. right. rewrite FST. exact Hx.
      * right. rewrite map_app, in_app_iff. right. exact H.
    + right. rewrite map_app, in_app_iff. left. rewrite map_rev, <- in_rev, E', map_app, in_app_iff.
      right. now left.
  - intros j m H. apply in_app_iff in H. destruct H as [H|H]; [now apply (vi_asked _ _ _ _ _ I)|].
    eapply asked_input; [exact (vi_asked _ _ _ _ _ I _ _ Hacc)| |exact F1|exact H].
    now apply map_nth_error.
  - intros p Hp. apply in_app_iff. apply in_app_iff in Hp. destruct Hp as [Hp|Hp].
    + right. now apply in_rev.
    + left. apply (vi_stack _ _ _ _ _ I). now right.
  - intros j m H. apply in_app_iff in H. destruct H as [H|H]; [now apply (vi_order _ _ _ _ _ I) in H|].
    apply (in_map fst) in H. rewrite FST in H. cbn in H.
    apply in_split in Hi. destruct Hi as (l1 & l2 & E). rewrite E, in_app_iff. right. right.
    exact (HO _ _ _ E _ H).
  - destruct (vi_first _ _ _ _ _ I) as (t & ->). cbn. eauto.
Qed.

Lemma vinv_run : forall (g : graph N St) start order hc, runnable g ->
  (forall i, In i order -> (i < node_bound (g_graph g))%nat) -> ordered (ins g) order ->
  map fst hc = order ->
  forall fuel stack acc r, vinv g start order stack acc ->
  validate_loop ops srt fuel g hc stack acc = Some r ->
  exists v, r = Ok v /\ vinv g start order [] v.
Proof.
  intros g start order hc HR HB HO HH. induction fuel as [|fuel IH]; intros stack acc r I H; [discriminate|].
  destruct stack as [|(i, mode) rest].
  - cbn in H. injection H as <-. exists acc. split; [reflexivity|exact I].
  - rewrite validate_loop_step in H.
    destruct (vinv_step g start order hc i mode rest acc HR HB HO HH I) as (new & V & I').
    rewrite V in H. exact (IH _ _ _ I' H).
Qed.

(** What the stream cache holds. *)
Definition sc_ok (g : graph N St) (start : nat) (fr : F) (sc : list (nat * St)) : Prop :=
  forall i v, lookup i sc = Some v -> exists m, kasked g start mode_all i m /\ kmeans g fr i m v.

Definition same_keys (g g' : graph N St) : Prop := map key (g_nodes g') = map key (g_nodes g).

Lemma lookup_all_means : forall (g : graph N St) start fr sc, 
  modes_agree val sem (ins g) (map key (g_nodes g)) fr start mode_all ->
  sc_ok g start fr sc -> forall is vs modes,
  Forall2 (fun i a => lookup i sc = Some a) is vs -> length modes = length is ->
  (forall j m, In (j, m) (combine is modes) -> kasked g start mode_all j m) ->
  means_all val sem (ins g) (map key (g_nodes g)) fr is modes vs.
Proof.
  intros g start fr sc AG SC is vs modes H. revert modes.
  induction H as [|i v is vs E H IH]; intros modes HL A.
  - destruct modes; [constructor|discriminate].
  - destruct modes as [|m modes]; [discriminate|]. constructor.
    + destruct (SC _ _ E) as (m' & A' & M'). eapply means_transfer; eauto.
      * apply (po_len _ _ _ _ _ PO).
      * apply A. now left.
    + apply IH; [cbn in HL; lia|]. intros j mj Hj. apply A. now right.
Qed.

Lemma compute_phase_means : forall start fr t (g : graph N St) c sc, runnable g -> cinv c ->
  modes_agree val sem (ins g) (map key (g_nodes g)) fr start mode_all ->
  sc_ok g start fr sc ->
  (forall i m, In (i, m) t -> kasked g start mode_all i m /\ (i < node_bound (g_graph g))%nat) ->
  (forall t1 i m t2, t = t1 ++ (i, m) :: t2 -> incl (ins g i) (rev (map fst t1) ++ map fst sc)) ->
  exists g' c', compute_phase ops srt g fr t c sc = Ok (g', c', None) /\
    same_shape g g' /\ same_keys g g' /\ cinv c' /\
    (forall t' i m, t = t' ++ [(i, m)] -> kmeans g fr i m (g_output g')).
Proof.
  intros start fr. induction t as [|(i, m) t IH]; intros g c sc HR CI AG SC HA HO; cbn [compute_phase].
  - exists g, c. split; [reflexivity|]. split; [apply same_shape_refl|]. split; [reflexivity|].
    split; [exact CI|]. intros t' i m E. destruct t'; discriminate.
  - destruct (HA i m (or_introl eq_refl)) as (Ai & Bi).
    unfold input_streams. rewrite (direct_upstream_ok srt (g_graph g) HS (proj1 HR)) by exact Bi. cbn [bind].
    destruct (lookup_all_ok (ins g i) sc) as (vs & E1 & F1); [exact (HO [] i m t eq_refl)|].
    rewrite E1. cbn [bind]. unfold compute_node_output.
    destruct (get_node_ok g i HR Bi) as (n & E2 & E3). rewrite E2. cbn [bind].
    destruct (po_sem _ _ _ _ _ PO n fr m vs (g_output g) c CI) as (n' & st & c1 & E4 & ST & KE & CI1).
    rewrite E4. cbn [bind].
    destruct (get_nodes_ok g (ins g i) HR (inputs_bound srt HS g HR i)) as (ns & _ & F2).
    apply nodes_keys in F2.
    assert (MI : kmeans g fr i m (sem (key n) fr m vs)).
    { econstructor; [apply map_nth_error; exact E3|exact F2|].
      apply (lookup_all_means g start fr sc AG SC); [exact F1| |].
      - rewrite (po_len _ _ _ _ _ PO). symmetry. eapply forall2_len; eassumption.
      - intros j mj Hj. eapply asked_input; [exact Ai|apply map_nth_error; exact E3|exact F2|exact Hj]. }
    set (out := sem (key n) fr m vs) in *.
    set (g1 := with_output (with_nodes g (set_nth (g_nodes g) i n')) out).
    assert (K1 : same_keys g g1).
    { unfold same_keys, g1, with_output, with_nodes. cbn. eapply map_set_nth; eauto. }
    assert (S1 : same_shape g g1).
    { unfold same_shape, g1, with_output, with_nodes. cbn. rewrite set_nth_length. repeat split. }
    assert (G1 : g_graph g1 = g_graph g) by reflexivity.
    assert (X : exists g' c', compute_phase ops srt g1 fr t c1 ((i, out) :: sc) = Ok (g', c', None) /\
       same_shape g1 g' /\ same_keys g1 g' /\ cinv c' /\
       (forall t' j mj, t = t' ++ [(j, mj)] -> kmeans g1 fr j mj (g_output g')) /\
       (t = [] -> g_output g' = out)).
    { destruct (IH g1 c1 ((i, out) :: sc)) as (g' & c' & X1 & X2 & X3 & X4 & X5).
      - eapply runnable_shape; eauto.
      - exact CI1.
      - unfold same_keys in K1. rewrite K1. exact AG.
      - intros j v Hj. unfold same_keys in K1. rewrite K1. cbn in Hj. destruct (Nat.eqb_spec j i) as [->|].
        + injection Hj as <-. exists m. split; assumption.
        + exact (SC j v Hj).
      - intros j mj Hj. unfold same_keys in K1. rewrite K1. apply HA. now right.
      - intros t1 j mj t2 ->. cbn. pose proof (HO ((i, m) :: t1) j mj t2 eq_refl) as H. cbn in H.
        rewrite <- app_assoc in H. exact H.
      - exists g', c'. split; [exact X1|]. split; [exact X2|]. split; [exact X3|]. split; [exact X4|].
        split; [exact X5|]. intros ->. cbn in X1. injection X1 as <- _. reflexivity. }
    destruct X as (g' & c' & X1 & X2 & X3 & X4 & X5 & X6).
    exists g', c'. split.
    { destruct ST as [->| ->]; exact X1. }
    split; [eapply same_shape_trans; eauto|].
    split; [unfold same_keys in *; congruence|]. split; [exact X4|].
    intros t' j mj E. destruct t' as [|p t'].
    + cbn in E. injection E as -> -> ->. rewrite (X6 eq_refl). exact MI.
    + cbn in E. injection E as _ E. unfold same_keys in K1. specialize (X5 _ _ _ E).
      rewrite K1 in X5. exact X5.
Qed.

Lemma execute_frame_means : forall (g : graph N St) order fr c start t, runnable g -> cinv c ->
  order = start :: t ->
  (forall i, In i order -> (i < node_bound (g_graph g))%nat) -> ordered (ins g) order ->
  modes_agree val sem (ins g) (map key (g_nodes g)) fr start mode_all ->
  exists fuel0 g' c', (forall fuel, (fuel0 <= fuel)%nat ->
      execute_frame ops srt fuel g order fr c = Some (Ok (g', c', None))) /\
    same_shape g g' /\ same_keys g g' /\ cinv c' /\
    kmeans g fr start mode_all (g_output g').
Proof.
  intros g order fr c start t HR CI EO HB HO AG. unfold execute_frame.
  destruct (hash_phase_ordered ops srt HS g fr order HR HB HO) as (hc & E & HH). rewrite E.
  assert (Hs : In start order) by (rewrite EO; now left).
  destruct (validate_terminates ops srt HS g hc order start mode_all [(start, mode_all)] HR HB HO Hs)
    as (k & r & V).
  destruct (vinv_run g start order hc HR HB HO HH k [(start, mode_all)] [(start, mode_all)] r) as (v & -> & I).
  { constructor.
    - intros l1 i m l2 El. right. destruct l1 as [|p l1]; cbn in El.
      + injection El as -> _ _. now left.
      + injection El as _ El. destruct l1; discriminate.
    - intros i m [Ei|[]]. injection Ei as <- <-. constructor.
    - intros p Hp. exact Hp.
    - intros i m [Ei|[]]. injection Ei as <- <-. exact Hs.
    - eauto. }
  { apply V. lia. }
  destruct (compute_phase_means start fr (rev v) g c [] HR CI AG) as (g' & c' & X1 & X2 & X3 & X4 & X5).
  - intros i w H. discriminate.
  - intros i m Hi. apply in_rev in Hi. split; [exact (vi_asked _ _ _ _ _ I _ _ Hi)|].
    apply HB. exact (vi_order _ _ _ _ _ I _ _ Hi).
  - intros t1 i m t2 Er. apply (f_equal (@rev _)) in Er. rewrite rev_involutive, rev_app_distr in Er.
    cbn in Er. rewrite <- app_assoc in Er. cbn in Er.
    destruct (vi_later _ _ _ _ _ I _ _ _ _ Er) as [H|[]].
    rewrite map_rev in H. cbn. rewrite app_nil_r. exact H.
  - exists k, g', c'. split.
    + intros fuel Hf. rewrite EO. cbn [hd]. rewrite (V fuel Hf). rewrite X1. reflexivity.
    + repeat (split; [assumption|]). destruct (vi_first _ _ _ _ _ I) as (w & ->).
      apply (X5 (rev w)). reflexivity.
Qed.

Theorem execute_frames_means : forall frames (g : graph N St) order c start t fr0, runnable g -> cinv c ->
  order = start :: t ->
  (forall i, In i order -> (i < node_bound (g_graph g))%nat) -> ordered (ins g) order ->
  (forall fr, In fr (frames ++ [fr0]) ->
     modes_agree val sem (ins g) (map key (g_nodes g)) fr start mode_all) ->
  exists fuel0 g' c', (forall fuel, (fuel0 <= fuel)%nat ->
      execute_frames ops srt fuel g order (frames ++ [fr0]) c = Some (Ok (g', c', None))) /\
    same_shape g g' /\ same_keys g g' /\ cinv c' /\
    kmeans g fr0 start mode_all (g_output g').
Proof.
  induction frames as [|fr frames IH]; intros g order c start t fr0 HR CI EO HB HO AG.
  - destruct (execute_frame_means g order fr0 c start t HR CI EO HB HO (AG fr0 (or_introl eq_refl)))
      as (k & g' & c' & X1 & X2).
    exists k, g', c'. split; [|exact X2]. intros fuel Hf. cbn [app execute_frames]. now rewrite (X1 fuel Hf).
  - destruct (execute_frame_means g order fr c start t HR CI EO HB HO (AG fr (or_introl eq_refl)))
      as (k1 & g1 & c1 & X1 & X2 & X3 & X4 & _).
    assert (G1 : g_graph g1 = g_graph g) by apply X2.
    destruct (IH g1 order c1 start t fr0) as (k2 & g' & c' & Y1 & Y2 & Y3 & Y4 & Y5).
    + eapply runnable_shape; eauto.
    + exact X4.
    + exact EO.
    + rewrite G1. exact HB.
    + rewrite G1. exact HO.
    + intros fr' H. unfold same_keys in X3. rewrite G1, X3. apply AG. now right.
    + exists (Nat.max k1 k2), g', c'. split.
      { intros fuel Hf. cbn [app execute_frames]. rewrite (X1 fuel) by lia. apply Y1. lia. }
      split; [eapply same_shape_trans; eauto|]. split; [unfold same_keys in *; congruence|].
      split; [exact Y4|]. unfold same_keys in X3. rewrite G1, X3 in Y5. exact Y5.
Qed.

(** The whole call. *)
Theorem execute_means : forall (g : graph N St) id start l frames fr0 c, runnable g -> cinv c ->
  find_index g id = Some start -> (start < node_bound (g_graph g))%nat ->
  all_upstream srt (g_graph g) start = Ok l -> ordered (ins g) (map fst l) ->
  (forall fr, In fr (frames ++ [fr0]) ->
     modes_agree val sem (ins g) (map key (g_nodes g)) fr start mode_all) ->
  exists fuel0 g' c', (forall fuel, (fuel0 <= fuel)%nat ->
      execute ops srt fuel g id (frames ++ [fr0]) c = Some (Ok (g', c', ExSuccess))) /\
    map key (g_nodes g') = map key (g_nodes g) /\ cinv c' /\
    g_state g' = GsClean /\ g_status g' = ExSuccess /\
    kmeans g fr0 start mode_all (g_output g').
Proof.
  intros g id start l frames fr0 c HR CI HI HB HL HO AG.
  destruct (all_upstream_ok srt (g_graph g) HS (proj1 HR) start HB) as (l' & E & R).
  assert (l' = l) by congruence. subst l'.
  destruct (br_first _ _ _ R) as (t & ->).
  destruct (execute_frames_means frames g (map fst ((start, O) :: t)) c start (map fst t) fr0 HR CI eq_refl
              (bfs_bounds g start _ HR HB R) HO AG) as (k & g' & c' & X1 & X2 & X3 & X4 & X5).
  exists k, (with_status (with_state g' GsClean) ExSuccess), c'.
  split.
  { intros fuel Hf. unfold execute. rewrite HI, HL, (X1 fuel Hf). reflexivity. }
  repeat (split; [reflexivity || assumption|]). exact X5.
Qed.

End Run.

(* --------------------------- when modes agree --------------------------- *)

Section AgreeCases.
Context {St F K : Type}.
Variables (val : K -> Z -> list K -> list Z) (sem : K -> F -> Z -> list St -> St).
Variables (keys : list K) (fr : F).

(** Operations that ignore the requested mode. *)
Lemma agree_mode_free : forall inputs start mode0,
  (forall k m m' vs, sem k fr m vs = sem k fr m' vs) ->
  modes_agree val sem inputs keys fr start mode0.
Proof. intros inputs start mode0 H i m m' k _ _ _ vs. apply H. Qed.

(** Trees: every node is asked exactly once. *)
Lemma in_combine_fun : forall {A B} (l : list A) (r : list B) a b b', NoDup l ->
  In (a, b) (combine l r) -> In (a, b') (combine l r) -> b = b'.
Proof.
  induction l as [|x l IH]; intros r a b b' ND H1 H2; destruct r as [|y r]; cbn in *; try contradiction.
  inversion ND; subst. destruct H1 as [E1|H1], H2 as [E2|H2].
  - congruence.
  - injection E1 as -> ->. apply in_combine_l in H2. contradiction.
  - injection E2 as -> ->. apply in_combine_l in H1. contradiction.
  - eapply IH; eauto.
Qed.

Lemma asked_reaches : forall srt sg start mode0 i m, sorts srt -> wf_stable sg ->
  asked val (inputs_of srt sg) keys start mode0 i m -> reaches sg i start.
Proof.
  intros srt sg start mode0 i m HS WF H. induction H as [|i mode k iks j m H IH E1 F1 Hj].
  - exists O. constructor.
  - apply in_combine_l in Hj. apply (in_inputs srt sg HS WF) in Hj.
    eapply reaches_link; [exact IH|]. tauto.
Qed.

Lemma agree_tree : forall srt sg start mode0, sorts srt -> wf_stable sg -> tree sg start ->
  modes_agree val sem (inputs_of srt sg) keys fr start mode0.
Proof.
  intros srt sg start mode0 HS WF (T1 & T2).
  assert (U : forall i m, asked val (inputs_of srt sg) keys start mode0 i m ->
              forall m', asked val (inputs_of srt sg) keys start mode0 i m' -> m = m').
  { intros i m H. induction H as [|i mode k iks j m H IH E1 F1 Hj]; intros m' H'.
    - inversion H' as [|i' mode' k' iks' j' m'' A' E1' F1' Hj']; subst; [reflexivity|].
      exfalso. apply in_combine_l in Hj' as Hin. apply (in_inputs srt sg HS WF) in Hin.
      destruct Hin as (L & Hne). apply Hne. symmetry. apply T2; [|exact L].
      eapply asked_reaches; eauto.
    - apply in_combine_l in Hj as Hin. apply (in_inputs srt sg HS WF) in Hin. destruct Hin as (L & Hne).
      inversion H' as [E|i' mode' k' iks' j' m'' A' E1' F1' Hj']; subst.
      + exfalso. apply Hne. symmetry. apply T2; [|exact L]. eapply asked_reaches; eauto.
      + apply in_combine_l in Hj' as Hin'. apply (in_inputs srt sg HS WF) in Hin'. destruct Hin' as (L' & Hne').
        assert (i' = i).
        { apply (T1 j i' i); try assumption; eapply asked_reaches; eauto. }
        subst i'. assert (mode' = mode) by (symmetry; apply IH; exact A'). subst mode'.
        assert (k' = k) by congruence. subst k'.
        assert (iks' = iks) by (eapply forall2_fun; eauto). subst iks'.
        eapply in_combine_fun; [apply (inputs_nodup srt sg HS WF i)|exact Hj|exact Hj']. }
  intros i m m' k A1 A2 _ vs. now rewrite (U i m A1 m' A2).
Qed.
End AgreeCases.

(** Proofs of what a write node at the end of a chain writes. *)
From Coq Require String.
Import String.StringSyntax.
From Coq Require Import Floats.SpecFloat.
From Verif Require Import Machine CacheModel FloatModel BBoxModel PixelModel PathModel EnumModel AttrModel AttrSpec AttrProofs HashModel
  StreamModel BakeModel BakeProofs GraphModel GraphSpec GraphWalk GraphExec GraphHistory GraphFacts NodeModel RunSpec RunProofs
  Loops NodeSpec NodeProofs ChainSpec ChainProofs UncachedSpec UncachedProofs.
Local Open Scope string_scope.

Lemma ends_with_spec : forall s e, ends_with s e = true <-> has_extension s e.
Proof.
  intros s e. unfold ends_with, has_extension. split.
  - intros H. apply andb_prop in H. destruct H as (H1 & H2). apply bytes_eqb_true in H1.
    exists (firstn (length s - length e) s). rewrite <- H1 at 2. now rewrite firstn_skipn.
  - intros (stem & ->). rewrite app_length, Nat.add_sub, skipn_app, skipn_all, Nat.sub_diag. cbn [skipn app].
    rewrite bytes_eqb_refl. cbn [andb]. apply Nat.leb_le. lia.
Qed.

Lemma ends_with_false : forall s e, ends_with s e = false -> ~ has_extension s e.
Proof. intros s e H F. apply ends_with_spec in F. congruence. Qed.

Section Render.
Context {D : Type}.
Variable p : profile.
Variable x : externals D.

Lemma write_writes : forall n fr mode s rest out (w : world D) n' st v w', nd_type n = TWrite ->
  node_get_i32 n "enable" <> 0 -> node_get_i32 n "execute" <> 0 ->
  node_compute p x n fr mode (s :: rest) out w = Ok (n', st, v, w') ->
  v = s /\ exists path img co, written p x n fr s path img co /\ w_disk w' = fst (x_write x (w_disk w) path img co).
Proof.
  intros n fr mode s rest out w n' st v w' T EN EX H. apply node_compute_inv in H. destruct H as (h & _ & H & _).
  rewrite T in H. cbn [compute_op] in H. unfold write_compute in H.
  assert (GI : forall name, attr_exists (arms_of TWrite) name = true -> gi TWrite (nd_attrs n) name = node_get_i32 n name).
  { intros name A. unfold node_get_i32. rewrite T, A. reflexivity. }
  assert (GS : forall name, attr_exists (arms_of TWrite) name = true -> gs TWrite (nd_attrs n) name = node_get_str n name).
  { intros name A. unfold node_get_str. rewrite T, A. reflexivity. }
  rewrite !GI in H by reflexivity.
  destruct (Z.eqb_spec (node_get_i32 n "enable") 0) as [E|_]; [congruence|].
  destruct (Z.eqb_spec (node_get_i32 n "execute") 0) as [E|_]; [congruence|].
  apply bind_ok in H. destruct H as ((d, ok) & W & H). injection H as _ <- <-. split; [reflexivity|].
  unfold write_process in W. rewrite !GI, !GS in W by reflexivity.
  apply bind_ok in W. destruct W as (path & P & W). cbv zeta in W.
  apply bind_ok in W. destruct W as (r & R & W).
  apply bind_ok in W. destruct W as (crop & C & W). unfold write_image in W.
  apply bind_ok in W. destruct W as (im & I & W). injection W as W.
  exists path, (with_plain im spec_new). eexists. split; [|cbn [w_disk]; rewrite W; reflexivity].
  constructor; [exact P| |reflexivity].
  do 3 eexists. split; [|split; [|split; [exact R|]]].
  - unfold file_color_space, srgb_extensions.
    destruct (ends_with path ext_jpg) eqn:E1; [left; split; [exists ext_jpg; split; [cbn; tauto|now apply ends_with_spec]|reflexivity]|].
    destruct (ends_with path ext_png) eqn:E2; [left; split; [exists ext_png; split; [cbn; tauto|now apply ends_with_spec]|reflexivity]|].
    destruct (ends_with path ext_jpeg) eqn:E3; [left; split; [exists ext_jpeg; split; [cbn; tauto|now apply ends_with_spec]|reflexivity]|].
    destruct (ends_with path ext_jpe) eqn:E4; [left; split; [exists ext_jpe; split; [cbn; tauto|now apply ends_with_spec]|reflexivity]|].
    destruct (ends_with path ext_jif) eqn:E5; [left; split; [exists ext_jif; split; [cbn; tauto|now apply ends_with_spec]|reflexivity]|].
    destruct (ends_with path ext_jfif) eqn:E6; [left; split; [exists ext_jfif; split; [cbn; tauto|now apply ends_with_spec]|reflexivity]|].
    destruct (ends_with path ext_jfi) eqn:E7; [left; split; [exists ext_jfi; split; [cbn; tauto|now apply ends_with_spec]|reflexivity]|].
    right. split; [|reflexivity]. intros e He.
    repeat (destruct He as [<-|He]; [now apply ends_with_false|]). destruct He.
  - unfold file_type. destruct (data_type_from _); reflexivity.
  - unfold file_cropped. destruct (crop_from _); [| | |discriminate].
    1-3: injection C as <-.
    + left. split; [reflexivity|]. injection I as <-. reflexivity.
    + right. split; [reflexivity|]. exists im. split; [exact I|reflexivity].
    + destruct (ends_with path ext_exr) eqn:E; cbn [negb] in I.
      * left. split; [apply ends_with_spec in E; split; [discriminate|intros F; contradiction]|]. injection I as <-. reflexivity.
      * right. split; [split; [intros _; now apply ends_with_false|reflexivity]|]. exists im. split; [exact I|reflexivity].
Qed.

Lemma written_key : forall n n0 fr s path img co, node_key n = node_key n0 ->
  written p x n fr s path img co -> written p x n0 fr s path img co.
Proof.
  intros n n0 fr s path img co E [H1 H2 H3]. destruct (key_get _ _ E) as (GI & GS & _).
  constructor; rewrite <- ?GI, <- ?GS; auto.
Qed.

Lemma read_source_asked : forall n fr mode ins out (w : world D) n' st v w', nd_type n = TRead -> Z.land mode m_pixel <> 0 ->
  node_get_i32 n "enable" <> 0 -> node_get_i32 n "use_cache" = 0 \/ uncached w ->
  node_compute p x n fr mode ins out w = Ok (n', st, v, w') -> source x n (w_disk w) fr v.
Proof.
  intros n fr mode ins out w n' st v w' T MP EN UC H. apply node_compute_inv in H. destruct H as (h & _ & H & _).
  rewrite T in H. cbn [compute_op] in H. unfold read_compute in H.
  assert (GI : forall name, attr_exists (arms_of TRead) name = true -> gi TRead (nd_attrs n) name = node_get_i32 n name).
  { intros name A. unfold node_get_i32. rewrite T, A. reflexivity. }
  assert (GS : forall name, attr_exists (arms_of TRead) name = true -> gs TRead (nd_attrs n) name = node_get_str n name).
  { intros name A. unfold node_get_str. rewrite T, A. reflexivity. }
  rewrite !GI, !GS in H by reflexivity. apply Z.eqb_neq in MP. rewrite MP in H.
  destruct (Z.eqb_spec (node_get_i32 n "enable") 0) as [E|_]; [congruence|].
  apply bind_ok in H. destruct H as (path & P & H). exists path. split; [exact P|].
  destruct (x_kind x (w_disk w) path).
  - injection H as _ <- _. reflexivity.
  - destruct (cached p _ h w tt _) as [[[img u] w1]|] eqn:EC in H; [|discriminate H]. apply (made_anew p) in EC; [|exact UC].
    cbn [fst] in EC. injection EC as <- _. cbn [bind] in H. injection H as _ <- _. repeat split.
  - intros NE. destruct (Z.eqb_spec (node_get_i32 n "enable") 1) as [E|_]; [contradiction|]. injection H as _ <- _. repeat split.
Qed.

Lemma read_source : forall n fr ins out (w : world D) n' st v w', nd_type n = TRead ->
  node_get_i32 n "enable" <> 0 -> node_get_i32 n "use_cache" = 0 \/ uncached w ->
  node_compute p x n fr mode_all ins out w = Ok (n', st, v, w') -> source x n (w_disk w) fr v.
Proof. intros n fr ins out w n' st v w' T. apply read_source_asked; [exact T|discriminate]. Qed.

Lemma source_key : forall n n0 d fr s, node_key n = node_key n0 -> source x n d fr s -> source x n0 d fr s.
Proof.
  intros n n0 d fr s E (path & P & H). destruct (key_get _ _ E) as (GI & GS & _). exists path. rewrite <- GS, <- GI. auto.
Qed.

Lemma asks_reaches : forall g nodes inputs start i m, (forall n, inputs_in_slot_order g n (inputs n)) ->
  asks (node_ops p x) node_key nodes inputs start i m -> reaches g i start.
Proof.
  intros g nodes inputs start i m IO A. induction A as [|i mode n h ns modes j m A IH LK FN V Hj].
  - exists 0%nat. constructor.
  - destruct IH as (k & U). exists (S k). eapply up_step; [exact U|]. apply in_combine_l in Hj.
    destruct (IO i) as (_ & IN & _). now apply IN in Hj.
Qed.

Section Sorted.
Variable srt : edge_sort.
Hypothesis HS : sorts srt.

(** The disk does not change; something else is kept as well. *)
Definition kept (P : world D -> Prop) : Prop := forall n fr mode ins out c n' st v c',
  node_compute p x n fr mode ins out c = Ok (n', st, v, c') -> P c -> P c'.
Definition on_disk (d : D) (held : world D -> Prop) : Prop :=
  (forall c, held c -> w_disk c = d) /\
  forall n fr mode ins out c n' st v c', node_compute p x n fr mode ins out c = Ok (n', st, v, c') ->
    held c -> w_disk c' = d -> held c'.
Lemma just_disk d : on_disk d (fun c => w_disk c = d).
Proof. split; auto. Qed.
Lemma disk_and d P : kept P -> on_disk d (fun c => w_disk c = d /\ P c).
Proof. intros K. split; [now intros c []|]. intros n fr mode ins out c n' st v c' H (_ & Q) E. split; [exact E|]. exact (K _ _ _ _ _ _ _ _ _ _ H Q). Qed.
Lemma kept_quiet k : kept (fun c => k = 0 \/ uncached c).
Proof.
  intros n fr mode ins out c n' st v c' H [Q|Q]; [now left|right]. apply node_compute_inv in H. destruct H as (h & _ & H & _).
  exact (bare_compute p x _ _ _ _ _ _ _ _ _ _ _ Q H).
Qed.

Lemma keeps_disk : forall g nodes inputs start d held (which : nat -> Prop), on_disk d held -> (forall n, inputs_in_slot_order g n (inputs n)) ->
  (forall i n, which i -> reaches g i start -> nth_error nodes i = Some n -> nd_type n <> TWrite) ->
  keeps_key (node_ops p x) node_key held (fun _ => True) nodes inputs start which.
Proof.
  intros g nodes inputs start d held which (HD & HC) IO NW i m n Wi A (n0 & E0 & K0) fr mode ins out c n' st out' c' H HW _ _ _.
  pose proof (HC _ _ _ _ _ _ _ _ _ _ H HW) as Q.
  apply disk_kept in H; [destruct H as (H1 & H2); rewrite (HD _ HW) in H2; auto|]. destruct (key_inj _ _ K0) as (-> & _).
  eapply NW; eauto. eapply asks_reaches; eauto.
Qed.

(** One frame with a write node at the end and none before it. *)
Lemma write_held : forall held fuel (g : graph node stream) id start nw fr w g' w', on_disk (w_disk w) held -> held w ->
  wf_graph (node_ops p x) g -> find_index g id = Some start ->
  nth_error (g_nodes g) start = Some nw -> nd_type nw = TWrite ->
  node_get_i32 nw "enable" <> 0 -> node_get_i32 nw "execute" <> 0 -> (exists m, link (g_graph g) m start /\ m <> start) ->
  (forall i n, reaches (g_graph g) i start -> i <> start -> nth_error (g_nodes g) i = Some n -> nd_type n <> TWrite) ->
  execute (node_ops p x) srt fuel g id [fr] w = Some (Ok (g', w', ExSuccess)) ->
  exists inputs a rest s m w0 w1 path img co,
    (forall n, inputs_in_slot_order (g_graph g) n (inputs n)) /\ inputs start = a :: rest /\
    made (node_ops p x) node_key held (fun _ => True) (g_nodes g) inputs fr start a m s w0 w1 /\
    g_output g' = s /\ written p x nw fr s path img co /\ w_disk w' = fst (x_write x (w_disk w) path img co) /\
    (forall P, kept P -> (forall c, held c -> P c) -> P w').
Proof.
  intros held fuel g id start nw fr w g' w' OD HW WF FI NW T EN EX (m0 & LM & NM) OTH H.
  destruct (execute_last (node_ops p x) srt node_key held (fun _ => True) HS fuel g id start fr w g' w' WF HW I FI) as
    (inputs & c1 & IO & M); [|exact H|].
  { intros inputs IO. eapply keeps_disk; [exact OD|exact IO|]. intros i n NE R. now apply OTH. }
  inversion M as [i m' n vs out c0 n' st v' c0' AS LK MA FV CI SI CO OK]; subst.
  destruct LK as (n0 & E0 & K0). rewrite NW in E0. injection E0 as <-.
  destruct (IO start) as (_ & IN & _).
  destruct (inputs start) as [|a rest] eqn:EI.
  { destruct (proj2 (IN m0)). auto. }
  inversion MA as [|i is mo va vs' ca ca' Ma Mn]; subst.
  destruct (key_inj _ _ K0) as (KT & _). destruct (key_get _ _ K0) as (GI & _).
  rewrite T in KT. rewrite <- GI in EN, EX.
  cbn [n_compute node_ops] in CO.
  destruct (write_writes _ _ _ _ _ _ _ _ _ _ _ KT EN EX CO) as (-> & path & img & co & WR & WD).
  exists inputs, a, rest, va, mo, ca, ca', path, img, co. split; [exact IO|]. split; [exact EI|]. split; [exact Ma|].
  split; [reflexivity|]. split; [eapply written_key; eauto|]. split; [now rewrite WD, (proj1 OD _ CI)|].
  intros P K Q. exact (K _ _ _ _ _ _ _ _ _ _ CO (Q _ CI)).
Qed.
Lemma write_frame : forall fuel (g : graph node stream) id start nw fr w g' w',
  wf_graph (node_ops p x) g -> find_index g id = Some start ->
  nth_error (g_nodes g) start = Some nw -> nd_type nw = TWrite ->
  node_get_i32 nw "enable" <> 0 -> node_get_i32 nw "execute" <> 0 -> (exists m, link (g_graph g) m start /\ m <> start) ->
  (forall i n, reaches (g_graph g) i start -> i <> start -> nth_error (g_nodes g) i = Some n -> nd_type n <> TWrite) ->
  execute (node_ops p x) srt fuel g id [fr] w = Some (Ok (g', w', ExSuccess)) ->
  exists inputs a rest s m w0 w1 path img co,
    (forall n, inputs_in_slot_order (g_graph g) n (inputs n)) /\ inputs start = a :: rest /\
    made (node_ops p x) node_key (fun c => w_disk c = w_disk w) (fun _ => True) (g_nodes g) inputs fr start a m s w0 w1 /\
    g_output g' = s /\ written p x nw fr s path img co /\ w_disk w' = fst (x_write x (w_disk w) path img co).
Proof.
  intros fuel g id start nw fr w g' w' WF FI NW T EN EX LK OTH H.
  destruct (write_held (fun c => w_disk c = w_disk w) fuel g id start nw fr w g' w' (just_disk _) eq_refl WF FI NW T EN EX LK OTH H) as
    (inputs & a & rest & s & m & w0 & w1 & path & img & co & A1 & A2 & A3 & A4 & A5 & A6 & _).
  exists inputs, a, rest, s, m, w0, w1, path, img, co. auto 8.
Qed.

Lemma made_asks : forall nodes inputs fr start i m v c c' cinv sinv,
  made (node_ops p x) node_key cinv sinv nodes inputs fr start i m v c c' -> asks (node_ops p x) node_key nodes inputs start i m.
Proof. intros nodes inputs fr start i m v c c' cinv sinv M. now inversion M. Qed.

Lemma leads_in : forall g src l last, leads g src l last -> last = src \/ In last l.
Proof. intros g src l last L. inversion L; subst; [now left|]. right. apply in_or_app. right. now left. Qed.

(** The nodes that a chain ending in a write node asks. *)
Lemma render_asks : forall g nodes inputs start src l a nw i m,
  (forall n, inputs_in_slot_order g n (inputs n)) -> leads g src l a -> only_input g a start ->
  (forall m, ~ link g m src) ->
  (forall i n, In i l -> nth_error nodes i = Some n -> adding (nd_type n)) ->
  nth_error nodes start = Some nw -> nd_type nw = TWrite ->
  asks (node_ops p x) node_key nodes inputs start i m -> (i = start \/ i = src \/ In i l) /\ m = mode_all.
Proof.
  intros g nodes inputs start src l a nw i m IO L O NI AD NW T A.
  assert (PR : forall b, In b l -> exists a, only_input g a b /\ (a = src \/ In a l)).
  { clear - L. induction L as [|l a b L IH O]; [intros b []|]. intros c Hc. apply in_app_iff in Hc. destruct Hc as [Hc|[<-|[]]].
    - destruct (IH c Hc) as (d & D1 & D2). exists d. split; [exact D1|]. rewrite in_app_iff. tauto.
    - exists a. split; [exact O|]. rewrite in_app_iff. destruct (leads_in _ _ _ _ L); tauto. }
  induction A as [|i mode n h ns modes j m A IH LK FN V Hj]; [auto|].
  destruct IH as (Hi & ->). destruct LK as (n0 & E0 & K0). destruct (key_inj _ _ K0) as (KT & _).
  assert (X : exists b, only_input g b i /\ (b = src \/ In b l) /\ (adding (nd_type n) \/ nd_type n = TWrite) \/ (forall m, ~ link g m i)).
  { destruct Hi as [->|[->|Hi]].
    - exists a. left. split; [exact O|]. split; [exact (leads_in _ _ _ _ L)|]. right. rewrite KT. congruence.
    - exists 0%nat. right. exact NI.
    - destruct (PR i Hi) as (b & B1 & B2). exists b. left. split; [exact B1|]. split; [exact B2|]. left. rewrite KT. eauto. }
  destruct X as (b & [(B1 & B2 & B3)|B]).
  - rewrite (only_input_list _ _ _ _ B1 (IO i)) in Hj, FN.
    inversion FN as [|? n1 ? ns' L1 FN']; subst. inversion FN'; subst. cbn [n_validate node_ops] in V. unfold node_validate in V.
    assert (modes = [mode_all]) as ->.
    { destruct B3 as [[U|[U|[U|U]]]|U]; rewrite U in V; cbn in V; injection V as <-; reflexivity. }
    destruct Hj as [Hj|[]]. injection Hj as <- <-. tauto.
  - exfalso. destruct (IO i) as (_ & IN & _). apply in_combine_l in Hj. apply IN in Hj. destruct Hj as (Hj & _). exact (B _ Hj).
Qed.

(** The whole range. *)
Theorem render_run : forall fuel id start src l a nr nw frames (g : graph node stream) w g' w',
  wf_graph (node_ops p x) g -> find_index g id = Some start ->
  leads (g_graph g) src l a -> only_input (g_graph g) a start -> (forall m, ~ link (g_graph g) m src) ->
  nth_error (g_nodes g) src = Some nr -> nd_type nr = TRead ->
  node_get_i32 nr "enable" <> 0 -> node_get_i32 nr "use_cache" = 0 \/ uncached w ->
  (forall i n, In i l -> nth_error (g_nodes g) i = Some n -> adding (nd_type n)) ->
  nth_error (g_nodes g) start = Some nw -> nd_type nw = TWrite ->
  node_get_i32 nw "enable" <> 0 -> node_get_i32 nw "execute" <> 0 ->
  execute (node_ops p x) srt fuel g id frames w = Some (Ok (g', w', ExSuccess)) ->
  rendered p x nw (processed x (g_nodes g) nr l) frames (w_disk w) (w_disk w').
Proof.
  intros fuel id start src l a nr nw frames. revert nr nw.
  induction frames as [|fr frames IH]; intros nr nw g w g' w' WF FI L O NI NR TR RE RU AD NW T EN EX H.
  { unfold execute in H. rewrite FI in H. destruct (all_upstream _ _ _); [|discriminate]. cbn [execute_frames] in H.
    injection H as _ <-. constructor. }
  assert (S1 : exists g1 w1, execute (node_ops p x) srt fuel g id [fr] w = Some (Ok (g1, w1, ExSuccess))).
  { unfold execute in *. rewrite FI in *. destruct (all_upstream _ _ _); [|discriminate]. cbn [execute_frames] in *.
    destruct (execute_frame _ _ _ _ _ _ _) as [[((g1, c1), [e|])|]|]; try discriminate; [destruct e; discriminate|eauto]. }
  destruct S1 as (g1 & w1 & S1).
  pose proof (execute_split (node_ops p x) srt fuel g id [fr] frames w g1 w1 S1) as S2. cbn [app] in S2. rewrite H in S2.
  destruct (write_held (fun c => w_disk c = w_disk w /\ (node_get_i32 nr "use_cache" = 0 \/ uncached c)) fuel g id start nw fr w g1 w1
      (disk_and _ _ (kept_quiet _)) (conj eq_refl RU) WF FI NW T EN EX) as
    (inputs & a' & rest & s & m & w2 & w3 & path & img & co & IO & EI & M & _ & WR & WD & KQ); [|clear S2|exact S1|].
  { exists a. destruct O as (N1 & O). split; [now apply O|exact N1]. }
  { intros i n R NE E.
    assert (X : i = start \/ i = src \/ In i l).
    { clear - R L O NI. assert (PR : forall b, In b l -> exists a, only_input (g_graph g) a b /\ (a = src \/ In a l)).
      { clear - L. induction L as [|l a b L IH O]; [intros b []|]. intros c Hc. apply in_app_iff in Hc. destruct Hc as [Hc|[<-|[]]].
        - destruct (IH c Hc) as (d & D1 & D2). exists d. split; [exact D1|]. rewrite in_app_iff. tauto.
        - exists a. split; [exact O|]. rewrite in_app_iff. destruct (leads_in _ _ _ _ L); tauto. }
      destruct R as (k & U). induction U as [|k n m U IH LK]; [now left|]. destruct IH as [->|[->|Hn]].
      - apply O in LK. subst m. right. exact (leads_in _ _ _ _ L).
      - destruct (NI _ LK).
      - destruct (PR n Hn) as (b & B1 & B2). apply B1 in LK. subst m. now right. }
    destruct X as [->|[->|Hi]]; [congruence| |].
    - rewrite NR in E. injection E as <-. congruence.
    - destruct (AD i n Hi E) as [U|[U|[U|U]]]; congruence. }
  rewrite (only_input_list _ _ _ _ O (IO start)) in EI. injection EI as <- <-.
  destruct (made_chain p x _ _ _ _ _ _ _ _ _ _ _ _ _ _ IO L AD M) as (s0 & ops & defs & m0 & c2 & c3 & M0 & CO & SP & SO & SD).
  assert (m0 = mode_all) as ->.
  { apply made_asks in M0. eapply render_asks in M0; eauto. apply M0. }
  inversion M0 as [i m' n vs out c0 n' st v' c0' AS LK MA FV CI SI CP OK]; subst.
  destruct LK as (n0 & E0 & K0). rewrite NR in E0. injection E0 as <-.
  destruct (key_inj _ _ K0) as (KT & _). destruct (key_get _ _ K0) as (GI & _).
  cbn [n_compute node_ops] in CP.
  assert (SRC : source x n (w_disk c2) fr s0).
  { eapply read_source; [now rewrite KT|now rewrite GI|rewrite GI; apply CI|exact CP]. }
  rewrite (proj1 CI) in SRC. apply (source_key _ _ _ _ _ K0) in SRC.
  econstructor; [|exact WR|].
  { exists s0, ops, defs. auto. }
  rewrite <- WD.
  destruct (execute_result (node_ops p x) srt (node_keeps_id p x) _ _ _ _ _ _ _ _ S1) as (G1 & I1 & L1 & D1 & _).
  pose proof (execute_keys (node_ops p x) srt node_key) as EK.
  assert (KY : map node_key (g_nodes g1) = map node_key (g_nodes g)).
  { eapply EK; [|exact S1]. intros n1 fr1 mo1 ins1 out1 cc1 n1' st1 out1' cc1' E1. apply node_compute_inv in E1.
    destruct E1 as (h & _ & _ & ->). reflexivity. }
  assert (NTH : forall i n, nth_error (g_nodes g) i = Some n -> exists n1, nth_error (g_nodes g1) i = Some n1 /\ node_key n1 = node_key n).
  { intros i n1 E. apply (map_nth_error node_key) in E. rewrite <- KY, nth_error_map in E.
    destruct (nth_error (g_nodes g1) i) as [n2|]; [|discriminate]. injection E as E1 E2. exists n2. split; [reflexivity|].
    unfold node_key. congruence. }
  assert (NTH' : forall i n, nth_error (g_nodes g1) i = Some n -> exists n1, nth_error (g_nodes g) i = Some n1 /\ node_key n1 = node_key n).
  { intros i n1 E. apply (map_nth_error node_key) in E. rewrite KY, nth_error_map in E.
    destruct (nth_error (g_nodes g) i) as [n2|]; [|discriminate]. injection E as E1 E2. exists n2. split; [reflexivity|].
    unfold node_key. congruence. }
  destruct (NTH _ _ NR) as (nr1 & NR1 & KR). destruct (NTH _ _ NW) as (nw1 & NW1 & KW).
  destruct (key_inj _ _ KR) as (KRT & _). destruct (key_get _ _ KR) as (KRI & _).
  destruct (key_inj _ _ KW) as (KWT & _). destruct (key_get _ _ KW) as (KWI & _).
  assert (RD : rendered p x nw1 (processed x (g_nodes g1) nr1 l) frames (w_disk w1) (w_disk w')).
  { eapply (IH nr1 nw1 g1 w1).
    - constructor; [rewrite G1; apply WF|rewrite I1, D1; apply WF|rewrite G1, L1; apply WF].
    - unfold find_index. rewrite I1. exact FI.
    - rewrite G1. exact L.
    - rewrite G1. exact O.
    - rewrite G1. exact NI.
    - exact NR1.
    - congruence.
    - now rewrite KRI.
    - rewrite KRI. apply (KQ _ (kept_quiet _)). now intros c [].
    - intros i n1 Hi E. destruct (NTH' _ _ E) as (n2 & E2 & K2). destruct (key_inj _ _ K2) as (<- & _). eauto.
    - exact NW1.
    - congruence.
    - now rewrite KWI.
    - now rewrite KWI.
    - exact S2. }
  assert (CK : forall l o d, collects (g_nodes g1) l o d -> collects (g_nodes g) l o d).
  { clear - NTH'. intros l o d H. induction H as [|l i n ops defs ops' defs' H IH E C]; [constructor|].
    destruct (NTH' _ _ E) as (n2 & E2 & K2). econstructor; [exact IH|exact E2|].
    eapply contributes_key; [|exact C]. now symmetry. }
  clear - RD CK KR KW. induction RD as [|fr frs d s path img co d' IN WR RD IH]; [constructor|].
  econstructor; [|eapply written_key; eauto|exact IH].
  destruct IN as (s0 & ops & defs & S & C & R). exists s0, ops, defs. split; [eapply source_key; eauto|]. split; [now apply CK|exact R].
Qed.
(** A chain from a reader to any adding node. *)
Lemma leads_reaches : forall g src l last i, leads g src l last -> (forall m, ~ link g m src) -> reaches g i last -> i = src \/ In i l.
Proof.
  intros g src l last i L NI (k & U).
  assert (PR : forall b, In b l -> exists a, only_input g a b /\ (a = src \/ In a l)).
  { clear - L. induction L as [|l a b L IH O]; [intros b []|]. intros c Hc. apply in_app_iff in Hc. destruct Hc as [Hc|[<-|[]]].
    - destruct (IH c Hc) as (d & D1 & D2). exists d. split; [exact D1|]. rewrite in_app_iff. tauto.
    - exists a. split; [exact O|]. rewrite in_app_iff. destruct (leads_in _ _ _ _ L); tauto. }
  induction U as [|k n m U IH LK]; [exact (leads_in _ _ _ _ L)|]. destruct IH as [->|Hn].
  - destruct (NI _ LK).
  - destruct (PR n Hn) as (b & B1 & B2). apply B1 in LK. now subst m.
Qed.

Theorem chain_source : forall fuel (g : graph node stream) id start src l nr frames fr w g' w',
  wf_graph (node_ops p x) g -> find_index g id = Some start ->
  leads (g_graph g) src l start -> (forall m, ~ link (g_graph g) m src) ->
  nth_error (g_nodes g) src = Some nr -> nd_type nr = TRead ->
  node_get_i32 nr "enable" <> 0 -> node_get_i32 nr "use_cache" = 0 \/ uncached w ->
  (forall i n, In i l -> nth_error (g_nodes g) i = Some n -> adding (nd_type n)) ->
  execute (node_ops p x) srt fuel g id (frames ++ [fr])%list w = Some (Ok (g', w', ExSuccess)) ->
  processed x (g_nodes g) nr l (w_disk w) fr (g_output g') /\ w_disk w' = w_disk w.
Proof.
  intros fuel g id start src l nr frames fr w g' w' WF FI L NI NR TR RE RU AD H.
  destruct (execute_made (node_ops p x) srt node_key (fun c => w_disk c = w_disk w /\ (node_get_i32 nr "use_cache" = 0 \/ uncached c)) (fun _ => True)
    HS fuel g id start frames fr w g' w' WF (conj eq_refl RU) I FI) as
    (inputs & c1 & IO & M & _ & DK & _); [|exact H|].
  { intros inputs IO. eapply keeps_disk; [exact (disk_and _ _ (kept_quiet _))|exact IO|]. intros i n _ R E.
    destruct (leads_reaches _ _ _ _ _ L NI R) as [->|Hi].
    - rewrite NR in E. injection E as <-. congruence.
    - destruct (AD i n Hi E) as [U|[U|[U|U]]]; congruence. }
  split; [|exact (proj1 DK)].
  destruct (made_chain p x _ _ _ _ _ _ _ _ _ _ _ _ _ _ IO L AD M) as (s0 & ops & defs & m0 & c2 & c3 & M0 & CO & SP & SO & SD).
  assert (m0 = mode_all) as ->.
  { apply made_asks in M0. eapply leads_asks in M0; eauto; [apply M0| |].
    - intros m LK. destruct (NI _ LK).
    - intros n E. rewrite NR in E. injection E as <-. exact TR. }
  inversion M0 as [i m' n vs out c0 n' st v' c0' AS LK MA FV CI SI CP OK]; subst.
  destruct LK as (n0 & E0 & K0). rewrite NR in E0. injection E0 as <-.
  destruct (key_inj _ _ K0) as (KT & _). destruct (key_get _ _ K0) as (GI & _).
  cbn [n_compute node_ops] in CP.
  assert (SRC : source x n (w_disk c2) fr s0).
  { eapply read_source; [now rewrite KT|now rewrite GI|rewrite GI; apply CI|exact CP]. }
  rewrite (proj1 CI) in SRC. apply (source_key _ _ _ _ _ K0) in SRC. exists s0, ops, defs. auto.
Qed.

(** Statuses after an execution. *)
Theorem statuses : forall fuel (g : graph node stream) id start frames w g' w' st,
  wf_graph (node_ops p x) g -> find_index g id = Some start -> frames <> [] ->
  execute (node_ops p x) srt fuel g id frames w = Some (Ok (g', w', st)) ->
  (st = ExSuccess <-> forall i n, reaches (g_graph g) i start -> nth_error (g_nodes g') i = Some n ->
                        nd_status n = 1 \/ nd_status n = 2).
Proof.
  intros fuel g id start frames w g' w' st WF FI NE H.
  assert (RS : records_status (node_ops p x) nd_status status_code).
  { intros n fr mode ins out c n' st0 out' c' C. apply node_compute_inv in C. destruct C as (h & _ & _ & ->). reflexivity. }
  assert (AE : asks_each (node_ops p x)).
  { intros n mode h ns modes V. cbn [n_validate node_ops] in V. unfold node_validate in V. now apply validate_length in V. }
  pose proof (execute_status (node_ops p x) srt nd_status status_code HS RS fuel g id start frames w g' w' st WF AE FI NE H) as X.
  split.
  - intros ->. cbv iota in X. intros i n R E. destruct (X i R) as (n1 & E1 & S1). rewrite E in E1. injection E1 as <-. exact S1.
  - intros A. destruct st; [|reflexivity|]; destruct X as (i & R & n & s & E & S1 & S2 & S3);
      destruct (A i n R E) as [Q|Q]; rewrite S1 in Q; destruct s; cbn in Q; congruence.
Qed.
End Sorted.
End Render.

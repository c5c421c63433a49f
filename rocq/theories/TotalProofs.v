(** Sensibly set nodes always succeed, and acyclic graphs of them describe a
    composition. *)
From Coq Require String.
Import String.StringSyntax.
From Coq Require Import Lia Floats.SpecFloat.
From Verif Require Import Machine Loops CacheModel FloatModel BBoxModel BBoxSpec PixelModel PixelSpec EnumModel AttrModel AttrSpec AttrProofs HashModel HashSpec
  StreamModel BakeModel NodeModel NodeSpec LutSpec LutHistory ChainSpec ChainProofs GraphModel GraphSpec GraphWalk GraphExec GraphHistory GraphHistory2 GraphCount GraphFacts GraphSim RunSpec RunProofs
  SafeSpec GraphSafe SafeProofs SafeFacts UncachedSpec ShowSpec ShowCacheProofs SoundSpec ViewSpec SceneSpec SceneProofs SceneProofs2 WriteSpec SceneWrite TotalSpec.
Local Open Scope string_scope.

(* ------------------------------ statuses ------------------------------ *)

Section Status.
Context {N St Ca F W : Type}.
Variable ops : nodeops N St Ca F W.
Variable srt : edge_sort.
Hypothesis HS : sorts srt.
Variables (PN : nat -> N -> Prop) (M : St -> Prop) (G : Ca -> Prop).
Variable sg : stable.
Variable start : nat.
(** Whatever a contributing node computes, it succeeds and keeps the conditions. *)
Hypothesis OK : forall i n ms fr mode is out c n' st out' c', reaches sg i start -> PN i n -> inputs_in_slot_order sg i ms ->
  length is = length ms -> Forall M is -> M out -> G c -> n_compute ops n fr mode is out c = Ok (n', st, out', c') ->
  (st = NsValid \/ st = NsWarning) /\ PN i n' /\ M out' /\ G c'.

Definition succeeding (g : graph N St) (c : Ca) : Prop :=
  g_graph g = sg /\ runnable g /\ (forall i n, reaches sg i start -> nth_error (g_nodes g) i = Some n -> PN i n) /\ M (g_output g) /\ G c.

Lemma reaches_bound i : wf_stable sg -> (start < node_bound sg)%nat -> reaches sg i start -> (i < node_bound sg)%nat.
Proof. intros WS HB (k & U). destruct U as [|k n m U (s & L)]; [exact HB|]. apply live_lt_bound. exact (proj1 (ws_ends_live _ WS _ L)). Qed.

Lemma phase_succeeds fr t : wf_stable sg -> (start < node_bound sg)%nat -> forall (g : graph N St) c sc g' c' e, succeeding g c -> (forall i m, In (i, m) t -> reaches sg i start) ->
  all_M M sc -> compute_phase ops srt g fr t c sc = Ok (g', c', e) -> e = None /\ succeeding g' c'.
Proof.
  intros WS HB. induction t as [|[i m] t IH]; intros g c sc g' c' e SU ZT MS H; cbn [compute_phase] in H; [injection H as <- <- <-; auto|].
  destruct SU as (EG & HR & PNg & MO & GC). unfold input_streams in H. rewrite EG in H.
  assert (Zi : reaches sg i start) by (apply (ZT i m); now left).
  pose proof (reaches_bound i WS HB Zi) as Bi.
  rewrite (direct_upstream_ok srt sg HS WS i Bi) in H. cbn [bind] in H.
  pose proof (inputs_slot_order srt sg HS WS i) as IO. set (ms := inputs_of srt sg i) in *.
  destruct (lookup_all ms sc) as [is|] eqn:LA; cbn [bind] in H; [|discriminate].
  destruct (lookup_all_M _ _ _ _ MS LA) as (MI & LI).
  unfold compute_node_output, get_node in H. destruct (nth_error (g_nodes g) i) as [n|] eqn:EN; cbn [bind] in H; [|discriminate].
  destruct (n_compute ops n fr m is (g_output g) c) as [[[[n' st] o] c1]|] eqn:E; cbn [bind] in H; [|discriminate].
  destruct (OK i n ms fr m is (g_output g) c n' st o c1 Zi (PNg i n Zi EN) IO LI MI MO GC E) as (ST & PN' & MO' & GC').
  set (g1 := with_output (with_nodes g (set_nth (g_nodes g) i n')) o) in H.
  assert (SU1 : succeeding g1 c1).
  { split; [exact EG|]. split.
    { eapply runnable_shape; [exact HR|]. unfold same_shape, g1, with_output, with_nodes. cbn. rewrite set_nth_length. repeat split. }
    split; [|split; assumption]. intros j nj Rj Ej. cbn [g1 with_output with_nodes g_nodes] in Ej.
    destruct (Nat.eq_dec j i) as [->|NE].
    - rewrite set_nth_same in Ej by (apply nth_error_Some; congruence). injection Ej as <-. exact PN'.
    - rewrite set_nth_other in Ej by congruence. exact (PNg j nj Rj Ej). }
  assert (SC : all_M M ((i, o) :: sc)).
  { intros j v. cbn [lookup]. destruct (Nat.eqb j i); [intros [= <-]; exact MO'|apply MS]. }
  assert (ZT' : forall j k, In (j, k) t -> reaches sg j start) by (intros j k X; apply (ZT j k); now right).
  destruct ST as [-> | ->]; cbn [bind] in H; exact (IH _ _ _ _ _ _ SU1 ZT' SC H).
Qed.

Lemma frames_succeed fuel t frames : wf_stable sg -> (start < node_bound sg)%nat -> forall (g : graph N St) c g' c' e, succeeding g c ->
  execute_frames ops srt fuel g (start :: t) frames c = Some (Ok (g', c', e)) -> e = None /\ succeeding g' c'.
Proof.
  intros WS HB. induction frames as [|fr frames IH]; intros g c g' c' e SU H; cbn [execute_frames] in H; [injection H as <- <- <-; auto|].
  destruct (execute_frame ops srt fuel g (start :: t) fr c) as [[[[g1 c1] e1]|]|] eqn:EF; try discriminate.
  assert (Q : e1 = None /\ succeeding g1 c1).
  { unfold execute_frame in EF. destruct (hash_phase _ _ _ _ _ _) as [hc|]; [|discriminate].
    destruct (validate_loop ops srt fuel g hc _ _) as [[v|]|] eqn:V; try discriminate. injection EF as EF.
    refine (phase_succeeds fr (rev v) WS HB g c [] g1 c1 e1 SU _ _ EF); [|intros i w L; discriminate L].
    destruct SU as (EG & HR & _). intros i m Hi. apply in_rev in Hi. rewrite <- EG.
    refine (validate_upstream ops srt HS fuel g hc start _ _ v HR _ _ V i m Hi).
    - intros i' m' [Q'|[]]. injection Q' as <- _. split; [exists O; constructor|now rewrite EG].
    - intros i' m' [Q'|[]]. injection Q' as <- _. exists O. constructor. }
  destruct Q as (-> & SU1). exact (IH _ _ _ _ _ SU1 H).
Qed.
End Status.

Theorem execute_succeeds {N St Ca F W} (ops : nodeops N St Ca F W) srt (PN : nat -> N -> Prop) (M : St -> Prop) (G : Ca -> Prop)
    fuel (g : graph N St) id start frames c g' c' e :
  sorts srt -> wf_graph ops g -> find_index g id = Some start ->
  (forall i n ms fr mode is out c n' st out' c', reaches (g_graph g) i start -> PN i n -> inputs_in_slot_order (g_graph g) i ms ->
     length is = length ms -> Forall M is -> M out -> G c -> n_compute ops n fr mode is out c = Ok (n', st, out', c') ->
     (st = NsValid \/ st = NsWarning) /\ PN i n' /\ M out' /\ G c') ->
  (forall i n, reaches (g_graph g) i start -> nth_error (g_nodes g) i = Some n -> PN i n) -> M (g_output g) -> G c ->
  execute ops srt fuel g id frames c = Some (Ok (g', c', e)) -> e = ExSuccess /\ M (g_output g') /\ G c'.
Proof.
  intros HS WG FI OK PG MO GC H. unfold execute in H. rewrite FI in H. pose proof (wf_runnable ops g WG) as HR.
  destruct (Nat.lt_ge_cases start (node_bound (g_graph g))) as [HB|HB].
  2: { rewrite (all_upstream_panics srt (g_graph g) start HB) in H. discriminate. }
  destruct (all_upstream_ok srt (g_graph g) HS (proj1 HR) start HB) as (l & E & R). rewrite E in H.
  destruct (br_first _ _ _ R) as (t & ->). cbn [map fst] in H.
  destruct (execute_frames ops srt fuel g _ frames c) as [[[[g1 c1] e1]|]|] eqn:EF; try discriminate.
  assert (SU : succeeding PN M G (g_graph g) start g c) by (split; [reflexivity|]; auto).
  destruct (frames_succeed ops srt HS PN M G (g_graph g) start OK fuel _ frames (proj1 HR) HB g c g1 c1 e1 SU EF) as (-> & _ & _ & _ & M1 & G1).
  injection H as <- <- <-. auto.
Qed.

(** More fuel changes nothing. *)
Section Fuel.
Context {N St Ca F W : Type}.
Variable ops : nodeops N St Ca F W.
Variable srt : edge_sort.
Lemma validate_more fuel fuel' (g : graph N St) hc : (fuel <= fuel')%nat -> forall stack acc r,
  validate_loop ops srt fuel g hc stack acc = Some r -> validate_loop ops srt fuel' g hc stack acc = Some r.
Proof.
  intro LE. revert fuel' LE. induction fuel as [|fuel IH]; intros fuel' LE stack acc r H; [discriminate|].
  destruct fuel' as [|fuel']; [lia|]. destruct stack as [|(i, m) rest]; [exact H|].
  rewrite validate_loop_step in H |- *. destruct (validate_one ops srt g hc i m); [|exact H]. apply IH; [lia|exact H].
Qed.
Lemma frames_more fuel fuel' order frames : (fuel <= fuel')%nat -> forall (g : graph N St) c r,
  execute_frames ops srt fuel g order frames c = Some r -> execute_frames ops srt fuel' g order frames c = Some r.
Proof.
  intro LE. induction frames as [|fr frames IH]; intros g c r H; cbn [execute_frames] in *; [exact H|].
  assert (Q : forall r1, execute_frame ops srt fuel g order fr c = Some r1 -> execute_frame ops srt fuel' g order fr c = Some r1).
  { intros r1. unfold execute_frame. destruct (hash_phase _ _ _ _ _ _) as [hc|]; [|auto]. destruct order as [|start t]; [auto|].
    destruct (validate_loop ops srt fuel g hc _ _) as [v|] eqn:V; [|discriminate]. now rewrite (validate_more _ _ _ _ LE _ _ _ V). }
  destruct (execute_frame ops srt fuel g order fr c) as [r1|]; [|discriminate]. rewrite (Q _ eq_refl).
  destruct r1 as [[[g1 c1] [e|]]|]; auto.
Qed.
Lemma execute_more fuel fuel' (g : graph N St) id frames c r : (fuel <= fuel')%nat ->
  execute ops srt fuel g id frames c = Some r -> execute ops srt fuel' g id frames c = Some r.
Proof.
  intros LE. unfold execute. destruct (find_index g id); [|auto]. destruct (all_upstream _ _ _) as [l|]; [|auto].
  destruct (execute_frames ops srt fuel g _ frames c) as [r1|] eqn:E; [|discriminate]. now rewrite (frames_more _ _ _ _ LE _ _ _ E).
Qed.
End Fuel.

(* ------------------------- induction upstream ------------------------- *)

Lemma acyclic_induction (sg : stable) start (P : nat -> Prop) : wf_stable sg -> sg_live sg start = true -> acyclic_above sg start ->
  (forall i, reaches sg i start -> (forall m, link sg m i -> m <> i -> P m) -> P i) -> forall i, reaches sg i start -> P i.
Proof.
  intros WS L AC STEP.
  enough (Q : forall k seen i, (node_bound sg <= k + length seen)%nat -> NoDup seen -> incl seen (seq 0 (node_bound sg)) ->
    (forall s, In s seen -> chain sg i s) -> reaches sg i start -> P i).
  { intros i R. apply (Q (node_bound sg) [] i); [cbn; lia|constructor|intros q []|intros q []|exact R]. }
  induction k as [|k IH]; intros seen i LE ND IN CH R;
    assert (NI : ~ In i seen) by (intro X; exact (AC i R (CH i X)));
    assert (BI : In i (seq 0 (node_bound sg))) by (apply in_seq; pose proof (live_lt_bound sg i (reaches_live sg i start WS L R)); lia).
  - exfalso. assert (X : (length (i :: seen) <= length (seq 0 (node_bound sg)))%nat).
    { apply NoDup_incl_length; [now constructor|]. intros q [<-|Hq]; [exact BI|now apply IN]. }
    rewrite seq_length in X. cbn [length] in X. lia.
  - apply (STEP i R). intros m LK NE. apply (IH (i :: seen) m).
    + cbn [length]. lia.
    + now constructor.
    + intros q [<-|Hq]; [exact BI|now apply IN].
    + intros s [<-|Hs]; [now apply chain_one|]. exact (chain_more _ _ _ _ LK NE (CH s Hs)).
    + destruct R as (j & U). exists (Datatypes.S j). exact (up_step _ _ _ _ _ U LK).
Qed.

(* ------------------------------ the nodes ------------------------------ *)

Section Nodes.
Context {D : Type}.
Variable p : profile.
Variable x : externals D.
Variable B : bbox.
Variable ok_disk : D -> Prop.
Hypothesis R : roomy B.
Hypothesis SX : sane x B ok_disk.
Hypothesis RW : resampler_works x B.
Notation fine_world := (fine_world p B ok_disk).

Lemma status_cases n fr mode is out (w : world D) n' st v w' : node_compute p x n fr mode is out w = Ok (n', st, v, w') ->
  (st = NsValid \/ st = NsWarning) \/
  nd_type n = TResample /\ node_get_i32 n "enable" = 1 /\ node_get_i32 n "factor" <> 0 /\
  exists s rest, is = s :: rest /\
    fst (x_resample x (Shared (st_block s) (st_display s) (st_data s) (st_spec s)) empty_image (node_get_i32 n "factor")
      (negb (node_get_i32 n "interpolate" =? 0))) = false.
Proof.
  intros H. pose proof (gi_get n) as GI. apply node_compute_inv in H. destruct H as (h & _ & H & _).
  destruct (nd_type n); cbn [compute_op] in H; [left ..|].
  - unfold null_compute in H. destruct is; injection H as <- _ _; auto.
  - unfold read_compute in H. destruct (Z.land mode m_pixel =? 0); [injection H as <- _ _; auto|].
    destruct (gi TRead _ "enable" =? 0); [injection H as <- _ _; auto|]. apply bind_ok in H. destruct H as (path & _ & H).
    destruct (x_kind x (w_disk w) path); [injection H as <- _ _; auto| |destruct (_ =? 1) in H; injection H as <- _ _; auto].
    apply bind_ok in H. destruct H as ([[img u] w1] & _ & H). injection H as <- _ _. auto.
  - unfold write_compute in H. destruct (_ =? 0) in H; [injection H as <- _ _; auto|]. destruct is as [|s rest]; [injection H as <- _ _; auto|].
    destruct (_ =? 0) in H; [injection H as <- _ _; auto|]. apply bind_ok in H. destruct H as ([d ok] & _ & H). injection H as <- _ _; auto.
  - unfold grade_compute, first_input in H. destruct is as [|s rest]; cbv zeta in H; destruct (negb _) in H; injection H as <- _ _; auto.
  - unfold lens_compute, first_input in H. destruct is as [|s rest]; cbv zeta in H; (destruct (_ =? 1) in H; [destruct (x_lens_ok _ _); [|discriminate]|]); injection H as <- _ _; auto.
  - unfold transform_compute, first_input in H. destruct is as [|s rest]; injection H as <- _ _; auto.
  - unfold merge_compute in H. destruct (negb _) in H; [injection H as <- _ _; auto|]. destruct is as [|a [|b rest]]; [injection H as <- _ _; auto| |];
      apply bind_ok in H; destruct H as ([[img u] w1] & _ & H); injection H as <- _ _; auto.
  - unfold crop_compute in H. destruct is as [|s rest]; [injection H as <- _ _; auto|]. destruct (negb _) in H; [injection H as <- _ _; auto|].
    apply bind_ok in H. destruct H as ([[img [s1 st1]] w1] & C & H). injection H as <- _ _.
    assert (Q : st1 = NsValid); [|auto]. unfold cached in C.
    assert (CP : forall s win r b i im s2 st2, crop_process p x s win r b i = Ok (im, (s2, st2)) -> st2 = NsValid).
    { intros s0 win r b i im s2 st2 K. unfold crop_process in K. apply bind_ok in K. destruct K as (rr & _ & K). apply bind_ok in K. destruct K as (im0 & _ & K). congruence. }
    destruct (negb _) in C.
    + destruct (get _ _) as [c [im|]]; [congruence|]. apply bind_ok in C. destruct C as ([im [s2 st2]] & K & C).
      apply CP in K. apply bind_ok in C. destruct C as (c2 & _ & C). congruence.
    + apply bind_ok in C. destruct C as ([im [s2 st2]] & K & C). apply CP in K. congruence.
  - unfold viewer_compute in H. destruct (negb _) in H; [injection H as <- _ _; auto|]. unfold first_input in H.
    destruct is as [|s rest]; (destruct (bake_from _); try (injection H as <- _ _; auto; fail)); cbv zeta in H;
      apply bind_ok in H; destruct H as ([[img s1] w1] & _ & H); injection H as <- _ _; auto.
  - unfold resample_compute in H. destruct is as [|s rest]; [left; injection H as <- _ _; auto|].
    destruct (negb (gi TResample (nd_attrs n) "enable" =? 1)) eqn:EN; [left; injection H as <- _ _; auto|].
    destruct (match p with Debug => _ | Release => _ end) in H; [discriminate|].
    destruct (Z.eqb_spec (gi TResample (nd_attrs n) "factor") 0) as [E0|E0]; [left; injection H as <- _ _; auto|].
    apply bind_ok in H. destruct H as ([[img st1] w1] & C & H). injection H as <- _ _. unfold cached in C.
    rewrite <- !GI by reflexivity. apply Bool.negb_false_iff, Z.eqb_eq in EN.
    destruct (x_resample x _ empty_image _ _) as [ok im] eqn:XR. cbn [bind] in C.
    assert (Q : st1 = NsValid \/ ok = false).
    { destruct (negb _) in C.
      - destruct (get _ _) as [c [im1|]]; [left; congruence|]. apply bind_ok in C. destruct C as (c2 & _ & C). destruct ok; [left; congruence|now right].
      - destruct ok; [left; congruence|now right]. }
    destruct Q as [-> | ->]; [now left; left|]. right. split; [reflexivity|]. split; [exact EN|]. split; [exact E0|].
    exists s, rest. split; [reflexivity|]. rewrite XR. reflexivity.
Qed.

Lemma node_succeeds n fr mode is out (w : world D) n' st v w' : careful p B n (length is) -> Forall (fine_stream B) is ->
  node_compute p x n fr mode is out w = Ok (n', st, v, w') -> st = NsValid \/ st = NsWarning.
Proof.
  intros C FI H. destruct (status_cases _ _ _ _ _ _ _ _ _ _ H) as [Q|(T & E & F0 & s & rest & -> & X)]; [exact Q|].
  inversion FI as [|? ? (FB & FD & _) _]; subst. rewrite RW in X; [discriminate|split; assumption|exact F0].
Qed.

(** A sensibly set node does something fine to fine pictures. *)
Lemma does_exists d fr n vs : ok_disk d -> careful p B n (length vs) -> Forall (fine_stream B) vs ->
  (nd_type n = TViewer -> node_get_i32 n "enable" = 1 /\
     exists o, In o [BakeNothing; BakeColorSpace; BakeColorSpaceAndGrade] /\ told_to_bake (nd_attrs n) o) ->
  exists v, does p x d fr n vs v /\ fine_stream B v.
Proof.
  intros OD C FV VI. pose proof (held_none p B ok_disk R d OD) as (FW & UC).
  destruct (bh_compute _ _ _ _ (node_behaves p x B ok_disk R SX) n (length vs) fr mode_all vs stream_new (no_cache d) C eq_refl FV (fine_new B R) FW)
    as (n' & st & v & w' & H & _ & F & _).
  exists v. split; [|exact F].
  refine (node_does p x B ok_disk R SX n fr mode_all vs stream_new (no_cache d) n' st v w' C FV UC _ VI H (node_succeeds _ _ _ _ _ _ _ _ _ _ C FV H)).
  discriminate.
Qed.

Variable srt : edge_sort.
Hypothesis HS : sorts srt.

Theorem described d fr (g : graph node stream) start : wf_graph (node_ops p x) g -> sg_live (g_graph g) start = true ->
  acyclic_above (g_graph g) start -> careful_graph p B g -> ok_disk d -> all_asked g start ->
  exists v, scene p x d fr g start v /\ fine_stream B v.
Proof.
  intros WG L AC CG OD AA. pose proof (wg_stable _ _ WG) as WS. pose proof (wf_runnable _ _ WG) as HR.
  apply (acyclic_induction (g_graph g) start (fun i => exists v, scene p x d fr g i v /\ fine_stream B v) WS L AC); [|exists O; constructor].
  intros i Ri IH. destruct (get_node_ok g i HR (live_lt_bound _ _ (reaches_live _ _ _ WS L Ri))) as (n & _ & EN).
  pose proof (inputs_slot_order srt (g_graph g) HS WS i) as IO. set (l := inputs_of srt (g_graph g) i) in *.
  assert (VS : exists vs, Forall2 (scene p x d fr g) l vs /\ Forall (fine_stream B) vs).
  { assert (Q : forall m, In m l -> exists v, scene p x d fr g m v /\ fine_stream B v).
    { intros m Hm. apply IO in Hm. now apply IH. }
    clear - Q. induction l as [|m l IHl]; [exists []; split; constructor|].
    destruct (Q m (or_introl eq_refl)) as (v & Sv & Fv). destruct IHl as (vs & SS & FF); [intros k Hk; apply Q; now right|].
    exists (v :: vs). split; constructor; assumption. }
  destruct VS as (vs & SS & FF).
  assert (LE : length vs = length l) by (clear - SS; induction SS; cbn; congruence).
  destruct (does_exists d fr n vs OD) as (v & DV & FV).
  - rewrite LE. exact (CG i n l EN IO).
  - exact FF.
  - exact (proj2 (AA i n l Ri EN IO)).
  - exists v. split; [exact (scene_node p x d fr g i n l vs v EN IO SS DV)|exact FV].
Qed.

Theorem stays_fine g fuel id start frames w g' w' e : wf_graph (node_ops p x) g ->
  find_index g id = Some start -> careful_graph p B g -> fine_stream B (g_output g) -> fine_world w ->
  execute (node_ops p x) srt fuel g id frames w = Some (Ok (g', w', e)) ->
  e = ExSuccess /\ fine_stream B (g_output g') /\ fine_world w'.
Proof.
  intros WG FI CG FO FW X.
  refine (execute_succeeds (node_ops p x) srt (fun i n => forall ms, inputs_in_slot_order (g_graph g) i ms -> careful p B n (length ms))
    (fine_stream B) fine_world fuel g id start frames w g' w' e HS WG FI _ _ FO FW X).
  - intros i n ms fr mode is out c1 n' st out' c1' _ PN IO LE FI' FO' FW' CO. specialize (PN ms IO). rewrite <- LE in PN.
    split; [exact (node_succeeds _ _ _ _ _ _ _ _ _ _ PN FI' CO)|].
    destruct (bh_compute _ _ _ _ (node_behaves p x B ok_disk R SX) n (length is) fr mode is out c1 PN eq_refl FI' FO' FW')
      as (n1 & st1 & v1 & w1 & CO1 & _ & F1 & W1).
    rewrite CO in CO1. injection CO1 as <- <- <- <-. split; [|split; assumption].
    intros ms' IO'. apply (careful_key p B n); [| |]; try (pose proof (compute_key p x _ _ _ _ _ _ _ _ _ _ CO) as K; injection K as K1 K2; assumption).
    assert (LL : length ms' = length ms).
    { destruct IO as (N1 & I1 & _), IO' as (N2 & I2 & _). apply Nat.le_antisymm; apply NoDup_incl_length; auto; intros q Hq.
      - apply I1, I2, Hq.
      - apply I2, I1, Hq. }
    now rewrite LL, <- LE.
  - intros i n _ EN ms IO. exact (CG i n ms EN IO).
Qed.

Theorem returns_success g fuel id start frames w g' w' e : wf_graph (node_ops p x) g ->
  find_index g id = Some start -> careful_graph p B g -> fine_stream B (g_output g) -> fine_world w ->
  execute (node_ops p x) srt fuel g id frames w = Some (Ok (g', w', e)) -> e = ExSuccess.
Proof. intros WG FI CG FO FW X. exact (proj1 (stays_fine g fuel id start frames w g' w' e WG FI CG FO FW X)). Qed.

Theorem succeeds g id start frames w : wf_graph (node_ops p x) g ->
  find_index g id = Some start -> well_shaped g id -> careful_graph p B g -> fine_stream B (g_output g) -> fine_world w ->
  exists fuel0 g' w', (forall fuel, (fuel0 <= fuel)%nat -> execute (node_ops p x) srt fuel g id frames w = Some (Ok (g', w', ExSuccess))) /\
    careful_graph p B g' /\ fine_stream B (g_output g') /\ fine_world w'.
Proof.
  intros WG FI WS CG FO FW. destruct (WS start FI) as (L & SH).
  destruct (no_panic (node_ops p x) srt HS (careful p B) (fine_stream B) fine_world (node_behaves p x B ok_disk R SX) g id start frames w WG FI L SH)
    as (f0 & g' & w' & e & X & MO & GC & _); auto.
  { intros i n ms _ N I. exact (CG i n ms N I). }
  pose proof (returns_success g f0 id start frames w g' w' e WG FI CG FO FW (X f0 (Nat.le_refl _))) as ->.
  exists f0, g', w'. split; [exact X|]. split; [exact (execute_careful p x B srt _ _ _ _ _ _ _ _ (X f0 (Nat.le_refl _)) CG)|]. split; assumption.
Qed.

(** With the cache switched off. *)
Theorem shows_scene g id start frames fr w : wf_graph (node_ops p x) g ->
  find_index g id = Some start -> well_shaped g id -> careful_graph p B g -> fine_stream B (g_output g) ->
  fine_world w -> uncached w -> all_asked g start -> writes_nothing g start ->
  exists fuel0 g' w', (forall fuel, (fuel0 <= fuel)%nat -> execute (node_ops p x) srt fuel g id (frames ++ [fr])%list w = Some (Ok (g', w', ExSuccess))) /\
    scene p x (w_disk w) fr g start (g_output g') /\ w_disk w' = w_disk w.
Proof.
  intros WG FI WS CG FO FW UC AA WN.
  destruct (succeeds g id start (frames ++ [fr])%list w WG FI WS CG FO FW) as (f0 & g' & w' & X & _).
  exists f0, g', w'. split; [exact X|].
  destruct (execute_made (node_ops p x) srt node_key (resting p B ok_disk (w_disk w)) (fine_stream B) HS f0 g id start frames fr w g' w' WG
    (conj (conj FW UC) eq_refl) FO FI) as (inputs & c1 & IO & M & _ & (_ & DK) & _).
  - intros inputs IO i m n _ A (n0 & E0 & K0) fr1 mode is out c1 n' st out' c1' CO (HC & DC) LE FI' FO'.
    assert (CN : careful p B n (length is)) by (rewrite LE; apply (careful_key p B n0); [apply (key_inj _ _ K0)|apply (key_inj _ _ K0)|]; exact (CG i n0 _ E0 (IO i))).
    destruct (fine_step p x B ok_disk R SX n fr1 mode is out c1 n' st out' c1' CN FI' FO' HC CO) as (F & HW).
    assert (SI : silent n).
    { apply (silent_key n0); [now symmetry|]. apply (WN i n0); auto. exact (proj2 (asked p x g start inputs i m AA IO (asks_recording p x g start inputs _ _ A))). }
    destruct (silent_disk p x _ _ _ _ _ _ _ _ _ _ SI CO) as (K & DK). split; [exact K|]. split; [split; [exact HW|congruence]|exact F].
  - exact (X f0 (Nat.le_refl _)).
  - split; [|exact DK]. exact (made_scene p x B ok_disk R SX g start CG AA inputs IO (w_disk w) fr start mode_all (g_output g') c1 w' M).
Qed.

(** With any cache. *)
Section Cached.
Variable E : setting D.
Hypothesis CP : clean_paths (x_expand x).
Hypothesis NC : no_collisions (x_digest x) (SoundSpec.used E).
Hypothesis DU : digest_u64 (x_digest x).
Hypothesis NZ : forall l, In l (SoundSpec.used E) -> x_digest x l <> 0.
Hypothesis KS : keeps_sources x E.

Theorem session_shows G w i id start frames fr : session p x E srt G w -> find_index (G i) id = Some start -> well_shaped (G i) id ->
  careful_graph p B (G i) -> fine_stream B (g_output (G i)) -> fine_world w -> all_asked (G i) start ->
  exists fuel0 g' w' log,
    (forall fuel, (fuel0 <= fuel)%nat -> execute (recording (node_ops p x)) srt fuel (G i) id (frames ++ [fr])%list (w, []) = Some (Ok (g', (w', log), ExSuccess))) /\
    careful_graph p B g' /\ fine_stream B (g_output g') /\ fine_world w' /\
    (Forall (tame p x E) log -> scene p x (w_disk w) fr (G i) start (g_output g')).
Proof.
  intros S FI WS CG FO FW AA. pose proof (session_wf p x E srt G w S i) as WG.
  destruct (succeeds (G i) id start (frames ++ [fr])%list w WG FI WS CG FO FW) as (f0 & g' & w' & X & CG' & FO' & FW').
  destruct (recording_complete (node_ops p x) srt f0 (G i) id (frames ++ [fr])%list w [] g' w' ExSuccess (X f0 (Nat.le_refl _))) as (log & Y).
  assert (Q : forall fuel, (f0 <= fuel)%nat -> execute (recording (node_ops p x)) srt fuel (G i) id (frames ++ [fr])%list (w, []) = Some (Ok (g', (w', log), ExSuccess))).
  { intros fuel LE. exact (execute_more _ _ _ _ _ _ _ _ _ LE Y). }
  exists f0, g', w', log. split; [exact Q|]. split; [exact CG'|]. split; [exact FO'|]. split; [exact FW'|].
  intro T. exact (scene_session p x E CP NC DU NZ KS B ok_disk R SX srt HS G w i f0 id start frames fr g' w' log S (proj2 FW) CG FO FI AA Y T).
Qed.
End Cached.
End Nodes.

(** Nothing but resampling can fail. *)
Theorem only_resampling_fails : forall D p (x : externals D) srt, sorts srt ->
  forall s0 c0 h g c fuel id start frames w g' w' e, history (node_ops p x) srt s0 c0 h g c ->
  find_index g id = Some start -> resamples_nothing g start ->
  execute (node_ops p x) srt fuel g id frames w = Some (Ok (g', w', e)) -> e = ExSuccess.
Proof.
  intros D p x srt HS s0 c0 h g c fuel id start frames w g' w' e H FI RN X.
  pose proof (history_wf_graph (node_ops p x) srt (node_keeps_id p x) _ _ _ _ _ H) as WG.
  refine (proj1 (execute_succeeds (node_ops p x) srt (fun _ n => nd_type n = TResample -> node_get_i32 n "enable" <> 1 \/ node_get_i32 n "factor" = 0)
    (fun _ => True) (fun _ => True) fuel g id start frames w g' w' e HS WG FI _ RN I I X)).
  intros i n ms fr mode is out c1 n' st out' c1' _ PN _ _ _ _ _ CO. split; [|split; [|auto]].
  - destruct (status_cases p x _ _ _ _ _ _ _ _ _ _ CO) as [Q|(T & E & F0 & _)]; [exact Q|]. destruct (PN T); contradiction.
  - pose proof (compute_key p x _ _ _ _ _ _ _ _ _ _ CO) as K. injection K as K1 K2. intro T. rewrite K1 in T.
    assert (KK : node_key n' = node_key n) by (unfold node_key; congruence). destruct (key_get _ _ KK) as (GI & _). rewrite !GI. exact (PN T).
Qed.

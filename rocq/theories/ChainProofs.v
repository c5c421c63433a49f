(** Proofs about chains of nodes and written files. *)
From Coq Require String.
Import String.StringSyntax.
From Coq Require Import Floats.SpecFloat.
From Verif Require Import Machine CacheModel FloatModel BBoxModel PixelModel PathModel EnumModel AttrModel AttrSpec HashModel StreamModel
  BakeModel GraphModel GraphSpec GraphWalk GraphExec GraphHistory NodeModel RunSpec RunProofs ChainSpec.
Local Open Scope string_scope.

(* ------------------------------ nodes ------------------------------ *)

Lemma grade_settings : forall n, nd_type n = TGrade -> node_get_i32 n "enable" = 1 -> same_settings n (grade_op (nd_attrs n)).
Proof.
  intros [t id st b]. cbn [nd_type nd_attrs]. intros -> E k name H.
  unfold node_get_i32 in E. cbn in E.
  unfold has_attr in H. cbn in H.
  repeat (destruct H as [H|H]; [injection H as <- <-; cbn; try reflexivity; now rewrite E|]). destruct H.
Qed.

Lemma transform_settings : forall n, nd_type n = TTransform -> node_get_i32 n "enable" = 1 ->
  same_settings n (transform_op (nd_attrs n)).
Proof.
  intros [t id st b]. cbn [nd_type nd_attrs]. intros -> E k name H.
  unfold node_get_i32 in E. cbn in E. unfold has_attr in H. cbn in H.
  repeat (destruct H as [H|H]; [injection H as <- <-; cbn; try reflexivity; now rewrite E|]). destruct H.
Qed.
Lemma lens_settings : forall n, nd_type n = TLens -> node_get_i32 n "enable" = 1 ->
  same_settings n (lens_op (nd_attrs n)).
Proof.
  intros [t id st b]. cbn [nd_type nd_attrs]. intros -> E k name H.
  unfold node_get_i32 in E. cbn in E. unfold has_attr in H. cbn in H.
  repeat (destruct H as [H|H]; [injection H as <- <-; cbn; try reflexivity; now rewrite E|]). destruct H.
Qed.

Lemma key_inj : forall n n0, node_key n = node_key n0 -> nd_type n = nd_type n0 /\ nd_attrs n = nd_attrs n0.
Proof. intros n n0 E. unfold node_key in E. split; congruence. Qed.

Lemma key_get : forall n n0, node_key n = node_key n0 ->
  (forall name, node_get_i32 n name = node_get_i32 n0 name) /\ (forall name, node_get_str n name = node_get_str n0 name) /\
  forall k name, get_value k name n = get_value k name n0.
Proof.
  intros n n0 E. apply key_inj in E. destruct E as (T & A). unfold get_value, node_get_i32, node_get_f32, node_get_str.
  rewrite T, A. auto.
Qed.

Lemma contributes_key : forall n n0 a b, node_key n = node_key n0 -> contributes n a b -> contributes n0 a b.
Proof.
  intros n n0 a b E H. destruct (key_get _ _ E) as (GI & _ & GV). apply key_inj in E. destruct E as (T & _).
  assert (SS : forall v, same_settings n v -> same_settings n0 v).
  { intros v S k name HA. rewrite <- GV. apply S. now rewrite T. }
  inversion H; subst; rewrite ?T in *.
  - now apply con_null.
  - apply con_grade; auto; [congruence|]. destruct H2 as (f & F1 & F2). exists f. split; congruence.
  - apply con_grade_off; auto. destruct H1 as [H1|H1]; [left; congruence|right]. intros f Hf. rewrite <- GI. auto.
  - apply con_transform; auto; congruence.
  - apply con_lens; auto; congruence.
  - apply con_off; auto; congruence.
Qed.

Section Nodes.
Context {D : Type}.
Variable p : profile.
Variable x : externals D.

Lemma node_compute_inv : forall n fr mode ins out (w : world D) n' st v w',
  node_compute p x n fr mode ins out w = Ok (n', st, v, w') ->
  exists h, cache_hash p (x_expand x) (x_digest x) (nd_type n) (nd_attrs n) fr (map st_hash ins) = Ok h /\
    compute_op p x (nd_type n) (nd_attrs n) fr h mode ins out w = Ok (st, v, w') /\
    n' = Node (nd_type n) (nd_id n) (status_code st) (nd_attrs n).
Proof.
  intros n fr mode ins out w n' st v w' H. unfold node_compute in H.
  destruct (cache_hash _ _ _ _ _ _ _) as [h|] eqn:E; [|discriminate]. cbn [bind] in H.
  destruct (compute_op _ _ _ _ _ _ _ _ _ _) as [((st', v'), w1)|] eqn:C; [|discriminate]. cbn [bind] in H.
  injection H as <- <- <- <-. eauto.
Qed.

Lemma op_contributes : forall n fr h mode s out (w : world D) st v w', adding (nd_type n) ->
  compute_op p x (nd_type n) (nd_attrs n) fr h mode [s] out w = Ok (st, v, w') ->
  exists ops defs, contributes n ops defs /\ same_picture v s /\
    st_ops v = st_ops s ++ ops /\ st_deformers v = st_deformers s ++ defs /\ w' = w.
Proof.
  intros n fr h mode s out w st v w' AD H.
  destruct AD as [T|[T|[T|T]]]; rewrite T in H; cbn [compute_op] in H.
  - cbn in H. injection H as _ <- <-. exists [], []. rewrite !app_nil_r. repeat split. now apply con_null.
  - unfold grade_compute in H. cbn [first_input] in H.
    set (b := nd_attrs n) in *.
    assert (GI : forall f, In f ("enable" :: rgba_names "process") -> gi TGrade b f = node_get_i32 n f).
    { intros f Hf. unfold node_get_i32. rewrite T. cbn in Hf.
      repeat (destruct Hf as [<-|Hf]; [reflexivity|]). destruct Hf. }
    assert (RN : rgba_names "process" = ["process_r"; "process_g"; "process_b"; "process_a"]) by reflexivity.
    rewrite !GI in H by (cbn; tauto).
    destruct (Z.eqb_spec (node_get_i32 n "enable") 1) as [E1|E1]; cbn [andb negb] in H.
    2: { injection H as _ <- <-. exists [], []. rewrite !app_nil_r. repeat split. apply con_grade_off; auto. }
    destruct (Z.eqb_spec (node_get_i32 n "process_r") 0) as [Er|Er]; cbn [negb orb] in H.
    destruct (Z.eqb_spec (node_get_i32 n "process_g") 0) as [Eg|Eg]; cbn [negb orb] in H.
    destruct (Z.eqb_spec (node_get_i32 n "process_b") 0) as [Eb|Eb]; cbn [negb orb] in H.
    destruct (Z.eqb_spec (node_get_i32 n "process_a") 0) as [Ea|Ea]; cbn [negb orb] in H.
    1: { injection H as _ <- <-. exists [], []. rewrite !app_nil_r. repeat split. apply con_grade_off; auto.
         right. rewrite RN. intros f Hf. repeat (destruct Hf as [<-|Hf]; [assumption|]). destruct Hf. }
    all: injection H as _ <- <-; exists [grade_op b], []; rewrite ?app_nil_r; repeat split;
      apply con_grade; auto; try (apply grade_settings; auto; fail);
      eexists; (split; [|eassumption]); rewrite RN; cbn; tauto.
  - unfold transform_compute in H. cbn [first_input] in H. injection H as _ <- <-.
    assert (GI : gi TTransform (nd_attrs n) "enable" = node_get_i32 n "enable").
    { unfold node_get_i32. rewrite T. reflexivity. }
    rewrite GI. destruct (Z.eqb_spec (node_get_i32 n "enable") 1) as [E1|E1].
    + exists [], [DTransform (transform_op (nd_attrs n))]. rewrite ?app_nil_r. repeat split.
      apply con_transform; auto. now apply transform_settings.
    + exists [], []. rewrite !app_nil_r. repeat split. apply con_off; auto.
  - unfold lens_compute in H. cbn [first_input] in H.
    assert (GI : gi TLens (nd_attrs n) "enable" = node_get_i32 n "enable").
    { unfold node_get_i32. rewrite T. reflexivity. }
    rewrite GI in H. destruct (Z.eqb_spec (node_get_i32 n "enable") 1) as [E1|E1].
    + destruct (x_lens_ok x _); [|discriminate]. injection H as _ <- <-.
      exists [], [DTde4 (lens_op (nd_attrs n))]. rewrite ?app_nil_r. repeat split.
      apply con_lens; auto. now apply lens_settings.
    + injection H as _ <- <-. exists [], []. rewrite !app_nil_r. repeat split. apply con_off; auto.
Qed.

Lemma compute_contributes : forall n fr mode s out (w : world D) n' st v w', adding (nd_type n) ->
  node_compute p x n fr mode [s] out w = Ok (n', st, v, w') ->
  exists ops defs, contributes n ops defs /\ same_picture v s /\
    st_ops v = st_ops s ++ ops /\ st_deformers v = st_deformers s ++ defs /\ w' = w.
Proof.
  intros n fr mode s out w n' st v w' AD H. apply node_compute_inv in H. destruct H as (h & _ & H & _).
  exact (op_contributes _ _ _ _ _ _ _ _ _ _ AD H).
Qed.

(** Every node keeps type and attributes, and the disk unless it writes. *)
Lemma disk_kept : forall n fr mode ins out (w : world D) n' st v w', nd_type n <> TWrite ->
  node_compute p x n fr mode ins out w = Ok (n', st, v, w') -> node_key n' = node_key n /\ w_disk w' = w_disk w.
Proof.
  intros n fr mode ins out w n' st v w' NW H. apply node_compute_inv in H. destruct H as (h & _ & H & ->).
  split; [reflexivity|].
  assert (CA : forall E u h (w : world D) (hit : E) make img e w', cached p u h w hit make = Ok (img, e, w') -> w_disk w' = w_disk w).
  { clear. intros E u h w hit make img e w' H. unfold cached in H. destruct u.
    - destruct (get (w_cache w) h) as (c, [r|]).
      + injection H as _ _ <-. reflexivity.
      + destruct make as [(i, e')|]; [|discriminate]. cbn [bind] in H.
        destruct (insert _ _ _ _ _); [|discriminate]. cbn [bind] in H. injection H as _ _ <-. reflexivity.
    - destruct make as [(i, e')|]; [|discriminate]. cbn [bind] in H. injection H as _ _ <-. reflexivity. }
  destruct (nd_type n); cbn [compute_op] in H; try congruence.
  - unfold null_compute in H. destruct ins; injection H as _ _ <-; reflexivity.
  - unfold read_compute in H. destruct (Z.land mode m_pixel =? 0); [injection H as _ _ <-; reflexivity|].
    destruct (gi TRead (nd_attrs n) "enable" =? 0); [injection H as _ _ <-; reflexivity|].
    destruct (expand_string _ _ _) as [path|]; [|discriminate]. cbn [bind] in H.
    destruct (x_kind x (w_disk w) path); [injection H as _ _ <-; reflexivity| |].
    + destruct (cached _ _ _ _ _ _) as [((img, e), w1)|] eqn:C; [|discriminate]. cbn [bind] in H.
      injection H as _ _ <-. exact (CA _ _ _ _ _ _ _ _ _ C).
    + destruct (gi TRead (nd_attrs n) "enable" =? 1); injection H as _ _ <-; reflexivity.
  - unfold grade_compute in H. destruct (first_input ins). destruct (negb _); injection H as _ _ <-; reflexivity.
  - unfold lens_compute in H. destruct (first_input ins).
    destruct (gi TLens (nd_attrs n) "enable" =? 1); [destruct (x_lens_ok x _); [|discriminate]|]; injection H as _ _ <-; reflexivity.
  - unfold transform_compute in H. destruct (first_input ins). injection H as _ _ <-; reflexivity.
  - unfold merge_compute in H. destruct (negb _); [injection H as _ _ <-; reflexivity|].
    destruct ins as [|sa rest]; [injection H as _ _ <-; reflexivity|].
    destruct (match rest with [] => _ | _ => _ end) as (sb, st').
    destruct (cached _ _ _ _ _ _) as [((img, e), w1)|] eqn:C; [|discriminate]. cbn [bind] in H.
    injection H as _ _ <-. exact (CA _ _ _ _ _ _ _ _ _ C).
  - unfold crop_compute in H. destruct ins as [|sa rest]; [injection H as _ _ <-; reflexivity|].
    destruct (negb (gi TCrop (nd_attrs n) "enable" =? 1)); [injection H as _ _ <-; reflexivity|].
    cbv zeta in H. destruct (cached _ _ _ _ _ _) as [((img, (e1, e2)), w1)|] eqn:C; [|discriminate]. cbn [bind] in H.
    injection H as _ _ <-. exact (CA _ _ _ _ _ _ _ _ _ C).
  - unfold viewer_compute in H. destruct (negb (gi TViewer (nd_attrs n) "enable" =? 1)); [injection H as _ _ <-; reflexivity|].
    destruct (first_input ins) as (s, _).
    destruct (bake_from (gi TViewer (nd_attrs n) "bake_option"));
      [injection H as _ _ <-; reflexivity| | | |]; cbv zeta in H;
      (destruct (cached _ _ _ _ _ _) as [((img, e), w1)|] eqn:C; [|discriminate]); cbn [bind] in H;
      injection H as _ _ <-; exact (CA _ _ _ _ _ _ _ _ _ C).
  - unfold resample_compute in H. destruct ins as [|s rest]; [injection H as _ _ <-; reflexivity|].
    destruct (negb (gi TResample (nd_attrs n) "enable" =? 1)); [injection H as _ _ <-; reflexivity|].
    destruct (match p with Debug => _ | Release => _ end); [discriminate|].
    destruct (gi TResample (nd_attrs n) "factor" =? 0); [injection H as _ _ <-; reflexivity|]. cbv zeta in H.
    destruct (cached _ _ _ _ _ _) as [((img, e), w1)|] eqn:C; [|discriminate]. cbn [bind] in H.
    injection H as _ _ <-. exact (CA _ _ _ _ _ _ _ _ _ C).
Qed.

Lemma node_keeps_key : forall nodes inputs start which,
  keeps_key (node_ops p x) node_key (fun _ => True) (fun _ => True) nodes inputs start which.
Proof.
  intros nodes inputs start which i m n _ _ _ fr mode ins out c n' st out' c' H _ _ _ _. split; [|auto].
  apply node_compute_inv in H. destruct H as (h & _ & _ & ->). reflexivity.
Qed.

(* ------------------------------ chains ------------------------------ *)

Section Chain.
Variable srt : edge_sort.
Hypothesis HS : sorts srt.

Lemma only_input_list : forall g a b l, only_input g a b -> inputs_in_slot_order g b l -> l = [a].
Proof.
  intros g a b l (NE & O) (ND & IN & _). destruct l as [|c l].
  - destruct (proj2 (IN a)). split; [now apply O|exact NE].
  - assert (c = a) by (apply O, IN; now left). subst c. destruct l as [|d l]; [reflexivity|].
    assert (d = a) by (apply O, IN; right; now left). subst d. inversion ND; subst. destruct H1. now left.
Qed.

Lemma made_chain : forall cinv sinv g nodes inputs fr start src l last m v c c',
  (forall n, inputs_in_slot_order g n (inputs n)) -> leads g src l last ->
  (forall i n, In i l -> nth_error nodes i = Some n -> adding (nd_type n)) ->
  made (node_ops p x) node_key cinv sinv nodes inputs fr start last m v c c' ->
  exists s ops defs m0 c0 c1,
    made (node_ops p x) node_key cinv sinv nodes inputs fr start src m0 s c0 c1 /\
    collects nodes l ops defs /\ same_picture v s /\
    st_ops v = st_ops s ++ ops /\ st_deformers v = st_deformers s ++ defs.
Proof.
  intros cinv sinv g nodes inputs fr start src l last m v c c' IO L. revert m v c c'.
  induction L as [|l a b L IH O]; intros m v c c' AD M.
  - exists v, [], [], m, c, c'. rewrite !app_nil_r. repeat split; [exact M|constructor].
  - inversion M as [i m' n vs out c0 n' st v' c0' AS LK MA FV CI SI CO OK]; subst.
    rewrite (only_input_list _ _ _ _ O (IO b)) in MA.
    inversion MA as [|i is mo va vs' ca ca' Ma Mn]; subst. inversion Mn; subst.
    destruct LK as (n0 & E0 & K0).
    assert (AN : adding (nd_type n)).
    { destruct (key_inj _ _ K0) as (-> & _). apply (AD b n0); [apply in_or_app; right; now left|exact E0]. }
    destruct (compute_contributes _ _ _ _ _ _ _ _ _ _ AN CO) as (ops1 & defs1 & C1 & P1 & O1 & D1 & _).
    destruct (IH mo va ca ca') as (s & ops & defs & m0 & c2 & c3 & Ms & Cs & Ps & Os & Ds).
    + intros i n1 Hi. apply AD. apply in_or_app. now left.
    + exact Ma.
    + exists s, (ops ++ ops1), (defs ++ defs1), m0, c2, c3. split; [exact Ms|]. split.
      { econstructor; [exact Cs|exact E0|]. eapply contributes_key; eauto. }
      split; [unfold same_picture in *; intuition congruence|].
      rewrite O1, Os, D1, Ds, !app_assoc. auto.
Qed.

Theorem chain_run : forall fuel (g : graph node stream) id start src l frames fr w g' w',
  wf_graph (node_ops p x) g -> find_index g id = Some start -> leads (g_graph g) src l start ->
  (forall i n, In i l -> nth_error (g_nodes g) i = Some n -> adding (nd_type n)) ->
  execute (node_ops p x) srt fuel g id (frames ++ [fr]) w = Some (Ok (g', w', ExSuccess)) ->
  exists inputs s ops defs m w0 w1,
    (forall n, inputs_in_slot_order (g_graph g) n (inputs n)) /\
    made (node_ops p x) node_key (fun _ => True) (fun _ => True) (g_nodes g) inputs fr start src m s w0 w1 /\
    collects (g_nodes g) l ops defs /\ same_picture (g_output g') s /\
    st_ops (g_output g') = st_ops s ++ ops /\ st_deformers (g_output g') = st_deformers s ++ defs.
Proof.
  intros fuel g id start src l frames fr w g' w' WF FI L AD H.
  destruct (execute_made (node_ops p x) srt node_key (fun _ => True) (fun _ => True) HS fuel g id start frames fr w g' w' WF I I FI) as
    (inputs & c1 & IO & M & _); [|exact H|].
  { intros. apply node_keeps_key. }
  destruct (made_chain _ _ _ _ _ _ _ _ _ _ _ _ _ _ IO L AD M) as (s & ops & defs & m & c2 & c3 & R).
  exists inputs, s, ops, defs, m, c2, c3. split; [exact IO|exact R].
Qed.

(** With a reading source. *)
Lemma leads_asks : forall g nodes inputs start src l i m,
  (forall n, inputs_in_slot_order g n (inputs n)) -> leads g src l start ->
  (forall m, link g m src -> m = src) ->
  (forall i n, In i l -> nth_error nodes i = Some n -> adding (nd_type n)) ->
  (forall n, nth_error nodes src = Some n -> nd_type n = TRead) ->
  asks (node_ops p x) node_key nodes inputs start i m -> (i = src \/ In i l) /\ m = mode_all.
Proof.
  intros g nodes inputs start src l i m IO L NI AD RD A.
  assert (ST : start = src \/ In start l).
  { inversion L; subst; [now left|]. right. apply in_or_app. right. now left. }
  assert (PR : forall b, In b l -> exists a, only_input g a b /\ (a = src \/ In a l)).
  { clear - L. induction L as [|l a b L IH O]; [intros b []|]. intros c Hc. apply in_app_iff in Hc. destruct Hc as [Hc|[<-|[]]].
    - destruct (IH c Hc) as (d & D1 & D2). exists d. split; [exact D1|]. rewrite in_app_iff. tauto.
    - exists a. split; [exact O|]. inversion L; subst; [now left|]. right. rewrite !in_app_iff. left. right. now left. }
  induction A as [|i mode n h ns modes j m A IH LK FN V Hj]; [auto|].
  destruct IH as (Hi & ->). destruct LK as (n0 & E0 & K0). destruct (key_inj _ _ K0) as (KT & KA).
  destruct Hi as [->|Hi].
  - exfalso. assert (inputs src = []) as E.
    { destruct (IO src) as (_ & IN & _). destruct (inputs src) as [|a t] eqn:E; [reflexivity|].
      destruct (proj1 (IN a) (or_introl eq_refl)) as (La & Na). apply NI in La. congruence. }
    rewrite E in Hj. destruct Hj.
  - destruct (PR i Hi) as (a & O & Ha). rewrite (only_input_list _ _ _ _ O (IO i)) in Hj, FN.
    inversion FN as [|? n1 ? ns' L1 FN']; subst. inversion FN'; subst. cbn [n_validate node_ops] in V. unfold node_validate in V.
    assert (AN : adding (nd_type n)) by (rewrite KT; eapply AD; eauto).
    assert (modes = [mode_all]) as ->.
    { destruct AN as [T|[T|[T|T]]]; rewrite T in V; cbn in V; injection V as <-; reflexivity. }
    destruct Hj as [Hj|[]]. injection Hj as <- <-. auto.
Qed.
End Chain.
End Nodes.

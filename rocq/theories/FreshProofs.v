(** Which nodes look at the previous output, and which at the files. *)
From Coq Require String.
Import String.StringSyntax.
From Coq Require Import Lia Floats.SpecFloat.
From Verif Require Import Machine Loops CacheModel FloatModel PixelModel PathModel HashModel EnumModel AttrModel AttrSpec AttrProofs StreamModel BakeModel
  GraphModel GraphSpec GraphSim GraphExec NodeModel NodeSpec NodeProofs ChainSpec ChainProofs RunSpec RunProofs ViewSpec ViewProofs SceneSpec SceneProofs SceneWrite
  FreshRun FreshSpec.
Local Open Scope string_scope.

Section Fresh.
Context {D : Type}.
Variable p : profile.
Variable x : externals D.
Variable srt : edge_sort.
Hypothesis HS : sorts srt.

Lemma output_unseen n fr mode is out out' (w : world D) :
  (nd_type n = TRead -> Z.land mode m_pixel <> 0) ->
  (nd_type n = TRead -> node_get_i32 n "enable" = 1 -> forall path,
     expand_string (x_expand x) (node_get_str n "file_path") (frame_number fr) = Ok path -> x_kind x (w_disk w) path <> OtherEntry) ->
  (nd_type n = TViewer -> node_get_i32 n "enable" = 1) ->
  node_compute p x n fr mode is out w = node_compute p x n fr mode is out' w.
Proof.
  intros MP NF VI. pose proof (gi_get n) as GI. unfold node_compute. destruct (cache_hash _ _ _ _ _ _ _) as [h|]; [|reflexivity]. cbn [bind].
  enough (Q : compute_op p x (nd_type n) (nd_attrs n) fr h mode is out w = compute_op p x (nd_type n) (nd_attrs n) fr h mode is out' w) by now rewrite Q.
  assert (ST : gs (nd_type n) (nd_attrs n) "file_path" = node_get_str n "file_path" \/ nd_type n <> TRead).
  { destruct (nd_type n) eqn:T; try (right; discriminate). left. unfold node_get_str. rewrite T. reflexivity. }
  destruct (nd_type n); try reflexivity; cbn [compute_op].
  - unfold read_compute. destruct (Z.eqb_spec (Z.land mode m_pixel) 0) as [E|E]; [now apply MP in E|].
    rewrite !GI by reflexivity. destruct (Z.eqb_spec (node_get_i32 n "enable") 0) as [E0|E0]; [reflexivity|].
    destruct ST as [ST|ST]; [|now elim ST]. rewrite ST.
    destruct (expand_string _ _ _) as [path|] eqn:EP; [|reflexivity]. cbn [bind].
    destruct (x_kind x (w_disk w) path) eqn:EK; try reflexivity.
    destruct (Z.eqb_spec (node_get_i32 n "enable") 1) as [E1|E1]; [|reflexivity]. now elim (NF eq_refl E1 path eq_refl).
  - unfold viewer_compute. rewrite !GI by reflexivity. now rewrite (VI eq_refl).
Qed.

Lemma same_twins (g h : graph node stream) : same_graph g h <-> twins node_key g h.
Proof.
  unfold same_graph, twins, keyed. split; intros (A & B); (split; [|exact B]); clear B.
  - induction A as [|n n' l l' (T & E) A IH]; cbn; [reflexivity|]. rewrite IH. unfold node_key. now rewrite T, E.
  - revert A. generalize (g_nodes h) as l'. induction (g_nodes g) as [|n l IH]; intros [|n' l'] A; try discriminate A; constructor.
    + cbn in A. injection A as T E _. auto.
    + apply IH. now injection A.
Qed.

Theorem execute_fresh fuel (g h : graph node stream) id start fr frames (w : world D) : wf_graph (node_ops p x) g -> same_graph g h ->
  find_index g id = Some start -> all_asked g start -> no_folders x (w_disk w) fr g start ->
  same_outcome (execute (node_ops p x) srt fuel g id (fr :: frames) w) (execute (node_ops p x) srt fuel h id (fr :: frames) w).
Proof.
  intros WF SG FI AA NF. apply same_twins in SG.
  enough (Q : same_run node_key (execute (node_ops p x) srt fuel g id (fr :: frames) w) (execute (node_ops p x) srt fuel h id (fr :: frames) w)).
  { destruct (execute _ _ _ g _ _ _) as [[[[g1 w1] e1]|]|], (execute _ _ _ h _ _ _) as [[[[h1 w2] e2]|]|]; cbn in Q |- *; try contradiction; auto.
    destruct Q as (T & Q). split; [now apply same_twins|exact Q]. }
  apply (execute_anew (node_ops p x) srt node_key HS) with (start := start); auto.
  - intros n n' K. destruct (key_inj _ _ K) as (KT & KA). cbn [node_ops n_hash]. unfold node_hash. now rewrite KT, KA.
  - intros n n' m hh ns ns' K KS. destruct (key_inj _ _ K) as (KT & KA). apply (f_equal (@length _)) in KS. rewrite !map_length in KS.
    cbn [node_ops n_validate]. unfold node_validate. now rewrite KT, KA, KS.
  - intros n n' f m is out c K. destruct (key_inj _ _ K) as (KT & KA). cbn [node_ops n_compute]. unfold node_compute. rewrite KT, KA.
    destruct (cache_hash _ _ _ _ _ _ _) as [hh|]; [|exact I]. cbn [bind]. destruct (compute_op _ _ _ _ _ _ _ _ _ _) as [[[st v] w1]|]; [|exact I]. cbn. auto.
  - intros n f m is out c n' s v c' H. apply node_compute_inv in H. destruct H as (hh & _ & _ & ->). reflexivity.
  - intros inputs i m n is IO A En. destruct (asked p x g start inputs i m AA IO (asks_recording p x g start inputs i m A)) as (MP & RE).
    apply output_unseen; auto.
    + intros T E path. exact (NF i n path RE En T E).
    + intro T. exact (proj1 (proj2 (AA i n (inputs i) RE En (IO i)) T)).
Qed.

(** Executing does not change nodes' types and settings, or the connections. *)
Lemma execute_same_graph fuel (g : graph node stream) id frames (w : world D) g' w' e :
  execute (node_ops p x) srt fuel g id frames w = Some (Ok (g', w', e)) -> same_graph g g'.
Proof.
  intro H. apply same_twins.
  assert (STEP : forall fr t g c sc g' c' e, compute_phase (node_ops p x) srt g fr t c sc = Ok (g', c', e) -> twins node_key g g').
  { intros fr t. induction t as [|[i m] t IH]; intros g0 c sc g1 c1 e1 E; cbn [compute_phase] in E.
    - injection E as <- _ _. now repeat split.
    - destruct (input_streams _ _ _ _) as [vs|]; [|discriminate]. cbn [bind] in E. unfold compute_node_output, get_node in E.
      destruct (nth_error (g_nodes g0) i) as [n|] eqn:En; [|discriminate]. cbn [bind] in E.
      destruct (n_compute _ _ _ _ _ _ _) as [[[[n1 s1] v1] c2]|] eqn:EC; [|discriminate]. cbn [bind] in E.
      apply node_compute_inv in EC. destruct EC as (hh & _ & _ & E1).
      assert (T : twins node_key g0 (with_output (with_nodes g0 (set_nth (g_nodes g0) i n1)) v1)).
      { repeat split. unfold keyed. symmetry. cbn. apply (map_set_nth node_key _ i n1 n En). now rewrite E1. }
      destruct s1; try (injection E as <- _ _; exact T); apply IH in E; destruct T as (A1 & A2 & A3), E as (B1 & B2 & B3);
        (split; [exact (eq_trans A1 B1)|split; congruence]). }
  assert (FR : forall order frames g c g' c' e, execute_frames (node_ops p x) srt fuel g order frames c = Some (Ok (g', c', e)) -> twins node_key g g').
  { intros order fs. induction fs as [|fr fs IH]; intros g0 c g1 c1 e1 E; cbn [execute_frames] in E.
    - injection E as <- _ _. now repeat split.
    - destruct (execute_frame _ _ _ _ _ _ _) as [[[[g2 c2] e2]|]|] eqn:EF; try discriminate E.
      assert (T : twins node_key g0 g2).
      { unfold execute_frame in EF. destruct (hash_phase _ _ _ _ _ _); [|discriminate]. destruct order; [discriminate|].
        destruct (validate_loop _ _ _ _ _ _ _) as [[v|]|]; try discriminate EF. injection EF as EF. exact (STEP _ _ _ _ _ _ _ _ EF). }
      destruct e2; [injection E as <- _ _; exact T|]. apply IH in E. destruct T as (A1 & A2 & A3), E as (B1 & B2 & B3).
      split; [exact (eq_trans A1 B1)|split; congruence]. }
  unfold execute in H. destruct (find_index g id); [|injection H as <- _ _; now repeat split].
  destruct (all_upstream _ _ _); [|discriminate]. destruct (execute_frames _ _ _ _ _ _ _) as [[[[g2 c2] [e2|]]|]|] eqn:EF; try discriminate H;
    injection H as <- _ _; apply FR in EF; exact EF.
Qed.

Theorem execute_again fuel (g : graph node stream) id start fr frames (w : world D) g' w' e : wf_graph (node_ops p x) g ->
  find_index g id = Some start -> all_asked g start -> no_folders x (w_disk w) fr g start ->
  execute (node_ops p x) srt fuel g id (fr :: frames) w = Some (Ok (g', w', e)) ->
  exists g'', execute (node_ops p x) srt fuel g' id (fr :: frames) w = Some (Ok (g'', w', e)) /\ g_output g'' = g_output g'.
Proof.
  intros WF FI AA NF H. pose proof (execute_fresh fuel g g' id start fr frames w WF (execute_same_graph _ _ _ _ _ _ _ _ H) FI AA NF) as Q.
  rewrite H in Q. destruct (execute _ _ _ g' _ _ _) as [[[[g2 w2] e2]|]|]; cbn in Q; try contradiction.
  destruct Q as (_ & O & <- & <-). exists g2. now rewrite O.
Qed.

(* ------------------------------ files ------------------------------ *)

Definition same_cache (w w' : world D) : Prop := w_cache w = w_cache w'.

Lemma cached_files {E A} u h (w w' : world D) hit make (f : shared -> E -> world D -> Res (A * world D)) : same_cache w w' ->
  (forall img e w w', same_cache w w' -> alike_results same_cache (f img e w) (f img e w')) ->
  alike_results same_cache (let* (img, e, w) := cached p u h w hit make in f img e w) (let* (img, e, w) := cached p u h w' hit make in f img e w).
Proof.
  intros S F. unfold cached. destruct u.
  - rewrite S. destruct (get (w_cache w') h) as [c [img|]].
    + cbn [bind]. now apply F.
    + destruct make as [[img e]|]; [|exact I]. cbn [bind]. destruct (insert _ _ _ _ _) as [c'|]; [|exact I]. cbn [bind]. now apply F.
  - destruct make as [[img e]|]; [|exact I]. cbn [bind]. now apply F.
Qed.

Lemma files_unseen n fr mode is out (w w' : world D) : same_cache w w' -> (nd_type n = TRead -> Z.land mode m_pixel = 0) ->
  alike_results same_cache (node_compute p x n fr mode is out w) (node_compute p x n fr mode is out w').
Proof.
  intros S MZ. unfold node_compute. destruct (cache_hash _ _ _ _ _ _ _) as [h|]; [|exact I]. cbn [bind].
  enough (Q : alike_results same_cache (compute_op p x (nd_type n) (nd_attrs n) fr h mode is out w) (compute_op p x (nd_type n) (nd_attrs n) fr h mode is out w')).
  { destruct (compute_op p x _ _ fr h mode is out w) as [[[st v] w1]|], (compute_op p x _ _ fr h mode is out w') as [[[st' v'] w1']|];
      cbn in Q |- *; try contradiction; auto. destruct Q as (Q & S1). injection Q as <- <-. auto. }
  assert (OK : forall a : node_status * stream, alike_results same_cache (Ok (a, w)) (Ok (a, w'))) by (intro a; cbn; auto).
  destruct (nd_type n) eqn:T; cbn [compute_op].
  - unfold null_compute. destruct is; apply OK.
  - unfold read_compute. rewrite (MZ eq_refl). apply OK.
  - unfold write_compute. destruct (_ =? 0); [apply OK|]. destruct is as [|s is]; [apply OK|]. destruct (_ =? 0); [apply OK|].
    unfold write_process, write_image. destruct (expand_string _ _ _) as [path|]; [|exact I]. cbn [bind].
    destruct (do_process _ _ _ _ _ _ _ _ _ _ _ _) as [r|]; [|exact I]. cbn [bind].
    destruct (match crop_from _ with CropDisable => _ | CropEnable => _ | CropAuto => _ | CropUninitialized => _ end) as [cr|]; [|exact I]. cbn [bind].
    destruct (if cr then _ else _) as [im|]; [|exact I]. cbn [bind].
    destruct (x_write x (w_disk w) _ _ _) as [d ok], (x_write x (w_disk w') _ _ _) as [d' ok']. cbn [bind]. split; [reflexivity|exact S].
  - unfold grade_compute. destruct (first_input is) as [s st]. destruct (negb _); apply OK.
  - unfold lens_compute. destruct (first_input is) as [s st]. destruct (_ =? 1); [|apply OK]. destruct (x_lens_ok _ _); [apply OK|exact I].
  - unfold transform_compute. destruct (first_input is) as [s st]. apply OK.
  - unfold merge_compute. destruct (negb _); [apply OK|]. destruct is as [|s is]; [apply OK|].
    destruct is as [|s2 is]; (apply cached_files; [exact S|]; intros img e v v' S'; destruct e; cbn; auto).
  - unfold crop_compute. destruct is as [|s is]; [apply OK|]. destruct (negb _); [apply OK|]. cbv zeta.
    apply cached_files; [exact S|]. intros img [s1 st] v v' S'. cbn. auto.
  - unfold viewer_compute. destruct (negb _); [apply OK|]. destruct (first_input is) as [s st].
    destruct (bake_from _); cbv zeta; try (apply cached_files; [exact S|]; intros img e v v' S'; cbn; auto). apply OK.
  - unfold resample_compute. destruct is as [|s is]; [apply OK|]. destruct (negb _); [apply OK|].
    destruct (match p with Debug => _ | Release => _ end); [exact I|]. destruct (_ =? 0); [apply OK|]. cbv zeta.
    apply cached_files; [exact S|]. intros img e v v' S'. cbn. auto.
Qed.

(** Nothing is asked for before a viewer that bakes everything. *)
Lemma nothing_asked (g : graph node stream) start inputs i m : bakes_everything g start -> (forall j, inputs_in_slot_order (g_graph g) j (inputs j)) ->
  asks (node_ops p x) node_key (g_nodes g) inputs start i m -> (i = start \/ m = 0) /\ reaches (g_graph g) i start.
Proof.
  intros ((n1 & N1 & T1 & B1) & BE) IO A. induction A as [|i mode n h ns modes j m A IH LK FN V Hj].
  { split; [now left|]. exists 0%nat. constructor. }
  destruct IH as (MP & RE). split.
  2: { destruct RE as (k & U). exists (S k). eapply up_step; [exact U|]. apply in_combine_l in Hj. destruct (IO i) as (_ & IN & _). now apply IN in Hj. }
  right. destruct LK as (n0 & E0 & K0). destruct (key_inj _ _ K0) as (KT & KA).
  cbn [n_validate node_ops] in V. unfold node_validate in V. rewrite KT, KA in V. apply in_combine_r in Hj.
  assert (NO : forall k, In m (nones k) -> m = 0) by (intros k Q; exact (repeat_spec _ _ _ Q)).
  assert (Z0 : forall k, mode = 0 -> Z.land mode k = 0) by (intros k ->; apply Z.land_0_l).
  assert (EN : nd_type n0 = TViewer -> (gi TViewer (nd_attrs n0) "enable" =? 0) = false).
  { intro T. apply Z.eqb_neq. pose proof (BE i n0 RE E0 T) as Q. unfold node_get_i32 in Q. rewrite T in Q. exact Q. }
  assert (Q : nd_type n0 = TViewer /\ viewer_bake (nd_attrs n0) = BakeAll \/ mode = 0).
  { destruct MP as [->|M]; [left|now right]. rewrite N1 in E0. injection E0 as <-. split; [exact T1|]. now apply told. }
  destruct Q as [(T & VB)|MZ].
  - rewrite T in V. cbn [validate_op] in V. unfold validate_viewer in V. rewrite (EN T), VB in V.
    destruct (length ns) as [|k]; cbn [bind] in V; injection V as <-; [destruct Hj|]. destruct Hj as [<-|Hj]; [|exact (NO _ Hj)].
    change (mode_all - m_color_space - m_color - m_deformer - m_pixel) with 0. apply Z.land_0_r.
  - destruct (nd_type n0) eqn:T; cbn [validate_op] in V;
      try (injection V as <-; destruct (length ns) as [|[|k]]; cbn [validate_first validate_merge] in Hj;
           [destruct Hj|destruct Hj as [<-|Hj]; [auto|destruct Hj; eauto]|destruct Hj as [<-|Hj]; [auto|]; destruct Hj as [<-|Hj]; eauto]; fail).
    unfold validate_viewer in V. destruct (length ns) as [|k]; [injection V as <-; destruct Hj|]. rewrite (EN eq_refl) in V.
    destruct (viewer_bake (nd_attrs n0)); cbn [bind] in V; try discriminate V; injection V as <-; (destruct Hj as [<-|Hj]; [auto|eauto]).
Qed.

Theorem execute_files fuel (g : graph node stream) id start frames c (d d' : D) : wf_graph (node_ops p x) g ->
  find_index g id = Some start -> bakes_everything g start ->
  same_but_files (execute (node_ops p x) srt fuel g id frames (World c d)) (execute (node_ops p x) srt fuel g id frames (World c d')).
Proof.
  intros WF FI BE. apply (execute_unseen (node_ops p x) srt node_key HS same_cache) with (start := start); auto; [reflexivity|].
  intros inputs IO fr i m n is out w w' A (n0 & E0 & K0) S. destruct (nothing_asked g start inputs i m BE IO A) as (MP & RE).
  split.
  - apply files_unseen; [exact S|]. intro T. destruct MP as [-> | ->]; [|reflexivity].
    destruct BE as ((n1 & N1 & T1 & _) & _). rewrite N1 in E0. injection E0 as <-. destruct (key_inj _ _ K0) as (KT & _). congruence.
  - intros n' st v w1 H. apply node_compute_inv in H. destruct H as (h & _ & _ & ->). reflexivity.
Qed.
End Fresh.

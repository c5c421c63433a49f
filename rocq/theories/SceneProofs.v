(** Executions show the composition the nodes of the graph describe. *)
From Coq Require String.
Import String.StringSyntax.
From Coq Require Import Floats.SpecFloat.
From Verif Require Import Machine Loops CacheModel FloatModel BBoxModel BBoxSpec PixelModel PixelSpec MergeModel MergeSpec EnumModel AttrModel AttrProofs HashModel HashSpec
  StreamModel BakeModel NodeModel NodeSpec NodeProofs ChainSpec ChainProofs GraphModel GraphSpec GraphHistory GraphSim LutSpec LutHistory RunSpec RenderProofs SafeSpec SafeProofs SafeFacts
  ShowSpec UncachedSpec UncachedProofs ShowProofs ViewSpec ViewProofs PartSpec PartProofs SoundSpec SoundProofs1 SoundProofs3 ShowCacheProofs SceneRun SceneSpec.
Local Open Scope string_scope.

Lemma like_refl s : looks_like s s.
Proof. unfold looks_like, ChainSpec.same_picture. tauto. Qed.

Section Node.
Context {D : Type}.
Variable p : profile.
Variable x : externals D.
Variable B : bbox.
Variable ok_disk : D -> Prop.
Hypothesis R : roomy B.
Hypothesis SX : sane x B ok_disk.

Lemma gi_get n name : attr_exists (arms_of (nd_type n)) name = true -> gi (nd_type n) (nd_attrs n) name = node_get_i32 n name.
Proof. intro A. unfold node_get_i32. rewrite A. reflexivity. Qed.

Lemma one_input t b fr h mode ins out (w : world D) st v w' : adding t ->
  compute_op p x t b fr h mode ins out w = Ok (st, v, w') ->
  exists st', compute_op p x t b fr h mode [first ins] out w = Ok (st', v, w').
Proof.
  intros AD H. assert (Q : fst (first_input ins) = first ins) by (destruct ins; reflexivity).
  destruct AD as [E|[E|[E|E]]]; rewrite E in *; clear E; cbn [compute_op] in *.
  - destruct ins as [|s rest]; injection H as _ <- <-; eexists; reflexivity.
  - unfold grade_compute in *. destruct (first_input ins) as [s q]. cbn [fst first_input] in *. subst s. cbv zeta in *.
    destruct (negb _); injection H as _ <- <-; eexists; reflexivity.
  - unfold transform_compute in *. destruct (first_input ins) as [s q]. cbn [fst first_input] in *. subst s. cbv zeta in *.
    injection H as _ <- <-; eexists; reflexivity.
  - unfold lens_compute in *. destruct (first_input ins) as [s q]. cbn [fst first_input] in *. subst s.
    destruct (gi TLens b "enable" =? 1); [destruct (x_lens_ok _ _); [|discriminate H]|]; injection H as _ <- <-; eexists; reflexivity.
Qed.

Lemma op_in_full n fr h mode s out (w : world D) st v w' ops defs : contributes n ops defs ->
  compute_op p x (nd_type n) (nd_attrs n) fr h mode [s] out w = Ok (st, v, w') ->
  st_ops v = (st_ops s ++ ops)%list -> st_deformers v = (st_deformers s ++ defs)%list -> in_full n ops defs.
Proof.
  intros C H O F. split; intros T u IN; rewrite T in H; cbn [compute_op] in H.
  - unfold grade_compute in H. cbn [first_input] in H. cbv zeta in H. destruct (negb _) eqn:W; injection H as _ <- _.
    + apply (f_equal (@length _)) in O. rewrite app_length in O. destruct ops; [destruct IN|cbn in O; lia].
    + cbn in O. apply app_inv_head in O. subst ops. destruct IN as [<-|[]].
      destruct n as [t id sn b]. cbn [nd_type nd_attrs] in *. subst t.
      assert (EN : gi TGrade b "enable" = 1) by (destruct (Z.eqb_spec (gi TGrade b "enable") 1); [assumption|discriminate W]).
      unfold grade_op, settings. f_equal. cbn [app map copy_attrs]. f_equal. f_equal. symmetry; exact EN.
  - unfold transform_compute in H. cbn [first_input] in H. cbv zeta in H. injection H as _ <- _.
    destruct (Z.eqb_spec (gi TTransform (nd_attrs n) "enable") 1) as [EN|EN].
    + cbn in F. apply app_inv_head in F. subst defs. destruct IN as [[= <-]|[]].
      destruct n as [t id sn b]. cbn [nd_type nd_attrs] in *. subst t.
      unfold transform_op, settings. f_equal. cbn [app map copy_attrs]. f_equal. f_equal. symmetry; exact EN.
    + cbn in F. apply (f_equal (@length _)) in F. rewrite app_length in F. destruct defs; [destruct IN|cbn in F; lia].
Qed.

Lemma unknown_merge n fr mode ins out (w : world D) n' st v w' : nd_type n = TMerge -> node_get_i32 n "enable" = 1 ->
  ins <> [] -> uncached w -> (forall m, ~ selects (node_get_i32 n "mode") m) ->
  node_compute p x n fr mode ins out w = Ok (n', st, v, w') ->
  ShowSpec.nothing_pending v /\ picture v = one_pixel /\ st_spec v = spec_new.
Proof.
  intros T EN NE UC US H. apply node_compute_inv in H. destruct H as (h & _ & H & _).
  pose proof (gi_get n) as GI. rewrite T in H, GI. cbn [compute_op] in H. unfold merge_compute in H.
  rewrite !GI, EN in H by reflexivity. change (negb (1 =? 1)) with false in H. cbv iota in H.
  destruct ins as [|sa rest]; [congruence|]. destruct (match rest with [] => _ | _ => _ end) as [sb st0].
  destruct (cached p _ h w tt _) as [[[img u] w1]|] eqn:EC in H; [|discriminate H].
  apply (made_anew p) in EC; [|right; exact UC]. cbn [bind] in H. cbn [fst] in EC.
  assert (M : merge_mode_of (node_get_i32 n "mode") = MUninitialized).
  { unfold selects in US. clear - US. generalize dependent (node_get_i32 n "mode"). intros k US.
    assert (k <> 0 /\ k <> 1 /\ k <> 2) as (K0 & K1 & K2).
    { repeat split; intros ->; [apply (US MAdd)|apply (US MOver)|apply (US MMultiply)]; auto 6. }
    unfold merge_mode_of, merge_from. destruct k as [|q|q]; [lia| |reflexivity]. destruct q as [q|[q|q|]|]; try reflexivity; lia. }
  rewrite M in EC. unfold merge_process in EC. apply bind_ok in EC. destruct EC as (ra & _ & EC).
  apply bind_ok in EC. destruct EC as (rb & _ & EC). cbn [merge bind] in EC. injection EC as <- _.
  injection H as _ <- _. repeat split.
Qed.

Lemma viewer_does n o ty fr mode ins out (w : world D) n' st v w' : nd_type n = TViewer -> node_get_i32 n "enable" = 1 ->
  told_to_bake (nd_attrs n) o -> o <> BakeNothing -> node_get_i32 n "crop_to_format" = 0 -> viewer_type (nd_attrs n) ty -> uncached w ->
  node_compute p x n fr mode ins out w = Ok (n', st, v, w') ->
  exists r, do_process p (x_numerics x) (x_convert x) o (st_block (first ins)) (st_display (first ins)) (st_data (first ins))
      (st_spec (first ins)) (first ins) (sp_color_space (st_spec (first ins))) (node_get_str n "bake_color_space") ty = Ok r /\
    looks_like v (viewed (first ins) 0 r).
Proof.
  intros T EN TB NB CF Y UC H. apply node_compute_inv in H. destruct H as (h & _ & H & _).
  pose proof (gi_get n) as GI. assert (GS : gs TViewer (nd_attrs n) "bake_color_space" = node_get_str n "bake_color_space")
    by (unfold node_get_str; rewrite T; reflexivity).
  rewrite T in H, GI. cbn [compute_op] in H. unfold viewer_compute in H.
  apply told in TB. apply typed in Y. rewrite TB, Y, GS in H. rewrite !GI, EN, CF in H by reflexivity.
  change (negb (1 =? 1)) with false in H. change (negb (0 =? 0)) with false in H. cbv iota in H.
  assert (BO : bake_from (node_get_i32 n "bake_option") = o).
  { unfold viewer_bake in TB. rewrite !GI, CF in TB by reflexivity. cbn [Z.eqb negb] in TB. destruct (bake_from _); exact TB. }
  rewrite BO in H. assert (Q : first_input ins = (first ins, snd (first_input ins))) by (destruct ins; reflexivity).
  rewrite Q in H. set (s := first ins) in *. clearbody s. clear Q.
  assert (H' : (let* (img, s0, w0) := cached p (negb (node_get_i32 n "use_cache" =? 0)) h w s
      (viewer_process p x s o ty false (node_get_str n "bake_color_space")) in
      Ok (NsValid, set_image_spec (set_pixel_block (set_hash (set_display_window
            (set_data_window (match o with BakeAll => clear_deformers s0 | _ => s0 end) (sh_data img)) (sh_display img)) h) (sh_block img)) (sh_spec img), w0))
     = Ok (st, v, w')) by (destruct o; try contradiction; exact H).
  clear H. apply bind_ok in H'. destruct H' as ([[img s0] w0] & EC & H). apply (made_anew p) in EC; [|right; exact UC].
  cbn [fst] in EC. unfold viewer_process in EC. apply bind_ok in EC. destruct EC as (r & E & EC). injection EC as <- <-.
  injection H as _ <- _. exists r. split; [exact E|].
  destruct (left_over _ _ _ _ _ _ _ _ _ _ _ _ _ E) as (LO & _).
  unfold looks_like, ChainSpec.same_picture, viewed.
  destruct o; try contradiction; try (cbn; tauto). 
  cbn. cbn in LO. rewrite LO. cbn. tauto.
Qed.

(** One node. *)
Lemma node_does n fr mode ins out (w : world D) n' st v w' : careful p B n (length ins) -> Forall (fine_stream B) ins -> uncached w ->
  Z.land mode m_pixel <> 0 ->
  (nd_type n = TViewer -> node_get_i32 n "enable" = 1 /\
       exists o, In o [BakeNothing; BakeColorSpace; BakeColorSpaceAndGrade] /\ told_to_bake (nd_attrs n) o) ->
  node_compute p x n fr mode ins out w = Ok (n', st, v, w') -> st = NsValid \/ st = NsWarning ->
  does p x (w_disk w) fr n ins v.
Proof.
  intros CA FI UC MP VI H ST. pose proof (gi_get n) as GI.
  assert (ADD : adding (nd_type n) -> does p x (w_disk w) fr n ins v).
  { intro AD. apply node_compute_inv in H. destruct H as (h & _ & H & _).
    destruct (one_input _ _ _ _ _ _ _ _ _ _ _ AD H) as (st' & H').
    destruct (op_contributes p x _ _ _ _ _ _ _ _ _ _ AD H') as (ops & defs & C & P & O & F & _).
    exact (does_add _ _ _ _ _ _ _ _ _ C (op_in_full _ _ _ _ _ _ _ _ _ _ _ _ C H' O F) P O F). }
  destruct (nd_type n) eqn:T; try (apply ADD; unfold adding; tauto).
  - (* Read *) destruct (Z.eq_dec (node_get_i32 n "enable") 0) as [E|E].
    + apply does_read_off; auto. apply node_compute_inv in H. destruct H as (h & _ & H & _). rewrite T in H. cbn [compute_op] in H.
      unfold read_compute in H. apply Z.eqb_neq in MP. rewrite MP, GI, E in H by reflexivity. injection H as _ <- _. apply like_refl.
    + apply does_read; auto. exact (read_source_asked p x _ _ _ _ _ _ _ _ _ _ T MP E (or_intror UC) H).
  - (* Write *) apply node_compute_inv in H. destruct H as (h & _ & H & _). rewrite T in H. cbn [compute_op] in H.
    unfold write_compute in H. rewrite !GI in H by reflexivity.
    destruct (Z.eqb_spec (node_get_i32 n "enable") 0) as [E|E].
    + apply does_write_off; auto. injection H as _ <- _. apply like_refl.
    + apply does_write; auto. destruct ins as [|s rest]; [injection H as _ <- _; apply like_refl|].
      destruct (node_get_i32 n "execute" =? 0); [injection H as _ <- _; apply like_refl|].
      apply bind_ok in H. destruct H as ([d ok] & _ & H). injection H as _ <- _. apply like_refl.
  - (* Merge *) destruct (Z.eq_dec (node_get_i32 n "enable") 1) as [E|E].
    2: { apply does_merge_off; auto. apply node_compute_inv in H. destruct H as (h & _ & H & _). rewrite T in H. cbn [compute_op] in H.
         unfold merge_compute in H. apply Z.eqb_neq in E. rewrite GI, E in H by reflexivity. injection H as _ <- _. apply like_refl. }
    destruct ins as [|sa rest].
    { apply does_merge_off; auto. apply node_compute_inv in H. destruct H as (h & _ & H & _). rewrite T in H. cbn [compute_op] in H.
      unfold merge_compute in H. destruct (negb _); injection H as _ <- _; apply like_refl. }
    assert (K : (exists m, selects (node_get_i32 n "mode") m) \/ forall m, ~ selects (node_get_i32 n "mode") m).
    { unfold selects. set (k := node_get_i32 n "mode"). clearbody k. assert (k = 0 \/ k = 1 \/ k = 2 \/ (k <> 0 /\ k <> 1 /\ k <> 2)) as [->|[->|[->|K]]] by lia.
      - left. exists MAdd. auto.
      - left. exists MOver. auto.
      - left. exists MMultiply. auto.
      - right. intros m M. lia. }
    destruct K as [(m & K)|K].
    + inversion FI as [|? ? FA FR]; subst. assert (FB : fine_stream B (hd stream_new rest)).
      { destruct rest; [exact (fine_new B R)|now inversion FR]. }
      destruct (merge_shows p x B ok_disk R SX n fr mode (sa :: rest) sa (hd stream_new rest) rest out w n' st v w' m T E (or_intror UC) K
        eq_refl eq_refl FA FB H) as (A & C & FA' & FC & NP & M & SP).
      assert (Q : second (sa :: rest) = hd stream_new rest) by (destruct rest; reflexivity).
      apply (does_merge _ _ _ _ _ _ _ m A C); auto; try discriminate; now rewrite Q.
    + destruct (unknown_merge n fr mode (sa :: rest) out w n' st v w' T E) as (A1 & A2 & A3); auto; try discriminate.
      apply does_merge_unknown; auto; try discriminate.
  - (* Crop *) destruct ins as [|s rest].
    { apply does_crop_off; auto. apply node_compute_inv in H. destruct H as (h & _ & H & _). rewrite T in H. cbn [compute_op crop_compute] in H.
      injection H as _ <- _. apply like_refl. }
    destruct (Z.eq_dec (node_get_i32 n "enable") 1) as [E|E].
    2: { apply does_crop_off; auto. apply node_compute_inv in H. destruct H as (h & _ & H & _). rewrite T in H. cbn [compute_op] in H.
         unfold crop_compute in H. apply Z.eqb_neq in E. rewrite GI, E in H by reflexivity. injection H as _ <- _. apply like_refl. }
    inversion FI as [|? ? FA FR]; subst.
    destruct (crop_shows p x B ok_disk R SX n fr mode s rest out w n' st v w' T E (or_intror UC) CA FA H) as (A & FA' & NP & CU & DI & SP).
    apply (does_crop _ _ _ _ _ _ _ A); auto; try discriminate.
  - (* Viewer *) destruct (VI eq_refl) as (E & o & IO & TB).
    assert (ND : o = BakeNothing \/ o <> BakeNothing) by (destruct o; auto; right; discriminate). destruct ND as [->|ND].
    + apply does_view; auto. apply node_compute_inv in H. destruct H as (h & _ & H & _). rewrite T in H. cbn [compute_op] in H.
      unfold viewer_compute in H. rewrite !GI, E in H by reflexivity. change (negb (1 =? 1)) with false in H. cbv iota in H.
      cbn [told_to_bake] in TB. change (node_get_i32 (Node TViewer 0 0 (nd_attrs n)) "bake_option") with (gi TViewer (nd_attrs n) "bake_option") in TB.
      rewrite GI in TB by reflexivity. rewrite TB in H. cbn [bake_from] in H.
      destruct ins; cbn [first_input] in H; injection H as _ <- _; apply like_refl.
    + assert (CF : node_get_i32 n "crop_to_format" = 0).
      { rewrite <- GI by reflexivity. change (gi TViewer (nd_attrs n) "crop_to_format") with (node_get_i32 (Node TViewer 0 0 (nd_attrs n)) "crop_to_format").
        destruct IO as [<-|[<-|[<-|[]]]]; [congruence|apply TB|apply TB]. }
      assert (Y : exists ty, viewer_type (nd_attrs n) ty) by (eexists; apply typed; reflexivity). destruct Y as (ty & Y).
      destruct (viewer_does n o ty fr mode ins out w n' st v w') as (r & E1 & E2); auto.
      exact (does_bake _ _ _ _ _ _ _ o ty r T E TB ND CF Y E1 E2).
  - (* Resample *) apply node_compute_inv in H. destruct H as (h & _ & H & _). rewrite T in H. cbn [compute_op] in H.
    unfold resample_compute in H. destruct ins as [|s rest]; [apply does_resample_off; auto; injection H as _ <- _; apply like_refl|].
    rewrite !GI in H by reflexivity.
    destruct (Z.eqb_spec (node_get_i32 n "enable") 1) as [E|E]; cbn [negb] in H;
      [|apply does_resample_off; auto; injection H as _ <- _; apply like_refl].
    destruct (match p with Debug => _ | Release => _ end); [discriminate H|].
    destruct (Z.eqb_spec (node_get_i32 n "factor") 0) as [F|F]; [apply does_resample_off; auto; injection H as _ <- _; apply like_refl|].
    cbv zeta in H. apply bind_ok in H. destruct H as ([[img st1] w1] & EC & H). apply (made_anew p) in EC; [|right; exact UC]. cbn [fst] in EC.
    injection H as -> <- _.
    destruct (x_resample x (Shared (st_block s) (st_display s) (st_data s) (st_spec s)) empty_image (node_get_i32 n "factor")
         (negb (node_get_i32 n "interpolate" =? 0))) as [ok im] eqn:ER.
    injection EC as <- <-. destruct ok; [|destruct ST; discriminate].
    apply (does_resample _ _ _ _ _ _ _ im); auto; try discriminate. unfold looks_like, ChainSpec.same_picture. cbn. tauto.
Qed.
End Node.

(* ------------------------------ graphs ------------------------------ *)

Section Asked.
Context {D : Type}.
Variable p : profile.
Variable x : externals D.
Notation ops := (recording (node_ops p x)).

Lemma asked (g : graph node stream) start inputs i m : all_asked g start -> (forall j, inputs_in_slot_order (g_graph g) j (inputs j)) ->
  asks ops node_key (g_nodes g) inputs start i m -> Z.land m m_pixel <> 0 /\ reaches (g_graph g) i start.
Proof.
  intros AA IO A. induction A as [|i mode n h ns modes j m A IH LK FN V Hj].
  { split; [discriminate|]. exists 0%nat. constructor. }
  destruct IH as (MP & RE). split.
  2: { destruct RE as (k & U). exists (S k). eapply up_step; [exact U|]. apply in_combine_l in Hj. destruct (IO i) as (_ & IN & _). now apply IN in Hj. }
  destruct LK as (n0 & E0 & K0). destruct (key_inj _ _ K0) as (KT & KA). destruct (key_get _ _ K0) as (GI & _).
  destruct (AA i n0 (inputs i) RE E0 (IO i)) as (LE & VI).
  assert (LN : length ns = length (inputs i)) by (clear - FN; induction FN; cbn; congruence).
  cbn [recording n_validate node_ops] in V. unfold node_validate in V. rewrite LN, KT, KA in V. clear LN FN.
  assert (AND : forall k, Z.land k m_pixel = m_pixel -> Z.land (Z.land mode k) m_pixel <> 0) by (intros k Q; now rewrite <- Z.land_assoc, Q).
  destruct (inputs i) as [|a [|b [|c l]]]; [destruct Hj| | |destruct (nd_type n0); cbn [length uses] in LE; lia].
  - assert (Q : exists k, modes = [Z.land mode k] /\ Z.land k m_pixel = m_pixel).
    { destruct (nd_type n0) eqn:T; cbn [length validate_op validate_first validate_merge validate_viewer nones repeat] in V;
        try (injection V as <-; exists mode_all; split; reflexivity).
      destruct (VI eq_refl) as (EN & o & IO' & TB). apply told in TB.
      assert (Q : gi TViewer (nd_attrs n0) "enable" = 1) by (rewrite <- EN; unfold node_get_i32; rewrite T; reflexivity).
      rewrite Q in V. cbn [Z.eqb] in V. rewrite TB in V.
      destruct IO' as [<-|[<-|[<-|[]]]]; cbn [bind] in V; injection V as <-; eexists; split; reflexivity. }
    destruct Q as (k & -> & Q). destruct Hj as [Hj|[]]. injection Hj as _ <-. exact (AND k Q).
  - destruct (nd_type n0) eqn:T; cbn [length uses] in LE; try lia. cbn [length validate_op validate_merge nones repeat] in V. injection V as <-.
    destruct Hj as [Hj|[Hj|[]]]; injection Hj as _ <-; apply AND; reflexivity.
Qed.

Lemma does_key d fr n n0 vs v : node_key n = node_key n0 -> does p x d fr n vs v -> does p x d fr n0 vs v.
Proof.
  intros K H. destruct n as [t id st b], n0 as [t0 id0 st0 b0]. unfold node_key in K. cbn [nd_type nd_attrs] in K. injection K as <- <-.
  assert (SS : forall ops defs, contributes (Node t id st b) ops defs -> contributes (Node t id0 st0 b) ops defs).
  { intros o f C. apply (contributes_key _ _ _ _) with (2 := C). reflexivity. }
  destruct H; [eapply does_read|eapply does_read_off|eapply does_add|eapply does_write|eapply does_write_off|eapply does_merge|eapply does_merge_unknown|
    eapply does_merge_off|eapply does_crop|eapply does_crop_off|eapply does_resample|eapply does_resample_off|eapply does_view|eapply does_bake]; eauto.
Qed.

End Asked.

Section Graph.
Context {D : Type}.
Variable p : profile.
Variable x : externals D.
Variable E : setting D.
Hypothesis CP : clean_paths (x_expand x).
Hypothesis NC : no_collisions (x_digest x) (SoundSpec.used E).
Hypothesis DU : digest_u64 (x_digest x).
Hypothesis NZ : forall l, In l (SoundSpec.used E) -> x_digest x l <> 0.
Hypothesis KS : keeps_sources x E.
Variable B : bbox.
Variable ok_disk : D -> Prop.
Hypothesis R : roomy B.
Hypothesis SX : sane x B ok_disk.
Variable srt : edge_sort.
Hypothesis HS : sorts srt.
Notation ops := (recording (node_ops p x)).

(** Reading where the sources are the same. *)
Lemma does_disk d d' fr n vs v : expressible x E (nd_type n) (nd_attrs n) fr -> disk_ok x E d -> disk_ok x E d' ->
  does p x d fr n vs v -> does p x d' fr n vs v.
Proof.
  intros X OD OD' H. destruct H as [T EN SO| | | | | | | | | | | | | ];
    [|eapply does_read_off|eapply does_add|eapply does_write|eapply does_write_off|eapply does_merge|eapply does_merge_unknown|
    eapply does_merge_off|eapply does_crop|eapply does_crop_off|eapply does_resample|eapply does_resample_off|eapply does_view|eapply does_bake]; eauto.
  apply does_read; auto. destruct SO as (path & P & SO). exists path. split; [exact P|].
  rewrite T in X. cbn [expressible] in X.
  assert (QE : b_i32 (nd_attrs n) "enable" = node_get_i32 n "enable") by (unfold node_get_i32; rewrite T; reflexivity).
  assert (QP : b_str (nd_attrs n) "file_path" = node_get_str n "file_path") by (unfold node_get_str; rewrite T; reflexivity).
  destruct X as [X|(_ & X)]; [congruence|]. unfold node_path in X. rewrite QP in X. specialize (X path P).
  destruct (OD path X) as (K1 & R1). destruct (OD' path X) as (K2 & R2). rewrite K2, <- K1, R2, <- R1. exact SO.
Qed.

(** Whatever every node's doing its part keeps true. *)
Definition viewer_asks (n : node) : Prop := nd_type n = TViewer -> node_get_i32 n "enable" = 1 /\
  exists o, In o [BakeNothing; BakeColorSpace; BakeColorSpaceAndGrade] /\ told_to_bake (nd_attrs n) o.
Definition step_by_step (d : D) (g : graph node stream) (V : spec_float -> nat -> stream -> Prop) : Prop :=
  forall fr j n l is v, nth_error (g_nodes g) j = Some n -> inputs_in_slot_order (g_graph g) j l ->
    Forall2 (V fr) l is -> Forall (fine_stream B) is -> viewer_asks n -> does p x d fr n is v -> V fr j v.

Theorem step_session V G w i fuel id start frames fr g' w' log : step_by_step (w_disk w) (G i) V ->
  session p x E srt G w -> ok_disk (w_disk w) -> careful_graph p B (G i) -> fine_stream B (g_output (G i)) ->
  find_index (G i) id = Some start -> all_asked (G i) start ->
  execute ops srt fuel (G i) id (frames ++ [fr])%list (w, []) = Some (Ok (g', (w', log), ExSuccess)) ->
  Forall (tame p x E) log ->
  V fr start (g_output g').
Proof.
  intros VS S OD CG FO FI AA H TM. destruct (session_ok p x E CP NC DU NZ KS srt G w S) as (WO & MO).
  set (g := G i) in *. set (d := w_disk w) in *.
  pose (CC := fun c : world D * list (node * spec_float * list stream) => world_ok p x E (fst c) /\ ok_disk (w_disk (fst c))).
  pose (GG := fun c : world D * list (node * spec_float * list stream) => Forall (tame p x E) (snd c)).
  pose (SS := fun s : stream => SoundProofs3.made p x E s /\ fine_stream B s).
  pose (VV := fun fr j s => V fr j s /\ SS s).
  assert (BK : forall n fr m is out c n' st v c', n_compute ops n fr m is out c = Ok (n', st, v, c') -> GG c' -> GG c).
  { intros n fr0 m is out c n' st v c' HC GC. exact (sim_back _ _ _ _ _ (sound_simulates p x E CP NC DU NZ KS) _ _ _ _ _ _ _ _ _ _ HC GC). }
  assert (WF : wf_graph ops g).
  { destruct (session_wf p x E srt G w S i) as [A B0 L]. split; [exact A|exact B0|exact L]. }
  destruct (execute_shows ops srt node_key HS CC GG SS VV BK fuel g id start frames fr (w, []) g' (w', log) WF) as (_ & _ & _ & VE); auto.
  - split; [exact WO|exact OD].
  - split; [apply MO|exact FO].
  - intros inputs IO fr0 j m n is out c n' st v c' A LK HC GC (WC & DC) (MS & FS) FV.
    unfold recording in HC. cbn [n_compute] in HC. apply bind_ok in HC. destruct HC as ([[[n1 s1] o1] c1] & HC & K). injection K as <- <- <- <-.
    cbn [fst snd] in *. unfold GG in GC. cbn [snd] in GC. apply Forall_app in GC. destruct GC as (_ & GC). inversion GC as [|? ? T _]; subst.
    assert (MI : Forall (SoundProofs3.made p x E) is) by (clear - FV; induction FV as [|? ? ? ? (_ & M & _)]; constructor; auto).
    assert (FN : Forall (fine_stream B) is) by (clear - FV; induction FV as [|? ? ? ? (_ & _ & M)]; constructor; auto).
    assert (SC : Forall2 (V fr0) (inputs j) is) by (clear - FV; induction FV as [|? ? ? ? (M & _)]; constructor; auto).
    assert (LI : length is = length (inputs j)) by (clear - FV; induction FV; cbn; congruence).
    destruct LK as (n0 & E0 & K0). destruct (key_inj _ _ K0) as (KT & KA).
    assert (CN : careful p B n (length is)) by (rewrite LI; apply (careful_key p B n0); auto; exact (CG j n0 _ E0 (IO j))).
    pose proof HC as HN. cbn [node_ops n_compute] in HC. unfold node_compute in HC. apply bind_ok in HC. destruct HC as (h & EH & HC).
    pose proof EH as EH'. unfold cache_hash in EH. apply bind_ok in EH. destruct EH as (l & BL & EH). injection EH as <-.
    apply bind_ok in HC. destruct HC as ([[st1 s2] w1] & HC & K). injection K as <- <- <- <-.
    assert (CO : cold (fst c) (no_cache (w_disk (fst c)))) by (unfold cold, no_cache; auto).
    destruct (compute_step p x E CP NC DU NZ KS n fr0 m is out l (fst c) st1 s2 w1 (no_cache (w_disk (fst c))) T BL HC WC MI MS CO)
      as (w0' & H0 & WC' & M' & (_ & _ & D')).
    destruct (compute_fine p x B ok_disk R SX n fr0 m is out (no_cache (w_disk (fst c))) CN FN FS
       (proj1 (held_none p B ok_disk R _ DC)) (x_digest x l)) as (st2 & s3 & w2 & H2 & F2 & (_ & D2)).
    rewrite H0 in H2. injection H2 as <- <- <-.
    split; [reflexivity|]. split; [split; [exact WC'|change (ok_disk (w_disk w1)); rewrite <- D'; exact D2]|]. split; [split; [exact M'|exact F2]|].
    intro ST. split; [|split; [exact M'|exact F2]].
    destruct (asked p x g start inputs j m AA IO A) as (MP & RE).
    assert (VA : viewer_asks n0) by exact (proj2 (AA j n0 (inputs j) RE E0 (IO j))).
    apply (VS fr0 j n0 (inputs j) is s2 E0 (IO j) SC FN VA).
    apply (does_key p x d fr0 n n0 is s2 K0).
    apply (does_disk (w_disk (fst c)) d fr0 n is s2); [apply T|apply WC|exact (proj2 WO)|].
    assert (VI : nd_type n = TViewer -> node_get_i32 n "enable" = 1 /\
       exists o, In o [BakeNothing; BakeColorSpace; BakeColorSpaceAndGrade] /\ told_to_bake (nd_attrs n) o).
    { destruct (key_get _ _ K0) as (GI & _). rewrite KT, KA, GI. exact (proj2 (AA j n0 (inputs j) RE E0 (IO j))). }
    refine (node_does p x B ok_disk R SX n fr0 m is out (no_cache (w_disk (fst c))) (Node (nd_type n) (nd_id n) (status_code st1) (nd_attrs n)) st1 s2 w0' CN FN _ MP VI _ ST).
    + split; reflexivity.
    + unfold node_compute. rewrite EH'. cbn [bind]. rewrite H0. reflexivity.
  - apply VE.
Qed.

Theorem scene_session G w i fuel id start frames fr g' w' log :
  session p x E srt G w -> ok_disk (w_disk w) -> careful_graph p B (G i) -> fine_stream B (g_output (G i)) ->
  find_index (G i) id = Some start -> all_asked (G i) start ->
  execute ops srt fuel (G i) id (frames ++ [fr])%list (w, []) = Some (Ok (g', (w', log), ExSuccess)) ->
  Forall (tame p x E) log ->
  scene p x (w_disk w) fr (G i) start (g_output g').
Proof.
  apply (step_session (fun fr => scene p x (w_disk w) fr (G i))).
  intros fr0 j n l is v EN IO SC _ _ DO. exact (scene_node p x (w_disk w) fr0 (G i) j n l is v EN IO SC DO).
Qed.
End Graph.

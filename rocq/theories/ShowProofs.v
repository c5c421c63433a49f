(** Proofs of what merge and crop nodes show. *)
From Coq Require String.
Import String.StringSyntax.
From Coq Require Import Floats.SpecFloat.
From Verif Require Import Machine Loops CacheModel FloatModel BBoxModel BBoxSpec BBoxProofs PixelModel PixelSpec PixelProofs PixelProofs2 MergeModel MergeSpec MergeProofs
  EnumModel AttrModel HashModel StreamModel DeformModel BakeModel BakeProofs GraphModel GraphSpec GraphHistory NodeModel NodeProofs ChainSpec ChainProofs
  RunSpec RunProofs SafeSpec SafeProofs SafeFacts ShowSpec UncachedSpec UncachedProofs.
Local Open Scope string_scope.

Section Show.
Context {D : Type}.
Variable p : profile.
Variable x : externals D.
Variable B : bbox.
Variable ok_disk : D -> Prop.
Hypothesis R : roomy B.
Hypothesis SX : sane x B ok_disk.
Notation fine_world := (fine_world p B ok_disk).

(** Flattening a fine stream. *)
Lemma flatten_fine s : fine_stream B s ->
  exists r, do_process p (x_numerics x) (x_convert x) BakeAll (st_block s) (st_display s) (st_data s) (st_spec s) s
              (sp_color_space (st_spec s)) linear_name Float32 = Ok r /\
    flattened p x s (Image (bk_block r) (st_display s) (st_data s)) /\ bk_data r = st_data s /\
    float_image (Image (bk_block r) (st_display s) (st_data s)) /\
    bk_stream r = Stream (st_state s) (st_hash s) (st_display s) (st_data s) identity4 (st_spec s) (st_block s) [] [] /\
    fine_block B (bk_block r) (st_data s).
Proof.
  intros (F & W & DF).
  destruct (bake_ok p (x_numerics x) (x_convert x) (sane_convert _ _ _ SX) B BakeAll (st_block s) (st_display s) (st_data s) (st_spec s) s
              (sp_color_space (st_spec s)) linear_name Float32 R) as (r & E & G & ED & _ & T); [discriminate|exact F|exact DF|].
  exists r. split; [exact E|]. split; [exists r; split; [exact E|now rewrite ED]|]. split; [exact ED|].
  split; [|split; [exact (bake_consumes _ _ _ _ _ _ _ _ _ _ _ _ E)|exact G]].
  destruct G as (G1 & G2 & G3 & _). split; [exact G1|]. split; [exact G2|]. split; [|exact G3].
  apply T; [reflexivity|discriminate].
Qed.

Notation bare := (@uncached D).

Lemma merge_shows n fr mode ins sa sb rest out (w : world D) n' st v w' m :
  nd_type n = TMerge -> node_get_i32 n "enable" = 1 -> node_get_i32 n "use_cache" = 0 \/ bare w -> selects (node_get_i32 n "mode") m ->
  ins = sa :: rest -> sb = hd stream_new rest -> fine_stream B sa -> fine_stream B sb ->
  node_compute p x n fr mode ins out w = Ok (n', st, v, w') ->
  exists A C, flattened p x sa A /\ flattened p x sb C /\ nothing_pending v /\
    merged m (f32_of_bits (node_get_f32 n "mix")) A C (picture v) /\ st_spec v = spec_new.
Proof.
  intros T EN UC SM -> EB FA FB H. apply node_compute_inv in H. destruct H as (h & _ & H & _).
  rewrite T in H. cbn [compute_op] in H. unfold merge_compute in H.
  assert (GI : forall name, attr_exists (arms_of TMerge) name = true -> gi TMerge (nd_attrs n) name = node_get_i32 n name).
  { intros name A. unfold node_get_i32. rewrite T, A. reflexivity. }
  assert (GF : gf TMerge (nd_attrs n) "mix" = node_get_f32 n "mix") by (unfold node_get_f32; rewrite T; reflexivity).
  rewrite !GI, GF, EN in H by reflexivity. change (negb (1 =? 1)) with false in H. cbv iota in H.
  assert (Q : exists st0, (match rest with [] => (stream_new, NsWarning) | sb :: _ => (sb, NsValid) end) = (sb, st0))
    by (destruct rest; cbn in EB; subst sb; eauto).
  destruct Q as (st0 & Q). rewrite Q in H. clear Q EB.
  destruct (flatten_fine sa FA) as (ra & Ea & LA & DA & TA & _ & GA).
  destruct (flatten_fine sb FB) as (rb & Eb & LB & DB & TB & SB & GB).
  destruct (cached p _ h w tt _) as [[[img u] w1]|] eqn:EC in H; [|discriminate H]. apply made_anew in EC; [|exact UC].
  cbn [bind] in H. cbn [fst] in EC.
  unfold merge_process in EC. rewrite Ea, Eb in EC. cbn [bind] in EC. rewrite SB, DA in EC. cbn [st_display st_data] in EC.
  assert (KM : merge_mode_of (node_get_i32 n "mode") = m /\ known_mode m).
  { unfold merge_mode_of, merge_from, known_mode. destruct SM as [(-> & ->)|[(-> & ->)|(-> & ->)]]; auto. }
  destruct KM as (EK & KM). rewrite EK in EC.
  destruct (merge_exact p m _ _ (f32_of_bits (node_get_f32 n "mix")) merge_start KM TA TB) as (r & EM & MG).
  { exact (within_wf _ _ (proj2 (proj2 (proj2 GA)))). }
  { exact (within_wf _ _ (proj2 (proj2 (proj2 GB)))). }
  { apply (roomy_merge B); [exact R|apply GA|apply GB]. }
  rewrite EM in EC. cbn [bind] in EC. injection EC as <- _. injection H as _ <- _.
  do 2 eexists. split; [exact LA|]. split; [exact LB|]. split; [repeat split|]. split; [|reflexivity].
  destruct r as [rb' rd rw]. exact MG.
Qed.

Lemma crop_shows n fr mode s rest out (w : world D) n' st v w' :
  nd_type n = TCrop -> node_get_i32 n "enable" = 1 -> node_get_i32 n "use_cache" = 0 \/ bare w ->
  careful p B n (length (s :: rest)) -> fine_stream B s ->
  node_compute p x n fr mode (s :: rest) out w = Ok (n', st, v, w') ->
  exists A, flattened p x s A /\ nothing_pending v /\
    cut A (BBox (node_get_i32 n "window_min_x") (node_get_i32 n "window_min_y") (node_get_i32 n "window_max_x") (node_get_i32 n "window_max_y"))
        (picture v) /\
    st_display v = (if node_get_i32 n "reformat" =? 1 then st_data v else st_display s) /\ st_spec v = st_spec s.
Proof.
  intros T EN UC (_ & C) FS H. apply node_compute_inv in H. destruct H as (h & _ & H & _).
  rewrite T in H, C. cbn [compute_op] in H. unfold crop_compute in H.
  assert (GI : forall name, attr_exists (arms_of TCrop) name = true -> gi TCrop (nd_attrs n) name = node_get_i32 n name).
  { intros name A. unfold node_get_i32. rewrite T, A. reflexivity. }
  assert (GB : forall name, gi TCrop (nd_attrs n) name = b_i32 (nd_attrs n) name -> attr_exists (arms_of TCrop) name = true ->
     b_i32 (nd_attrs n) name = node_get_i32 n name) by (intros name A E; rewrite <- A; now apply GI).
  rewrite !GB in C by reflexivity. destruct (C EN) as (NB & WI). clear C.
  rewrite !GI, EN in H by reflexivity. change (negb (1 =? 1)) with false in H. cbv iota zeta in H.
  apply Z.eqb_neq in NB. rewrite NB in H.
  destruct (cached p _ h w (s, NsValid) _) as [[[img [s1 st1]] w1]|] eqn:CC in H; [|discriminate H]. apply made_anew in CC; [|exact UC].
  cbn [bind] in H. cbn [fst] in CC.
  set (win := BBox (node_get_i32 n "window_min_x") _ _ _) in *.
  destruct (flatten_fine s FS) as (r & E & L & ED & TF & SR & G).
  unfold crop_process in CC. rewrite E in CC. cbn [bind] in CC. rewrite ED in CC.
  pose proof (within_wf _ _ WI) as WW. destruct (roomy_facts B win R WI) as (CW & CF & _).
  pose proof G as (G1 & G2 & G3 & G4). destruct (roomy_facts B _ R G4) as (CD & CG & _).
  destruct (crop_image_plain p (Image (bk_block r) (st_display s) (st_data s)) win (node_get_i32 n "reformat" =? 1) (node_get_i32 n "intersect" =? 1))
    as (im & EC & OK & ID & IP & FP); [exact (conj G1 (conj G2 (conj (within_wf _ _ G4) (conj CD (CG _ G3)))))|exact WW|exact CW|apply CF; exact G3|].
  rewrite EC in CC. cbn [bind] in CC. injection CC as <- <- _. injection H as _ <- _.
  exists (Image (bk_block r) (st_display s) (st_data s)). split; [exact L|].
  rewrite SR. split; [repeat split|].
  destruct (crop_exact p (bk_block r) (st_data s) win G1 G2 (within_wf _ _ G4) WW CD CW (CG _ G3) (CF _ G3)) as (r' & E' & W' & P' & N' & T' & V').
  cbn [im_block im_data] in FP. rewrite FP in E'. injection E' as <-.
  cbn [picture set_pixel_block set_display_window set_data_window set_hash st_block st_display st_data st_spec with_plain sh_block sh_display sh_data].
  cbn [im_display] in IP. rewrite IP, ID.
  split; [|split; [destruct (_ =? 1); reflexivity|reflexivity]].
  assert (TY : db_type (pb_data (bk_block r)) = Float32) by apply TF.
  unfold cut. cbn [im_data im_block]. split; [reflexivity|].
  split; [split; [exact W'|split; [exact P'|split; [exact (eq_trans T' TY)|exact (eq_ind_r (fun q => q = 3 \/ q = 4) G3 N')]]]|].
  split; [exact N'|]. intros px py c I Hc. refine (eq_trans (V' px py c I Hc) _). rewrite TY. unfold channel_at. cbn [im_data im_block].
  replace (c <? bs_nc (pb_size (bk_block r))) with true by (symmetry; apply Z.ltb_lt; lia). rewrite andb_true_r.
  destruct (in_boxb (st_data s) px py) eqn:IB; [|reflexivity].
  unfold pixel_val. destruct (pb_data (bk_block r)) as [l| | |] eqn:EL; try discriminate TY. cbn [elems].
  apply in_boxb_spec in IB.
  pose proof (offset_bounds (st_data s) (bs_nc (pb_size (bk_block r))) px py c IB Hc) as OB.
  destruct G1 as (_ & _ & _ & LN). rewrite EL in LN. destruct G2 as (P1 & P2). rewrite P1, P2 in LN. cbn [db_len] in LN.
  set (o := offset _ _ _ _ _) in *. unfold at_z. replace (0 <=? o) with true by (symmetry; apply Z.leb_le; lia).
  rewrite nth_error_map. destruct (@nth_error spec_float l (Z.to_nat o)) eqn:EN'; [reflexivity|].
  exfalso. apply nth_error_None in EN'. unfold zlen in LN. destruct OB as (O1 & O2). pose proof (Z.lt_le_trans _ _ _ O2 (Z.eq_le_incl _ _ (eq_sym LN))) as O3.
  change (o < Z.of_nat (@length spec_float l)) in O3. clear - EN' O1 O3. lia.
Qed.

(** Executions. *)
Variable srt : edge_sort.
Hypothesis HS : sorts srt.

(** Either the node does not use the cache, or there is none. *)
Variable held : world D -> Prop.
Hypothesis HF : forall w, held w -> fine_world w.
Hypothesis HC : forall t b fr h mode ins out w st s w', held w ->
  compute_op p x t b fr h mode ins out w = Ok (st, s, w') -> fine_world w' -> held w'.

Lemma keeps_fine g start (inputs : nat -> list nat) : careful_graph p B g ->
  (forall n, inputs_in_slot_order (g_graph g) n (inputs n)) ->
  keeps_key (node_ops p x) node_key held (fine_stream B) (g_nodes g) inputs start (fun _ => True).
Proof.
  intros C IO i m n _ _ (n0 & E0 & K0) fr mode ins out c n' st out' c' H HW LI FI FO.
  assert (CN : careful p B n (length ins)).
  { destruct (key_inj _ _ K0) as (KT & KA). rewrite LI. apply (careful_key p B n0); auto. exact (C i n0 _ E0 (IO i)). }
  cbn [n_compute node_ops] in H. apply node_compute_inv in H. destruct H as (h & _ & H & ->). split; [reflexivity|].
  destruct (compute_fine p x B ok_disk R SX n fr mode ins out c CN FI FO (HF _ HW) h) as (st1 & o1 & w1 & E & F1 & F2).
  pose proof (HC _ _ _ _ _ _ _ _ _ _ _ HW H) as PW'. rewrite H in E. injection E as <- <- <-. auto.
Qed.

Notation the_made g fr start inputs := (made (node_ops p x) node_key held (fine_stream B) (g_nodes g) inputs fr start).

Theorem merge_held fuel (g : graph node stream) id start n frames fr w g' w' m :
  wf_graph (node_ops p x) g -> careful_graph p B g -> fine_stream B (g_output g) -> held w ->
  find_index g id = Some start -> nth_error (g_nodes g) start = Some n -> nd_type n = TMerge ->
  node_get_i32 n "enable" = 1 -> (forall w, held w -> node_get_i32 n "use_cache" = 0 \/ bare w) -> selects (node_get_i32 n "mode") m ->
  (exists k, link (g_graph g) k start /\ k <> start) ->
  execute (node_ops p x) srt fuel g id (frames ++ [fr])%list w = Some (Ok (g', w', ExSuccess)) ->
  exists inputs a rest ma sa wa wa' sb A C,
    (forall i, inputs_in_slot_order (g_graph g) i (inputs i)) /\ inputs start = a :: rest /\
    the_made g fr start inputs a ma sa wa wa' /\
    match rest with
    | [] => sb = stream_new
    | b :: _ => exists mb wb wb', the_made g fr start inputs b mb sb wb wb'
    end /\
    flattened p x sa A /\ flattened p x sb C /\ nothing_pending (g_output g') /\
    merged m (f32_of_bits (node_get_f32 n "mix")) A C (picture (g_output g')) /\ st_spec (g_output g') = spec_new.
Proof.
  intros WF CG FO FW FI NN T EN UC SM (k & LK & NK) H.
  destruct (execute_made (node_ops p x) srt node_key held (fine_stream B) HS fuel g id start frames fr w g' w' WF FW FO FI) as
    (inputs & c1 & IO & M & _); [intros inputs IO; now apply keeps_fine|exact H|].
  inversion M as [i m' n1 vs out c0 n' st v' c0' AS LI MA FV CI SI CO OK]; subst.
  destruct LI as (n0 & E0 & K0). rewrite NN in E0. injection E0 as <-.
  destruct (key_inj _ _ K0) as (KT & KA). destruct (key_get _ _ K0) as (GI & _ & _).
  assert (GF : node_get_f32 n1 "mix" = node_get_f32 n "mix") by (unfold node_get_f32; now rewrite KT, KA).
  destruct (IO start) as (_ & IN & _). destruct (inputs start) as [|a rest] eqn:EI; [destruct (proj2 (IN k)); auto|].
  inversion MA as [|i is ma sa vs' wa wa' Ma Mr]; subst. inversion FV as [|? ? FA FR]; subst.
  cbn [n_compute node_ops] in CO.
  destruct (merge_shows n1 fr mode_all (sa :: vs') sa (hd stream_new vs') vs' out c1 n' st (g_output g') w' m) as (A & C & L1 & L2 & NP & MG & SP);
    [congruence|now rewrite GI|rewrite GI; apply UC, CI|now rewrite GI|reflexivity|reflexivity|exact FA| |exact CO|].
  { destruct vs'; [apply fine_new, R|inversion FR; assumption]. }
  exists inputs, a, rest, ma, sa, wa, wa', (hd stream_new vs'), A, C. split; [exact IO|]. split; [exact EI|]. split; [exact Ma|].
  split; [destruct Mr; [reflexivity|cbn [hd]; eauto]|]. rewrite <- GF. auto 8.
Qed.

Theorem crop_held fuel (g : graph node stream) id start n frames fr w g' w' :
  wf_graph (node_ops p x) g -> careful_graph p B g -> fine_stream B (g_output g) -> held w ->
  find_index g id = Some start -> nth_error (g_nodes g) start = Some n -> nd_type n = TCrop ->
  node_get_i32 n "enable" = 1 -> (forall w, held w -> node_get_i32 n "use_cache" = 0 \/ bare w) ->
  (exists k, link (g_graph g) k start /\ k <> start) ->
  execute (node_ops p x) srt fuel g id (frames ++ [fr])%list w = Some (Ok (g', w', ExSuccess)) ->
  exists inputs a rest ma s wa wa' A,
    (forall i, inputs_in_slot_order (g_graph g) i (inputs i)) /\ inputs start = a :: rest /\
    the_made g fr start inputs a ma s wa wa' /\
    flattened p x s A /\ nothing_pending (g_output g') /\
    cut A (BBox (node_get_i32 n "window_min_x") (node_get_i32 n "window_min_y") (node_get_i32 n "window_max_x") (node_get_i32 n "window_max_y"))
        (picture (g_output g')) /\
    st_display (g_output g') = (if node_get_i32 n "reformat" =? 1 then st_data (g_output g') else st_display s) /\
    st_spec (g_output g') = st_spec s.
Proof.
  intros WF CG FO FW FI NN T EN UC (k & LK & NK) H.
  destruct (execute_made (node_ops p x) srt node_key held (fine_stream B) HS fuel g id start frames fr w g' w' WF FW FO FI) as
    (inputs & c1 & IO & M & _); [intros inputs IO; now apply keeps_fine|exact H|].
  inversion M as [i m' n1 vs out c0 n' st v' c0' AS LI MA FV CI SI CO OK]; subst.
  destruct LI as (n0 & E0 & K0). rewrite NN in E0. injection E0 as <-.
  destruct (key_inj _ _ K0) as (KT & KA). destruct (key_get _ _ K0) as (GI & _ & _).
  pose proof (CG start n _ NN (IO start)) as CN.
  destruct (IO start) as (_ & IN & _). destruct (inputs start) as [|a rest] eqn:EI; [destruct (proj2 (IN k)); auto|].
  inversion MA as [|i is ma s vs' wa wa' Ma Mr]; subst. inversion FV as [|? ? FA FR]; subst.
  assert (LV : length (s :: vs') = length (a :: rest)).
  { cbn [length]. f_equal. clear - Mr. induction Mr; cbn [length]; congruence. }
  cbn [n_compute node_ops] in CO.
  destruct (crop_shows n1 fr mode_all s vs' out c1 n' st (g_output g') w') as (A & L1 & NP & CU & DI & SP);
    [congruence|now rewrite GI|rewrite GI; apply UC, CI| |exact FA|exact CO|].
  { rewrite LV. apply (careful_key p B n); auto. }
  rewrite !GI in *. exists inputs, a, rest, ma, s, wa, wa', A. auto 12.
Qed.
End Show.

Section Kinds.
Context {D : Type}.
Variable p : profile.
Variable x : externals D.
Variable B : bbox.
Variable ok_disk : D -> Prop.
Hypothesis R : roomy B.
Hypothesis SX : sane x B ok_disk.
Notation fine_world := (fine_world p B ok_disk).
Variable srt : edge_sort.
Hypothesis HS : sorts srt.
Notation the_made g fr start inputs := (made (node_ops p x) node_key fine_world (fine_stream B) (g_nodes g) inputs fr start).

Theorem merge_run fuel (g : graph node stream) id start n frames fr w g' w' m :
  wf_graph (node_ops p x) g -> careful_graph p B g -> fine_stream B (g_output g) -> fine_world w ->
  find_index g id = Some start -> nth_error (g_nodes g) start = Some n -> nd_type n = TMerge ->
  node_get_i32 n "enable" = 1 -> node_get_i32 n "use_cache" = 0 -> selects (node_get_i32 n "mode") m ->
  (exists k, link (g_graph g) k start /\ k <> start) ->
  execute (node_ops p x) srt fuel g id (frames ++ [fr])%list w = Some (Ok (g', w', ExSuccess)) ->
  exists inputs a rest ma sa wa wa' sb A C,
    (forall i, inputs_in_slot_order (g_graph g) i (inputs i)) /\ inputs start = a :: rest /\
    the_made g fr start inputs a ma sa wa wa' /\
    match rest with
    | [] => sb = stream_new
    | b :: _ => exists mb wb wb', the_made g fr start inputs b mb sb wb wb'
    end /\
    flattened p x sa A /\ flattened p x sb C /\ nothing_pending (g_output g') /\
    merged m (f32_of_bits (node_get_f32 n "mix")) A C (picture (g_output g')) /\ st_spec (g_output g') = spec_new.
Proof.
  intros WF CG FO FW FI NN T EN UC.
  apply (merge_held p x B ok_disk R SX srt HS fine_world (fun w H => H) (fun _ _ _ _ _ _ _ _ _ _ _ _ _ H => H)
           fuel g id start n frames fr w g' w' m WF CG FO FW FI NN T EN (fun w _ => or_introl UC)).
Qed.

Theorem crop_run fuel (g : graph node stream) id start n frames fr w g' w' :
  wf_graph (node_ops p x) g -> careful_graph p B g -> fine_stream B (g_output g) -> fine_world w ->
  find_index g id = Some start -> nth_error (g_nodes g) start = Some n -> nd_type n = TCrop ->
  node_get_i32 n "enable" = 1 -> node_get_i32 n "use_cache" = 0 ->
  (exists k, link (g_graph g) k start /\ k <> start) ->
  execute (node_ops p x) srt fuel g id (frames ++ [fr])%list w = Some (Ok (g', w', ExSuccess)) ->
  exists inputs a rest ma s wa wa' A,
    (forall i, inputs_in_slot_order (g_graph g) i (inputs i)) /\ inputs start = a :: rest /\
    the_made g fr start inputs a ma s wa wa' /\
    flattened p x s A /\ nothing_pending (g_output g') /\
    cut A (BBox (node_get_i32 n "window_min_x") (node_get_i32 n "window_min_y") (node_get_i32 n "window_max_x") (node_get_i32 n "window_max_y"))
        (picture (g_output g')) /\
    st_display (g_output g') = (if node_get_i32 n "reformat" =? 1 then st_data (g_output g') else st_display s) /\
    st_spec (g_output g') = st_spec s.
Proof.
  intros WF CG FO FW FI NN T EN UC.
  apply (crop_held p x B ok_disk R SX srt HS fine_world (fun w H => H) (fun _ _ _ _ _ _ _ _ _ _ _ _ _ H => H)
           fuel g id start n frames fr w g' w' WF CG FO FW FI NN T EN (fun w _ => or_introl UC)).
Qed.

End Kinds.

Lemma unknown_process {D} p (x : externals D) a b mix img u : merge_process p x a b MUninitialized mix = Ok (img, u) ->
  img = with_plain (Image (PB (BS 1 1 4) (DF32 [f32_zero; f32_zero; f32_zero; f32_one])) (BBox 0 0 1 1) (BBox 0 0 1 1)) spec_new.
Proof.
  unfold merge_process. destruct (do_process _ _ _ _ _ _ _ _ _ _ _ _) as [ra|]; [|discriminate]. cbn [bind].
  destruct (do_process _ _ _ _ _ _ _ _ _ _ _ _) as [rb|]; [|discriminate]. cbn [bind merge]. now intros [= <- _].
Qed.
(** A mode number that stands for no formula. *)
Lemma unknown_mode {D} p (x : externals D) n fr mode a rest out w n' st s w' :
  nd_type n = TMerge -> node_get_i32 n "enable" = 1 -> node_get_i32 n "use_cache" = 0 ->
  (forall m, ~ selects (node_get_i32 n "mode") m) ->
  node_compute p x n fr mode (a :: rest) out w = Ok (n', st, s, w') ->
  st_block s = PB (BS 1 1 4) (DF32 [f32_zero; f32_zero; f32_zero; f32_one]) /\
  st_data s = BBox 0 0 1 1 /\ st_display s = BBox 0 0 1 1 /\ st_deformers s = [] /\ st_ops s = [] /\
  st = (match rest with [] => NsWarning | _ => NsValid end).
Proof.
  intros T EN UC NS H. unfold node_compute in H. destruct (cache_hash _ _ _ _ _ _ _) as [h|]; [|discriminate H]. cbn [bind] in H.
  rewrite T in H. cbn [compute_op] in H. unfold merge_compute in H.
  unfold node_get_i32 in EN, UC, NS. rewrite T in EN, UC, NS. 
  change (gi TMerge (nd_attrs n) "enable") with (if attr_exists (arms_of TMerge) "enable" then blk_get_i32 (arms_of TMerge) (nd_attrs n) "enable" else 0) in H.
  change (gi TMerge (nd_attrs n) "use_cache") with (if attr_exists (arms_of TMerge) "use_cache" then blk_get_i32 (arms_of TMerge) (nd_attrs n) "use_cache" else 0) in H.
  change (gi TMerge (nd_attrs n) "mode") with (if attr_exists (arms_of TMerge) "mode" then blk_get_i32 (arms_of TMerge) (nd_attrs n) "mode" else 0) in H.
  rewrite EN, UC in H. cbn [Z.eqb Pos.eqb negb] in H.
  assert (M : merge_mode_of (if attr_exists (arms_of TMerge) "mode" then blk_get_i32 (arms_of TMerge) (nd_attrs n) "mode" else 0) = MUninitialized).
  { set (v := if attr_exists (arms_of TMerge) "mode" then _ else _) in *. unfold merge_mode_of, merge_from.
    destruct (Z.eq_dec v 0) as [E0|E0]; [elim (NS MAdd); left; auto|].
    destruct (Z.eq_dec v 1) as [E1|E1]; [elim (NS MOver); right; left; auto|].
    destruct (Z.eq_dec v 2) as [E2|E2]; [elim (NS MMultiply); right; right; auto|].
    clear - E0 E1 E2. destruct v as [|q|q]; [congruence| |reflexivity]. destruct q as [q|[q|q|]|]; try reflexivity; congruence. }
  rewrite M in H. unfold cached in H.
  destruct rest as [|b rest].
  all: match type of H with context [merge_process ?p ?x ?a ?b MUninitialized ?k] =>
    destruct (merge_process p x a b MUninitialized k) as [[img u]|] eqn:E; [|discriminate H]; apply unknown_process in E end.
  all: cbn [bind] in H; injection H as _ <- <- _; rewrite E; cbn; auto 10.
Qed.

(** Merges and crops show the same whether or not they use the cache. *)
From Coq Require String.
Import String.StringSyntax.
From Coq Require Import Floats.SpecFloat.
From Verif Require Import Machine Loops CacheModel FloatModel BBoxModel BBoxSpec PixelModel PixelSpec MergeModel MergeSpec AttrModel AttrProofs HashModel HashSpec
  StreamModel NodeModel NodeSpec NodeProofs ChainSpec GraphModel GraphSpec GraphHistory GraphSim LutSpec LutHistory RunSpec SafeSpec SafeProofs ShowSpec UncachedSpec UncachedProofs ShowProofs Loops SoundSpec SoundProofs3.
Local Open Scope string_scope.

Lemma session_wf {D} p (x : externals D) E srt G w : session p x E srt G w -> forall i, wf_graph (node_ops p x) (G i).
Proof.
  assert (KI : keeps_id (recording (node_ops p x))).
  { destruct (node_keeps_id p x) as (A & B). split; [exact A|].
    intros n fr m ins out c n' st out' c' H. cbn [recording n_compute n_id] in *.
    apply bind_ok in H. destruct H as ([[[n1 s1] o1] c1] & H & K). injection K as <- _ _ _. exact (B _ _ _ _ _ _ _ _ _ _ H). }
  induction 1 as [cap d DO|G w i call g' w' log G' _ IH C T Gi Gj|G c d r img c' _ IH HU RC|G c d o c' r _ IH NI ST|G c d d' _ IH DO|G c d G0 c0 d0 _ IH _ _]; intro j.
  - apply wf_new.
  - destruct (Nat.eq_dec j i) as [->|N]; [|rewrite (Gj _ N); apply IH]. rewrite Gi.
    assert (W : wf_graph (recording (node_ops p x)) (G i)) by (destruct (IH i) as [A B L]; (split; [exact A|exact B|exact L])).
    destruct (calls_wf _ srt KI _ _ _ _ _ W C) as ([A B L] & _). (split; [exact A|exact B|exact L]).
  - apply IH.
  - apply IH.
  - apply IH.
  - apply IH.
Qed.

Section Cached.
Context {D : Type}.
Variable p : profile.
Variable x : externals D.
Variable E : setting D.
Hypothesis CP : clean_paths (x_expand x).
Hypothesis NC : no_collisions (x_digest x) (used E).
Hypothesis DU : digest_u64 (x_digest x).
Hypothesis NZ : forall l, In l (used E) -> x_digest x l <> 0.
Hypothesis KS : keeps_sources x E.
Variable B : bbox.
Variable ok_disk : D -> Prop.
Hypothesis R : roomy B.
Hypothesis SX : sane x B ok_disk.
Variable srt : edge_sort.
Hypothesis HS : sorts srt.

Definition held (w : world D) : Prop := fine_world p B ok_disk w /\ uncached w.
Notation the_made g fr start inputs := (RunSpec.made (node_ops p x) node_key held (fine_stream B) (g_nodes g) inputs fr start).

Lemma held_none d : ok_disk d -> held (no_cache d).
Proof.
  intro O. split; [|split; reflexivity]. split; [|exact O]. split; [intros k i []|]. intros _.
  cbn [no_cache w_cache with_capacity lru CacheModel.used capacity map]. split; [constructor|]. split; [reflexivity|]. split; [lia|].
  split; [now left|]. destruct R as (R1 & R2 & R3 & R4 & R5). unfold largest, two31, two64 in *. nia.
Qed.
Lemma held_kept t b fr h mode ins out w st s w' : held w ->
  compute_op p x t b fr h mode ins out w = Ok (st, s, w') -> fine_world p B ok_disk w' -> held w'.
Proof. intros (F & U) H F'. split; [exact F'|]. exact (bare_compute p x _ _ _ _ _ _ _ _ _ _ _ U H). Qed.

Theorem merge_session G w i fuel id start n frames fr g' w' log m :
  session p x E srt G w -> ok_disk (w_disk w) -> careful_graph p B (G i) -> fine_stream B (g_output (G i)) ->
  find_index (G i) id = Some start -> nth_error (g_nodes (G i)) start = Some n -> nd_type n = TMerge ->
  node_get_i32 n "enable" = 1 -> selects (node_get_i32 n "mode") m ->
  (exists k, link (g_graph (G i)) k start /\ k <> start) ->
  execute (recording (node_ops p x)) srt fuel (G i) id (frames ++ [fr])%list (w, []) = Some (Ok (g', (w', log), ExSuccess)) ->
  Forall (tame p x E) log ->
  exists inputs a rest ma sa wa wa' sb A C,
    (forall j, inputs_in_slot_order (g_graph (G i)) j (inputs j)) /\ inputs start = a :: rest /\
    the_made (G i) fr start inputs a ma sa wa wa' /\
    match rest with
    | [] => sb = stream_new
    | b :: _ => exists mb wb wb', the_made (G i) fr start inputs b mb sb wb wb'
    end /\
    flattened p x sa A /\ flattened p x sb C /\ nothing_pending (g_output g') /\
    merged m (f32_of_bits (node_get_f32 n "mix")) A C (picture (g_output g')) /\ st_spec (g_output g') = spec_new.
Proof.
  intros S OD CG FO FI NN T EN SM LK H TM.
  destruct (session_sound p x E CP NC DU NZ KS srt G w i fuel id _ g' w' log ExSuccess S H TM) as (w0 & H0 & _).
  exact (merge_held p x B ok_disk R SX srt HS held (fun w => @proj1 _ _) held_kept fuel (G i) id start n frames fr (no_cache (w_disk w)) g' w0 m
    (session_wf p x E srt G w S i) CG FO (held_none _ OD) FI NN T EN (fun w Hw => or_intror (proj2 Hw)) SM LK H0).
Qed.

Theorem crop_session G w i fuel id start n frames fr g' w' log :
  session p x E srt G w -> ok_disk (w_disk w) -> careful_graph p B (G i) -> fine_stream B (g_output (G i)) ->
  find_index (G i) id = Some start -> nth_error (g_nodes (G i)) start = Some n -> nd_type n = TCrop ->
  node_get_i32 n "enable" = 1 ->
  (exists k, link (g_graph (G i)) k start /\ k <> start) ->
  execute (recording (node_ops p x)) srt fuel (G i) id (frames ++ [fr])%list (w, []) = Some (Ok (g', (w', log), ExSuccess)) ->
  Forall (tame p x E) log ->
  exists inputs a rest ma s wa wa' A,
    (forall j, inputs_in_slot_order (g_graph (G i)) j (inputs j)) /\ inputs start = a :: rest /\
    the_made (G i) fr start inputs a ma s wa wa' /\
    flattened p x s A /\ nothing_pending (g_output g') /\
    cut A (BBox (node_get_i32 n "window_min_x") (node_get_i32 n "window_min_y") (node_get_i32 n "window_max_x") (node_get_i32 n "window_max_y"))
        (picture (g_output g')) /\
    st_display (g_output g') = (if node_get_i32 n "reformat" =? 1 then st_data (g_output g') else st_display s) /\
    st_spec (g_output g') = st_spec s.
Proof.
  intros S OD CG FO FI NN T EN LK H TM.
  destruct (session_sound p x E CP NC DU NZ KS srt G w i fuel id _ g' w' log ExSuccess S H TM) as (w0 & H0 & _).
  exact (crop_held p x B ok_disk R SX srt HS held (fun w => @proj1 _ _) held_kept fuel (G i) id start n frames fr (no_cache (w_disk w)) g' w0
    (session_wf p x E srt G w S i) CG FO (held_none _ OD) FI NN T EN (fun w Hw => or_intror (proj2 Hw)) LK H0).
Qed.
End Cached.

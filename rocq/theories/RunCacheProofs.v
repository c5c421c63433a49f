(** Chains from a file, with or without the image cache. *)
From Coq Require String.
Import String.StringSyntax.
From Coq Require Import Floats.SpecFloat.
From Verif Require Import Machine CacheModel PathModel PathSpec AttrModel AttrSpec HashModel HashSpec StreamModel GraphModel GraphSpec GraphSim
  NodeModel NodeSpec LutSpec LutHistory ChainSpec FrameModel FrameSpec FrameProofs RenderProofs UncachedSpec SoundSpec SoundProofs3 ShowCacheProofs.
Local Open Scope string_scope.

Section Cached.
Context {D : Type}.
Variable p : profile.
Variable x : externals D.
Variable E : setting D.
Hypothesis CP : clean_paths (x_expand x).
Hypothesis NC : no_collisions (x_digest x) (used E).
Hypothesis DU : digest_u64 (x_digest x).
Hypothesis NZ : forall l, In l (used E) -> x_digest x l <> 0.
Hypothesis KS : keeps_sources x E.
Variable srt : edge_sort.
Hypothesis HS : sorts srt.

Lemma none_kept d : @uncached D (no_cache d).
Proof. split; reflexivity. Qed.

Theorem source_session G w i fuel id start src l nr frames fr g' w' log :
  session p x E srt G w -> find_index (G i) id = Some start ->
  leads (g_graph (G i)) src l start -> (forall m, ~ link (g_graph (G i)) m src) ->
  nth_error (g_nodes (G i)) src = Some nr -> nd_type nr = TRead -> node_get_i32 nr "enable" <> 0 ->
  (forall j n, In j l -> nth_error (g_nodes (G i)) j = Some n -> adding (nd_type n)) ->
  execute (recording (node_ops p x)) srt fuel (G i) id (frames ++ [fr])%list (w, []) = Some (Ok (g', (w', log), ExSuccess)) ->
  Forall (tame p x E) log ->
  processed x (g_nodes (G i)) nr l (w_disk w) fr (g_output g') /\ w_disk w' = w_disk w.
Proof.
  intros S FI L NI NR TR EN AD H T.
  destruct (session_sound p x E CP NC DU NZ KS srt G w i fuel id _ g' w' log ExSuccess S H T) as (w0 & H0 & <-).
  exact (chain_source p x srt HS fuel (G i) id start src l nr frames fr (no_cache (w_disk w)) g' w0
    (session_wf p x E srt G w S i) FI L NI NR TR EN (or_intror (none_kept _)) AD H0).
Qed.

Theorem render_session G w i fuel id start src l a nr nw frames g' w' log :
  session p x E srt G w -> find_index (G i) id = Some start ->
  leads (g_graph (G i)) src l a -> only_input (g_graph (G i)) a start -> (forall m, ~ link (g_graph (G i)) m src) ->
  nth_error (g_nodes (G i)) src = Some nr -> nd_type nr = TRead -> node_get_i32 nr "enable" <> 0 ->
  (forall j n, In j l -> nth_error (g_nodes (G i)) j = Some n -> adding (nd_type n)) ->
  nth_error (g_nodes (G i)) start = Some nw -> nd_type nw = TWrite ->
  node_get_i32 nw "enable" <> 0 -> node_get_i32 nw "execute" <> 0 ->
  execute (recording (node_ops p x)) srt fuel (G i) id frames (w, []) = Some (Ok (g', (w', log), ExSuccess)) ->
  Forall (tame p x E) log ->
  rendered p x nw (processed x (g_nodes (G i)) nr l) frames (w_disk w) (w_disk w').
Proof.
  intros S FI L O NI NR TR EN AD NW TW WE WX H T.
  destruct (session_sound p x E CP NC DU NZ KS srt G w i fuel id _ g' w' log ExSuccess S H T) as (w0 & H0 & <-).
  exact (render_run p x srt HS fuel id start src l a nr nw frames (G i) (no_cache (w_disk w)) g' w0
    (session_wf p x E srt G w S i) FI L O NI NR TR EN (or_intror (none_kept _)) AD NW TW WE WX H0).
Qed.

Theorem sequence_session G w i fuel id start src l a nr nw ks g' w' log pre width post :
  session p x E srt G w -> find_index (G i) id = Some start ->
  leads (g_graph (G i)) src l a -> only_input (g_graph (G i)) a start -> (forall m, ~ link (g_graph (G i)) m src) ->
  nth_error (g_nodes (G i)) src = Some nr -> nd_type nr = TRead -> node_get_i32 nr "enable" <> 0 ->
  (forall j n, In j l -> nth_error (g_nodes (G i)) j = Some n -> adding (nd_type n)) ->
  nth_error (g_nodes (G i)) start = Some nw -> nd_type nw = TWrite ->
  node_get_i32 nw "enable" <> 0 -> node_get_i32 nw "execute" <> 0 ->
  first_run (x_expand x (node_get_str nw "file_path")) pre width post -> 1 <= width <= 9 -> Forall in_i32 ks ->
  execute_whole (recording (node_ops p x)) srt fuel (G i) id ks (w, []) = Some (Ok (g', (w', log), ExSuccess)) ->
  Forall (tame p x E) log ->
  sequence p x nw (processed x (g_nodes (G i)) nr l) f64_of_Z pre width post ks (w_disk w) (w_disk w').
Proof.
  intros S FI L O NI NR TR EN AD NW TW WE WX FR WI IN H T.
  destruct (session_sound p x E CP NC DU NZ KS srt G w i fuel id _ g' w' log ExSuccess S H T) as (w0 & H0 & <-).
  exact (whole_sequence p x srt HS fuel id start src l a nr nw ks (G i) (no_cache (w_disk w)) g' w0 pre width post
    (session_wf p x E srt G w S i) FI L O NI NR TR EN (or_intror (none_kept _)) AD NW TW WE WX FR WI IN H0).
Qed.
End Cached.

(** C54: what is computed does not depend on the image cache. *)
From Coq Require String.
Import String.StringSyntax.
From Coq Require Import Floats.SpecFloat.
From Verif Require Import Machine CacheModel FloatModel BBoxModel PixelModel AttrModel HashModel HashSpec HashProofs
  StreamModel BakeModel GraphModel GraphSpec GraphSim NodeModel NodeExamples NodeSpec BakeProofs LutSpec LutHistory LutProofs3
  SoundSpec SoundProofs3 PropertiesNode.
Local Open Scope string_scope.

(** In any session (any calls on any number of graphs sharing the cache, lookup
    tables, evictions, capacity changes, changes to files that are not sources)
    whose computations are [tame], an execution that returns gives the graph,
    output, statuses and written files that it gives without a cache. *)
Theorem C54_cache_independent :
  forall (D : Type) p (x : externals D) (E : setting D),
  clean_paths (x_expand x) -> no_collisions (x_digest x) (used E) -> digest_u64 (x_digest x) ->
  (forall l, In l (used E) -> x_digest x l <> 0) -> keeps_sources x E ->
  forall srt G w i fuel id frames g' w' log st,
  session p x E srt G w ->
  execute (recording (node_ops p x)) srt fuel (G i) id frames (w, []) = Some (Ok (g', (w', log), st)) ->
  Forall (tame p x E) log ->
  exists w0', execute (node_ops p x) srt fuel (G i) id frames (no_cache (w_disk w)) = Some (Ok (g', w0', st))
              /\ w_disk w0' = w_disk w'.
Proof. intros D. exact session_sound. Qed.
Print Assumptions C54_cache_independent.

(** Recording the computations only adds the list: every execution that returns
    is one with a record. *)
Theorem C54_recording :
  forall (D : Type) p (x : externals D) srt fuel g id frames w g' w' st,
  execute (node_ops p x) srt fuel g id frames w = Some (Ok (g', w', st)) <->
  exists log, execute (recording (node_ops p x)) srt fuel g id frames (w, []) = Some (Ok (g', (w', log), st)).
Proof.
  intros D p x srt fuel g id frames w g' w' st. split; [apply recording_complete|].
  intros [log H]. exact (recording_faithful _ _ _ _ _ _ _ _ _ _ _ _ H).
Qed.
Print Assumptions C54_recording.

(* ------------------------------ a session ------------------------------ *)

Definition a_reader : node := setup TRead 1 [WStr "file_path" [97]].
Definition a_crop : node :=
  setup TCrop 2 [WI32 "window_min_x" 0; WI32 "window_min_y" 0; WI32 "window_max_x" 1; WI32 "window_max_y" 1].
Definition a_disk : disk := [([97], dot_image)].
Definition reader_bytes : list Z :=
  match cache_hash_bytes Debug (x_expand demo) TRead (nd_attrs a_reader) frame0 [] with Ok l => l | Panic => [] end.
Definition crop_bytes : list Z :=
  match cache_hash_bytes Debug (x_expand demo) TCrop (nd_attrs a_crop) frame0 [demo_digest reader_bytes] with
  | Ok l => l | Panic => [] end.
Definition a_setting : setting disk := Setting [reader_bytes; crop_bytes] (bytes_eqb [97]) a_disk 0.

(** The reader feeding the crop; two executions one after the other. *)
Definition pair0 : graph node stream :=
  Graph [a_reader; a_crop] [1; 2] (Stable [true; true] [] [Edge 0 1 0]) stream_new GsDirty ExUninitialized.
Definition executed (g : graph node stream) (w : world disk) :=
  match execute (recording (node_ops Debug demo)) insertion_sort 9 g 2 [frame0] (w, []) with
  | Some (Ok (g, (w, log), _)) => (g, w, log)
  | _ => (g, w, [])
  end.
Definition first_run := executed pair0 (demo_world a_disk 4096).
Definition second_run := executed (fst (fst first_run)) (snd (fst first_run)).

Definition reading (n : node) : Prop := nd_type n = TRead /\ nd_attrs n = nd_attrs a_reader.
Definition cropping (n : node) : Prop := nd_type n = TCrop /\ nd_attrs n = nd_attrs a_crop.

Lemma reading_tame n : reading n -> tame Debug demo a_setting (n, frame0, []).
Proof.
  intros [T A]. unfold tame. cbv zeta. rewrite T, A.
  split; [apply (put_str_wf (default_attrs TRead) "file_path" [97]); [apply default_wf|]; intros c [<-|[]]; lia|].
  split; [exists reader_bytes; split; [vm_compute; reflexivity|now left]|].
  split; [intros _ _; exact I|]. right. split; [reflexivity|]. intros path H. vm_compute in H. injection H as <-. reflexivity.
Qed.
Lemma cropping_tame n s : cropping n -> st_hash s = demo_digest reader_bytes -> nothing_pending s ->
  tame Debug demo a_setting (n, frame0, [s]).
Proof.
  intros [T A] H P. unfold tame. cbv zeta. rewrite T, A. cbn [map]. rewrite H.
  split.
  { apply (put_i32_wf (put_i32 (put_i32 (put_i32 (default_attrs TCrop) "window_min_x" 0) "window_min_y" 0) "window_max_x" 1) "window_max_y" 1); [|lia].
    apply put_i32_wf; [|lia]. apply put_i32_wf; [|lia]. apply put_i32_wf; [|lia]. apply default_wf. }
  split; [exists crop_bytes; split; [vm_compute; reflexivity|right; now left]|].
  split; [intros _ _; exact P|exact I].
Qed.
Lemma run_tame log :
  match log with
  | [(n1, f1, []); (n2, f2, [s])] =>
      reading n1 /\ f1 = frame0 /\ cropping n2 /\ f2 = frame0 /\ st_hash s = demo_digest reader_bytes /\ nothing_pending s
  | _ => False
  end -> Forall (tame Debug demo a_setting) log.
Proof.
  destruct log as [|[[n1 f1] [|]] [|[[n2 f2] [|s [|]]] [|]]]; try (intro F; destruct F; fail). intros (R & -> & C & -> & H & P).
  apply Forall_cons; [now apply reading_tame|]. apply Forall_cons; [now apply cropping_tame|]. apply Forall_nil.
Qed.

Lemma run_session cap g : g = pair0 -> session Debug demo a_setting insertion_sort
  (fun j => match j with O => g | _ => graph_new stream_new end) (demo_world a_disk cap).
Proof.
  intros ->. set (G (k : graph node stream) := fun j : nat => match j with O => k | _ => graph_new stream_new end).
  change (session Debug demo a_setting insertion_sort (G pair0) (demo_world a_disk cap)).
  assert (OTHER : forall k k' j, j <> 0%nat -> G k' j = G k j) by (intros k k' [|j] H; [easy|reflexivity]).
  assert (S0 : session Debug demo a_setting insertion_sort (fun _ => graph_new stream_new) (demo_world a_disk cap)).
  { apply ss_start. intros path _. now split. }
  pose (g1 := Graph [a_reader] [1] (Stable [true] [] []) stream_new GsDirty ExUninitialized).
  pose (g2 := Graph [a_reader; a_crop] [1; 2] (Stable [true; true] [] []) stream_new GsDirty ExUninitialized).
  assert (S1 : session Debug demo a_setting insertion_sort (G g1) (demo_world a_disk cap)).
  { apply (ss_call Debug demo a_setting insertion_sort _ (demo_world a_disk cap) 0 (GAdd a_reader) g1 (demo_world a_disk cap) []) with (1 := S0);
      [split; [reflexivity|exists 0%nat; reflexivity]|constructor|reflexivity|intros [|j] H; [easy|reflexivity]]. }
  assert (S2 : session Debug demo a_setting insertion_sort (G g2) (demo_world a_disk cap)).
  { apply (ss_call Debug demo a_setting insertion_sort _ (demo_world a_disk cap) 0 (GAdd a_crop) g2 (demo_world a_disk cap) []) with (1 := S1);
      [split; [reflexivity|exists 1%nat; reflexivity]|constructor|reflexivity|apply OTHER]. }
  apply (ss_call Debug demo a_setting insertion_sort _ (demo_world a_disk cap) 0 (GConnect 1 2 0) pair0 (demo_world a_disk cap) []) with (1 := S2);
    [split; reflexivity|constructor|reflexivity|apply OTHER].
Qed.

(** The hypotheses of C54 hold of a session in which the second execution takes
    both images from the cache. *)
Example C54_example :
  clean_paths (x_expand demo) /\ no_collisions (x_digest demo) (used a_setting) /\ digest_u64 (x_digest demo) /\
  (forall l, In l (used a_setting) -> x_digest demo l <> 0) /\ keeps_sources demo a_setting /\
  exists G w g' w' log st,
    session Debug demo a_setting insertion_sort G w /\
    execute (recording (node_ops Debug demo)) insertion_sort 9 (G 0%nat) 2 [frame0] (w, []) = Some (Ok (g', (w', log), st)) /\
    length log = 2%nat /\ hits (w_cache w') = 2 /\ Forall (tame Debug demo a_setting) log.
Proof.
  split; [intros v H I; specialize (H _ I); lia|].
  split; [apply collision_check; vm_compute; reflexivity|].
  split; [intro a; unfold x_digest, demo, demo_digest; rewrite <- fold_left_rev_right;
          destruct (rev a); cbn [fold_right]; [vm_compute; split; [discriminate|reflexivity]|apply Z.mod_pos_bound; reflexivity]|].
  split; [intros l [<-|[<-|[]]]; vm_compute; discriminate|].
  split.
  { intros d path img co S DO q Q. specialize (DO q Q). cbn [demo x_write fst x_kind x_read disk_find] in *.
    assert (bytes_eqb path q = false) as ->; [|exact DO].
    destruct (bytes_eqb path q) eqn:B; [|reflexivity]. apply bytes_eqb_true in B. subst q.
    cbn [a_setting sources] in S, Q. congruence. }
  exists (fun j => match j with O => fst (fst first_run) | _ => graph_new stream_new end), (snd (fst first_run)).
  exists (fst (fst second_run)), (snd (fst second_run)), (snd second_run), ExSuccess.
  assert (FIRST : execute (recording (node_ops Debug demo)) insertion_sort 9 pair0 2 [frame0] (demo_world a_disk 4096, [])
    = Some (Ok (fst (fst first_run), (snd (fst first_run), snd first_run), ExSuccess))) by (vm_compute; reflexivity).
  assert (T1 : Forall (tame Debug demo a_setting) (snd first_run)) by (apply run_tame; vm_compute; repeat split).
  split.
  - refine (ss_call Debug demo a_setting insertion_sort _ _ 0 (GExecute 2 [frame0]) _ _ (snd first_run) _
      (run_session 4096 pair0 eq_refl) _ T1 eq_refl _).
    + exists 9%nat, ExSuccess. exact FIRST.
    + intros [|j] H; [easy|reflexivity].
  - split; [vm_compute; reflexivity|]. split; [vm_compute; reflexivity|]. split; [vm_compute; reflexivity|].
    apply run_tame. vm_compute. repeat split.
Qed.

(* ------------------------------ the guards matter ------------------------------ *)

(** A grade feeding a crop that uses the cache: its first execution shows the
    cropped image, the second the cropped image with the grade pending again. *)
Definition graded_crop : graph node stream :=
  Graph [setup TGrade 1 [WF32 "multiply_r" 1073741824]; a_crop] [1; 2] (Stable [true; true] [] [Edge 0 1 0]) stream_new GsDirty
    ExUninitialized.
Theorem C54_pending_refuted :
  exists g w g' w' g0 w0,
    execute (node_ops Debug demo) insertion_sort 9 graded_crop 2 [frame0] (demo_world [] 4096) = Some (Ok (g, w, ExSuccess)) /\
    execute (node_ops Debug demo) insertion_sort 9 g 2 [frame0] w = Some (Ok (g', w', ExSuccess)) /\
    execute (node_ops Debug demo) insertion_sort 9 g 2 [frame0] (no_cache (w_disk w)) = Some (Ok (g0, w0, ExSuccess)) /\
    st_ops (g_output g0) = [] /\ length (st_ops (g_output g')) = 1%nat /\ st_block (g_output g') = st_block (g_output g0).
Proof.
  eexists _, _, _, _, _, _. split; [vm_compute; reflexivity|]. split; [vm_compute; reflexivity|].
  split; [vm_compute; reflexivity|]. vm_compute. auto.
Qed.
Print Assumptions C54_pending_refuted.

(** A file replaced on disk: the cached image goes on being shown. *)
Definition other_disk : disk := [([97], Shared color_bars (BBox 0 0 4 4) (BBox 0 0 4 4) spec_new)].
Theorem C54_replaced_file_refuted :
  exists g w g' w' g0 w0,
    execute (node_ops Debug demo) insertion_sort 9 pair0 1 [frame0] (demo_world a_disk 4096) = Some (Ok (g, w, ExSuccess)) /\
    execute (node_ops Debug demo) insertion_sort 9 g 1 [frame0] (World (w_cache w) other_disk) = Some (Ok (g', w', ExSuccess)) /\
    execute (node_ops Debug demo) insertion_sort 9 g 1 [frame0] (no_cache other_disk) = Some (Ok (g0, w0, ExSuccess)) /\
    pb_size (st_block (g_output g')) = BS 1 1 3 /\ pb_size (st_block (g_output g0)) = BS 4 4 3.
Proof.
  eexists _, _, _, _, _, _. split; [vm_compute; reflexivity|]. split; [vm_compute; reflexivity|].
  split; [vm_compute; reflexivity|]. vm_compute. auto.
Qed.
Print Assumptions C54_replaced_file_refuted.

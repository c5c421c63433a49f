(** C65: executing sensibly set nodes does not abort the process. *)
From Coq Require String.
Import String.StringSyntax.
From Coq Require Import Floats.SpecFloat.
From Verif Require Import Machine CacheModel CacheSpec FloatModel BBoxModel BBoxSpec PixelModel PixelSpec MergeSpec EnumModel AttrModel
  HashModel HashSpec HashProofs StreamModel DeformModel BakeModel GraphModel GraphSpec GraphPlay NodeModel NodeExamples IsoSpec
  SafeSpec SafeProofs SafeFacts PropertiesNode.
Local Open Scope string_scope.

(** Executing any node of any graph of sensibly set nodes, tree-shaped or
    levelled upstream of it, returns; the nodes stay sensibly set and the
    output, cache and disk stay fine. *)
Theorem C65_no_abort : forall D p (x : externals D) B ok_disk srt, sorts srt -> roomy B -> sane x B ok_disk ->
  forall s0 c0 h g c id frames w, history (node_ops p x) srt s0 c0 h g c ->
  well_shaped g id -> careful_graph p B g -> fine_stream B (g_output g) -> fine_world p B ok_disk w ->
  exists fuel0 g' w' st,
    (forall fuel, (fuel0 <= fuel)%nat -> execute (node_ops p x) srt fuel g id frames w = Some (Ok (g', w', st))) /\
    careful_graph p B g' /\ fine_stream B (g_output g') /\ fine_world p B ok_disk w'.
Proof. intros D p x B ok_disk srt. exact (no_abort p x B ok_disk srt). Qed.
Print Assumptions C65_no_abort.

(** So does any number of executions one after the other. *)
Theorem C65_session : forall D p (x : externals D) B ok_disk srt, sorts srt -> roomy B -> sane x B ok_disk ->
  forall qs s0 c0 h g w, history (node_ops p x) srt s0 c0 h g w ->
  (forall q, In q qs -> well_shaped g (fst q)) -> careful_graph p B g -> fine_stream B (g_output g) -> fine_world p B ok_disk w ->
  exists g' w', then_calls (node_ops p x) srt (map (fun q => GExecute (fst q) (snd q)) qs) g w g' w' /\
    careful_graph p B g' /\ fine_stream B (g_output g') /\ fine_world p B ok_disk w'.
Proof. intros D p x B ok_disk srt. exact (whole_session p x B ok_disk srt). Qed.
Print Assumptions C65_session.

(** Whatever the shape: the process aborts exactly if the traversal from the
    node visits some node before another one it feeds. *)
Theorem C65_aborts_only_by_order : forall D p (x : externals D) B ok_disk srt, sorts srt -> roomy B -> sane x B ok_disk ->
  forall s0 c0 h g c id start frames w, history (node_ops p x) srt s0 c0 h g c ->
  find_index g id = Some start -> sg_live (g_graph g) start = true -> frames <> [] ->
  careful_graph p B g -> fine_stream B (g_output g) -> fine_world p B ok_disk w ->
  exists l, all_upstream srt (g_graph g) start = Ok l /\
    ((exists fuel, execute (node_ops p x) srt fuel g id frames w = Some Panic) <->
     exists l1 m l2 n l3, map fst l = (l1 ++ m :: l2 ++ n :: l3)%list /\ link (g_graph g) m n).
Proof. intros D p x B ok_disk srt. exact (only_by_order p x B ok_disk srt). Qed.
Print Assumptions C65_aborts_only_by_order.

(* ------------------------------ examples ------------------------------ *)

Definition area : bbox := BBox (-10) (-10) 100 100.
Definition fine_disk (d : disk) : Prop := forall path i, disk_find path d = Some i -> fine_image area i.
Lemma area_roomy : roomy area.
Proof. unfold roomy, two31. cbn [area min_x min_y max_x max_y]. lia. Qed.
Lemma demo_sane : sane demo area fine_disk.
Proof.
  split.
  - intros d path H. cbn [demo x_kind x_read]. destruct (disk_find path d) as [i|] eqn:E; [|discriminate]. intros _. exact (H path i E).
  - intros d path img co H F. cbn [demo x_write fst]. intros q i. cbn [disk_find]. destruct (bytes_eqb path q); [intros [= <-]; exact F|apply H].
  - intros src f i F. exact F.
  - intros. discriminate.
Qed.

Definition ok_write (w : awrite) : Prop :=
  match w with
  | WI32 _ v => - 2 ^ 31 <= v < 2 ^ 31
  | WF32 _ v => 0 <= v < 2 ^ 32
  | WStr _ v => forall c, In c v -> 0 <= c < 255
  end.
Lemma setup_wf ws : forall n, HashSpec.wf_block (nd_attrs n) -> (forall w, In w ws -> ok_write w) ->
  HashSpec.wf_block (nd_attrs (fold_left node_write ws n)).
Proof.
  induction ws as [|w ws IH]; intros n W OK; [exact W|]. cbn [fold_left]. apply IH; [|intros w' H; apply OK; now right].
  specialize (OK w (or_introl eq_refl)).
  destruct w; cbn [node_write ok_write] in *; unfold node_set_i32, node_set_f32, node_set_str;
    destruct (attr_exists (arms_of (nd_type n)) name); cbn [with_attrs nd_attrs]; try exact W;
    unfold blk_set_i32, blk_set_f32, blk_set_str; destruct (arm _ name); try exact W;
    [apply put_i32_wf|apply put_f32_wf|apply put_str_wf]; assumption.
Qed.

Definition safe_read : node := setup TRead 1 [WStr "file_path" [97]].
Definition safe_grade : node := setup TGrade 2 [WF32 "multiply_r" 1073741824].
Definition safe_other : node := setup TRead 3 [WStr "file_path" [98]].
Definition safe_merge : node := setup TMerge 4 [].
Definition safe_crop : node := setup TCrop 5 [WI32 "enable" 1; WI32 "window_min_x" (-5); WI32 "window_min_y" (-5); WI32 "window_max_x" 5; WI32 "window_max_y" 5;
                                              WI32 "reformat" 1; WI32 "black_outside" 0].
Definition safe_write : node := setup TWrite 6 [WStr "file_path" [99]; WI32 "execute" 1].
Definition safe_move : node := setup TTransform 7 [WI32 "enable" 1; WF32 "translate_x" 1056964608].
Definition safe_graph : graph node stream :=
  Graph [safe_read; safe_grade; safe_other; safe_merge; safe_crop; safe_write; safe_move] [1; 2; 3; 4; 5; 6; 7]
    (Stable [true; true; true; true; true; true; true] [] [Edge 4 5 0; Edge 3 4 0; Edge 6 3 1; Edge 2 6 0; Edge 1 3 0; Edge 0 1 0])
    stream_new GsDirty ExUninitialized.
Definition safe_calls : list (gcall node spec_float awrite) :=
  [GAdd safe_read; GAdd safe_grade; GAdd safe_other; GAdd safe_merge; GAdd safe_crop; GAdd safe_write; GAdd safe_move;
   GConnect 1 2 0; GConnect 2 4 0; GConnect 3 7 0; GConnect 7 4 1; GConnect 4 5 0; GConnect 5 6 0].
Definition blank : shared :=
  Shared (PB (BS 2 1 4) (DF32 [f32_zero; f32_one; f32_zero; f32_one; f32_zero; f32_one; f32_zero; f32_one])) (BBox 0 0 4 4) (BBox 1 1 3 2) spec_new.
Definition safe_disk : disk := [([97], dot_image); ([98], blank)].

Lemma safe_world : fine_world Debug area fine_disk (demo_world safe_disk 193600).
Proof.
  split.
  - split; [intros k i []|]. intros _. cbn. split; [constructor|]. repeat split; lia.
  - intros path i. cbn [demo_world w_disk safe_disk disk_find].
    destruct (bytes_eqb [97] path); [intros [= <-]|destruct (bytes_eqb [98] path); [intros [= <-]|discriminate]].
    all: unfold fine_image, fine_block, PixelSpec.wf_block, placed, within, window_in; cbn; repeat split; try lia; try reflexivity; auto.
Qed.

Example C65_example :
  exists c, history (node_ops Debug demo) insertion_sort stream_new (demo_world safe_disk 193600) safe_calls safe_graph c /\
    well_shaped safe_graph 6 /\ careful_graph Debug area safe_graph /\ fine_stream area (g_output safe_graph) /\
    match execute (node_ops Debug demo) insertion_sort 99 safe_graph 6 [frame0] (demo_world safe_disk 193600) with
    | Some (Ok (g', w', ExSuccess)) => length (w_disk w') = 3%nat
    | _ => False
    end.
Proof.
  exists (demo_world safe_disk 193600).
  assert (E : played (node_ops Debug demo) insertion_sort 99 stream_new (demo_world safe_disk 193600) safe_calls
    = Some (safe_graph, demo_world safe_disk 193600)) by (vm_compute; reflexivity).
  split; [exact (played_history _ _ _ _ _ _ _ _ E)|]. clear E.
  assert (LK : forall m n, link (g_graph safe_graph) m n ->
    (m = 4 /\ n = 5 \/ m = 3 /\ n = 4 \/ m = 6 /\ n = 3 \/ m = 2 /\ n = 6 \/ m = 1 /\ n = 3 \/ m = 0 /\ n = 1)%nat).
  { intros m n (s & H). cbn in H. destruct H as [H|[H|[H|[H|[H|[H|[]]]]]]]; injection H as <- <- _; auto 12. }
  split.
  { intros start FI. injection FI as <-. split; [reflexivity|right]. split.
    - intros m n n' _ _ L1 L2 _ _. apply LK in L1, L2. lia.
    - intros n _ L. apply LK in L. lia. }
  split.
  { assert (W : forall t id ws, (forall w, In w ws -> ok_write w) -> HashSpec.wf_block (nd_attrs (setup t id ws)))
      by (intros t id ws H; unfold setup; apply setup_wf; [apply default_wf|exact H]).
    intros i n ms N _. destruct i as [|[|[|[|[|[|[|i]]]]]]]; try (injection N as <-).
    - split; [apply W; intros w [<-|[]] c [<-|[]]; lia|exact I].
    - split; [apply W; intros w [<-|[]]; cbn; lia|exact I].
    - split; [apply W; intros w [<-|[]] c [<-|[]]; lia|exact I].
    - split; [apply W; intros w []|exact I].
    - split; [apply W; intros w H; repeat (destruct H as [<-|H]; [cbn; lia|]); destruct H|].
      intros _. split; [vm_compute; discriminate|].
      change (within (BBox (-5) (-5) 5 5) area). unfold within, window_in. cbn. lia.
    - split; [apply W; intros w [<-|[<-|[]]]; [intros c [<-|[]]; lia|cbn; lia]|]. intros _ _. vm_compute. discriminate.
    - split; [apply W; intros w [<-|[<-|[]]]; cbn; lia|exact I].
    - destruct i; discriminate N. }
  split; [apply fine_new, area_roomy|]. vm_compute. reflexivity.
Qed.

(* ------------------------ each guard is needed ------------------------ *)

(** Nodes numbered 1, 2, ... each feeding the next; executing the last aborts. *)
Definition line (ns : list (node_type * list awrite)) : list (gcall node spec_float awrite) :=
  (map (fun q => GAdd (setup (fst (snd q)) (Z.of_nat (fst q)) (snd (snd q)))) (List.combine (seq 1 (length ns)) ns) ++
   map (fun i => GConnect (Z.of_nat i) (Z.of_nat (S i)) 0) (seq 1 (length ns - 1)))%list.
Definition aborts (p : profile) (x : externals disk) (calls : list (gcall node spec_float awrite)) (id : Z) (w : world disk) : Prop :=
  exists g c, history (node_ops p x) insertion_sort stream_new w calls g c /\
    execute (node_ops p x) insertion_sort 99 g id [frame0] c = Some Panic.
Definition abortsb (p : profile) (x : externals disk) calls id w : bool :=
  match played (node_ops p x) insertion_sort 99 stream_new w calls with
  | Some (g, c) => match execute (node_ops p x) insertion_sort 99 g id [frame0] c with Some Panic => true | _ => false end
  | None => false
  end.
Lemma abortsb_ok p x calls id w : abortsb p x calls id w = true -> aborts p x calls id w.
Proof.
  unfold abortsb, aborts. destruct (played _ _ _ _ _ _) as [[g c]|] eqn:E; [|discriminate]. intro H.
  exists g, c. split; [exact (played_history _ _ _ _ _ _ _ _ E)|].
  destruct (execute _ _ _ _ _ _ _) as [[?|]|]; try discriminate H. reflexivity.
Qed.

Definition on_a : node_type * list awrite := (TRead, [WStr "file_path" [97]]).
Definition out_c : node_type * list awrite := (TWrite, [WStr "file_path" [99]; WI32 "execute" 1]).

(** A picture cropped to an empty window, moved, then written. *)
Theorem C65_empty_crop_refuted : forall p,
  aborts p demo (line [on_a; (TCrop, [WI32 "enable" 1; WI32 "window_max_x" 0; WI32 "window_max_y" 0; WI32 "black_outside" 0]);
                       (TTransform, [WI32 "enable" 1]); out_c]) 4 (demo_world safe_disk 193600).
Proof. intros []; apply abortsb_ok; vm_compute; reflexivity. Qed.
Print Assumptions C65_empty_crop_refuted.

(** A file that exists but cannot be decoded: the read node leaves a picture
    without channels, and the next node that bakes aborts. *)
Definition undecodable : externals disk :=
  Externals (x_expand demo) (x_digest demo) (x_numerics demo) (x_convert demo) (x_resample demo) (x_lens_ok demo)
    (fun _ _ => RegularFile) (fun _ _ img => img) (x_write demo).
Theorem C65_undecodable_file_refuted : forall p,
  aborts p undecodable (line [on_a; out_c]) 2 (demo_world safe_disk 193600).
Proof. intros []; apply abortsb_ok; vm_compute; reflexivity. Qed.
Print Assumptions C65_undecodable_file_refuted.

(** A grey picture as the background of a merge. *)
Definition grey : shared := Shared (PB (BS 1 1 1) (DF32 [f32_one])) (BBox 0 0 1 1) (BBox 0 0 1 1) spec_new.
Theorem C65_grey_merge_refuted : forall p,
  aborts p demo (line [on_a; (TMerge, [])]) 2 (demo_world [([97], grey)] 193600).
Proof. intros []; apply abortsb_ok; vm_compute; reflexivity. Qed.
Print Assumptions C65_grey_merge_refuted.

(** A crop with a black border. *)
Theorem C65_black_border_refuted : forall p,
  aborts p demo (line [on_a; (TCrop, [WI32 "enable" 1; WI32 "window_max_x" 5; WI32 "window_max_y" 5; WI32 "black_outside" 1])]) 2
    (demo_world safe_disk 193600).
Proof. intros []; apply abortsb_ok; vm_compute; reflexivity. Qed.
Print Assumptions C65_black_border_refuted.

(** A viewer with an unknown bake option, a writer with an unknown crop option. *)
Theorem C65_unknown_options_refuted : forall p,
  aborts p demo (line [on_a; (TViewer, [WI32 "enable" 1; WI32 "bake_option" 9])]) 2 (demo_world safe_disk 193600) /\
  aborts p demo (line [on_a; (TWrite, [WStr "file_path" [99]; WI32 "execute" 1; WI32 "crop_on_write" 9])]) 2 (demo_world safe_disk 193600).
Proof. intros []; split; apply abortsb_ok; vm_compute; reflexivity. Qed.
Print Assumptions C65_unknown_options_refuted.

(** An active lens whose parameters the plug-in refuses. *)
Definition no_lens : externals disk :=
  Externals (x_expand demo) (x_digest demo) (x_numerics demo) (x_convert demo) (x_resample demo) (fun _ => false)
    (x_kind demo) (x_read demo) (x_write demo).
Theorem C65_lens_refuted : forall p,
  aborts p no_lens (line [on_a; (TLens, [WI32 "enable" 1])]) 2 (demo_world safe_disk 193600).
Proof. intros []; apply abortsb_ok; vm_compute; reflexivity. Qed.
Print Assumptions C65_lens_refuted.

(** In debug builds only: a cache smaller than the picture, and a resampler
    with two inputs. *)
Theorem C65_small_cache_refuted : aborts Debug demo (line [on_a]) 1 (demo_world safe_disk 1).
Proof. apply abortsb_ok; vm_compute; reflexivity. Qed.
Print Assumptions C65_small_cache_refuted.
Theorem C65_two_inputs_refuted :
  aborts Debug demo (line [on_a; (TRead, []); (TResample, [WI32 "enable" 1])] ++ [GConnect 1 3 1])%list 3 (demo_world safe_disk 193600).
Proof. apply abortsb_ok; vm_compute; reflexivity. Qed.
Print Assumptions C65_two_inputs_refuted.

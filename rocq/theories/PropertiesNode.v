(** C37, C38, C50, C53: what nodes ask of each other, warm caches, failing
    writers and baking viewers. *)
From Coq Require String.
Import String.StringSyntax.
From Coq Require Import Floats.SpecFloat.
From Verif Require Import Machine CacheModel FloatModel BBoxModel PixelModel MergeModel MergeSpec EnumModel AttrModel HashModel
  StreamModel DeformModel BakeModel GraphModel GraphSpec GraphFacts NodeModel NodeExamples NodeSpec NodeProofs NodePair
  NodeProofs2 NodeProofs3 ViewSpec ViewProofs.
Local Open Scope string_scope.

(** A node with some attributes set, and its attributes. *)
Definition setup (t : node_type) (id : Z) (ws : list awrite) : node := fold_left node_write ws (create_node t id).
Definition attrs (t : node_type) (ws : list awrite) : block := nd_attrs (setup t 1 ws).
Definition frame0 : spec_float := S754_zero false.

(* ------------------------------ C37 ------------------------------ *)

(** If a node computed its image under key [h] and left it in the cache, then
    computing the same again from any cache that holds the image gives the same
    status and stream, provided the input is settled (see [settled]). *)
Theorem C37_warm_equals_cold_partial :
  forall (D : Type) p (x : externals D) t b fr h mode ins out w0 st s w1 img w,
  settled x t b ins -> misses w0 h -> compute_op p x t b fr h mode ins out w0 = Ok (st, s, w1) ->
  holds w1 h img -> holds w h img -> w_disk w = w_disk w0 ->
  exists w2, compute_op p x t b fr h mode ins out w = Ok (st, s, w2).
Proof. intros D. exact warm_cold. Qed.
Print Assumptions C37_warm_equals_cold_partial.

Definition c37_crop : block :=
  attrs TCrop [WI32 "window_min_x" 1; WI32 "window_min_y" 1; WI32 "window_max_x" 3; WI32 "window_max_y" 2].
Example C37_example :
  settled demo TCrop c37_crop [stream_new] /\
  misses (demo_world [] 4096) 77 /\
  exists s w1 img, compute_op Debug demo TCrop c37_crop frame0 77 mode_all [stream_new] stream_new (demo_world [] 4096)
                   = Ok (NsValid, s, w1) /\ holds w1 77 img /\ bs_w (pb_size (st_block s)) = 2.
Proof.
  split; [repeat split|]. split; [reflexivity|]. eexists _, _, _. split; [vm_compute; reflexivity|].
  split; vm_compute; reflexivity.
Qed.

(** The unrestricted statement: a second computation with the same arguments,
    right after the first, gives the same status and stream. *)
Definition C37_statement : Prop :=
  forall (D : Type) p (x : externals D) t b fr h mode ins out (w0 : world D) st s w1 st' s' w2,
  compute_op p x t b fr h mode ins out w0 = Ok (st, s, w1) -> w_disk w1 = w_disk w0 ->
  compute_op p x t b fr h mode ins out w1 = Ok (st', s', w2) -> (st', s') = (st, s).

(** Crop: the cold run consumes the pending grade, the warm run leaves it. *)
Definition graded : stream := push_color_op stream_new (grade_op (attrs TGrade [])).
Theorem C37_crop_refuted :
  exists s w1 s' w2,
    compute_op Debug demo TCrop c37_crop frame0 77 mode_all [graded] stream_new (demo_world [] 4096) = Ok (NsValid, s, w1)
    /\ compute_op Debug demo TCrop c37_crop frame0 77 mode_all [graded] stream_new w1 = Ok (NsValid, s', w2)
    /\ st_block s' = st_block s /\ st_ops s = [] /\ st_ops s' = st_ops graded.
Proof. eexists _, _, _, _. split; [vm_compute; reflexivity|]. split; [vm_compute; reflexivity|]. vm_compute. auto. Qed.
Print Assumptions C37_crop_refuted.

(** Viewer baking colour space and grade: likewise. *)
Definition c37_viewer : block := attrs TViewer [WI32 "enable" 1; WI32 "bake_option" 2; WI32 "use_cache" 1].
Theorem C37_viewer_refuted :
  exists s w1 s' w2,
    compute_op Debug demo TViewer c37_viewer frame0 77 mode_all [graded] stream_new (demo_world [] 4096) = Ok (NsValid, s, w1)
    /\ compute_op Debug demo TViewer c37_viewer frame0 77 mode_all [graded] stream_new w1 = Ok (NsValid, s', w2)
    /\ st_block s' = st_block s /\ st_ops s = [] /\ st_ops s' = st_ops graded.
Proof. eexists _, _, _, _. split; [vm_compute; reflexivity|]. split; [vm_compute; reflexivity|]. vm_compute. auto. Qed.
Print Assumptions C37_viewer_refuted.

(** Resample: the failed image is cached; the second run says valid. *)
Definition failing_resample : externals disk :=
  Externals (x_expand demo) (x_digest demo) (x_numerics demo) (x_convert demo) (fun _ dst _ _ => (false, dst))
            (x_lens_ok demo) (x_kind demo) (x_read demo) (x_write demo).
Definition c37_resample : block := attrs TResample [WI32 "factor" 2].
Theorem C37_resample_refuted :
  exists s w1 s' w2,
    compute_op Release failing_resample TResample c37_resample frame0 77 mode_all [stream_new] stream_new (demo_world [] 4096)
      = Ok (NsError, s, w1)
    /\ compute_op Release failing_resample TResample c37_resample frame0 77 mode_all [stream_new] stream_new w1
      = Ok (NsValid, s', w2).
Proof. eexists _, _, _, _. split; [vm_compute; reflexivity|]. vm_compute. reflexivity. Qed.
Print Assumptions C37_resample_refuted.

Theorem C37_refuted : ~ C37_statement.
Proof.
  intro S. destruct C37_crop_refuted as (s & w1 & s' & w2 & C1 & C2 & _ & O1 & O2).
  assert (DK : w_disk w1 = w_disk (demo_world [] 4096)).
  { revert C1. vm_compute. intros [= _ <-]. reflexivity. }
  pose proof (S _ _ _ _ _ _ _ _ _ _ _ _ _ _ _ _ _ C1 DK C2) as E. injection E as ->.
  rewrite O1 in O2. vm_compute in O2. discriminate O2.
Qed.
Print Assumptions C37_refuted.

(* ------------------------------ C38 ------------------------------ *)

(** One compute mode per input. *)
Theorem C38_one_mode_per_input : forall t b mode n l, validate_op t b mode n = Ok l -> length l = n.
Proof. exact validate_length. Qed.
Print Assumptions C38_one_mode_per_input.

(** Never more than what was requested. *)
Theorem C38_subset : forall t b mode n l, (t = TViewer -> gi TViewer b "enable" <> 0) ->
  validate_op t b mode n = Ok l -> Forall (within mode) l.
Proof. exact validate_within. Qed.
Print Assumptions C38_subset.

(** Only the leading [reads t] inputs are asked for anything (all nodes but
    Read)... *)
Theorem C38_unread_inputs_partial : forall t b mode n l i m, t <> TRead -> validate_op t b mode n = Ok l ->
  nth_error l i = Some m -> m <> 0 -> (i < reads t)%nat.
Proof. exact validate_unread. Qed.
Print Assumptions C38_unread_inputs_partial.

(** ...and these are the inputs the computation uses. *)
Theorem C38_reads : forall (D : Type) p (x : externals D) t b fr h mode ins ins' out w,
  firstn (reads t) ins = firstn (reads t) ins' ->
  (t = TResample -> p = Debug -> length ins = length ins') ->
  compute_op p x t b fr h mode ins out w = compute_op p x t b fr h mode ins' out w.
Proof. intros D. exact compute_reads. Qed.
Print Assumptions C38_reads.

(** Validation crashes for viewers with an invalid bake option only. *)
Theorem C38_panics_iff : forall t b mode n, validate_op t b mode n = Panic <->
  t = TViewer /\ n <> O /\ gi TViewer b "enable" <> 0 /\ told_to_bake b BakeUninitialized.
Proof. exact viewer_panics_iff. Qed.
Print Assumptions C38_panics_iff.

(** A viewer asks its first input for all that was requested but what it is told
    to bake, and the others for nothing. *)
Theorem C38_viewer : forall b o mode n, gi TViewer b "enable" <> 0 -> told_to_bake b o -> o <> BakeUninitialized ->
  exists m, validate_op TViewer b mode (S n) = Ok (m :: repeat 0 n) /\
    forall k, Z.testbit m k = Z.testbit mode k && Z.testbit mode_all k && negb (Z.testbit (baked_parts o) k).
Proof. exact viewer_asks. Qed.
Print Assumptions C38_viewer.
Example C38_viewer_example : told_to_bake (attrs TViewer [WI32 "bake_option" 1; WI32 "crop_to_format" 1]) BakeAll /\
  told_to_bake (attrs TViewer [WI32 "bake_option" 1]) BakeColorSpace.
Proof. split; vm_compute; [right; split; discriminate|split; reflexivity]. Qed.

(** A Read node uses no input but asks its first one for everything. *)
Theorem C38_read_refuted : exists b l m, validate_op TRead b mode_all 2 = Ok l
  /\ nth_error l (reads TRead) = Some m /\ m = mode_all.
Proof. exists (attrs TRead []). eexists _, _. split; [reflexivity|]. split; reflexivity. Qed.
Print Assumptions C38_read_refuted.

(** A disabled viewer asked for nothing asks for everything. *)
Theorem C38_disabled_viewer_refuted :
  exists b l, validate_op TViewer b 0 1 = Ok l /\ ~ Forall (within 0) l.
Proof.
  exists (attrs TViewer [WI32 "enable" 0]). eexists. split; [reflexivity|].
  intro F. inversion F as [|m l W]; subst. specialize (W 0 eq_refl). discriminate W.
Qed.
Print Assumptions C38_disabled_viewer_refuted.

Example C38_example : validate_op TMerge (attrs TMerge []) 5 3 = Ok [5; 5; 0]
  /\ validate_op TViewer c37_viewer mode_all 2 = Ok [m_pixel + m_deformer; 0].
Proof. split; reflexivity. Qed.

(* ------------------------------ C49 ------------------------------ *)

(** Backgrounds that carry no enabled lens distortion are merged at their baked
    window. *)
Theorem C49_merge_placement_partial :
  forall (D : Type) p (x : externals D) a b mode mix,
  no_lens_pending b -> exact_window (st_data b) ->
  merge_process p x a b mode mix =
  match merged_streams p x a b mode mix with
  | Ok (Some img) => Ok (img, tt)
  | Ok None => Ok (with_plain merge_start spec_new, tt)
  | Panic => Panic
  end.
Proof. intros D. exact merge_process_spec. Qed.
Print Assumptions C49_merge_placement_partial.

(** Always: the window comes from the foreground's baked window and the
    background's window from before the bake. *)
Theorem C49_merge_uses_unbaked_window :
  forall (D : Type) p (x : externals D) a b mode mix img u ra, known_mode mode ->
  merge_process p x a b mode mix = Ok (img, u) ->
  do_process p (x_numerics x) (x_convert x) BakeAll (st_block a) (st_display a) (st_data a)
              (st_spec a) a (sp_color_space (st_spec a)) linear_name Float32 = Ok ra ->
  sh_data img = combine (bk_data ra) (st_data b).
Proof. intros D. exact merge_window. Qed.
Print Assumptions C49_merge_uses_unbaked_window.

(** A background with lens distortion: its baked window is (-2,-2)-(6,6), the
    merged image is only (0,0)-(4,4). *)
Definition lensed : stream := push_deformer stream_new (DTde4 (lens_op (attrs TLens [WI32 "enable" 1]))).
Theorem C49_refuted :
  exists img img',
    merge_process Debug demo stream_new lensed MOver 1065353216 = Ok (img, tt)
    /\ merged_streams Debug demo stream_new lensed MOver 1065353216 = Ok (Some img')
    /\ sh_data img = BBox 0 0 4 4 /\ sh_data img' = BBox (-2) (-2) 6 6.
Proof. eexists _, _. split; [vm_compute; reflexivity|]. split; [vm_compute; reflexivity|]. split; reflexivity. Qed.
Print Assumptions C49_refuted.
Example C49_example :
  let b := push_deformer stream_new (DTransform (transform_op (attrs TTransform []))) in
  no_lens_pending b /\ exact_window (st_data b) /\
  exists img, merge_process Debug demo graded b MOver 1065353216 = Ok (img, tt).
Proof.
  split; [intros v [I|[]]; discriminate I|]. split; [vm_compute; repeat split; reflexivity|].
  eexists. vm_compute. reflexivity.
Qed.

(* ------------------------------ C50 ------------------------------ *)

(** Whatever the writer does, and so whether or not it fails, the write node
    reports the same status and stream, and the status is not an error. *)
Theorem C50_writer_outcome_ignored :
  forall (D : Type) p (x : externals D) f f' b fr h mode ins out w st s w1,
  compute_op p (with_writer x f) TWrite b fr h mode ins out w = Ok (st, s, w1) ->
  st <> NsError /\
  exists w2, compute_op p (with_writer x f') TWrite b fr h mode ins out w = Ok (st, s, w2)
             /\ w_cache w2 = w_cache w1.
Proof. intros D. exact write_blind. Qed.
Print Assumptions C50_writer_outcome_ignored.

(** The execution of read -> write reports success although nothing is written. *)
Definition broken_writer : externals disk := with_writer demo (fun d _ _ _ => (d, false)).
Definition dot_image : shared :=
  Shared (PB (BS 1 1 3) (DF32 [f32_one; f32_zero; f32_one])) (BBox 0 0 1 1) (BBox 0 0 1 1) spec_new.
Definition dot_disk : disk := [([97], dot_image)].
Definition dot_reader : node := setup TRead 1 [WStr "file_path" [97]].
Theorem C50_refuted :
  exists wr g w,
    execute (node_ops Debug broken_writer) insertion_sort 9
      (pair_graph (node_ops Debug broken_writer) dot_reader wr 0 stream_new GsDirty ExUninitialized)
      2 [frame0] (demo_world dot_disk 4096)
    = Some (Ok (g, w, ExSuccess))
    /\ nd_type wr = TWrite /\ blk_get_i32 (arms_of TWrite) (nd_attrs wr) "execute" = 1
    /\ w_disk w = dot_disk
    /\ map nd_status (g_nodes g) = [status_code NsValid; status_code NsValid].
Proof.
  exists (setup TWrite 2 [WStr "file_path" [98]; WI32 "execute" 1; WI32 "enable" 1]). eexists _, _.
  split; [vm_compute; reflexivity|]. vm_compute. auto.
Qed.
Print Assumptions C50_refuted.
Example C50_working_writer :
  exists wr g w, nd_type wr = TWrite /\
    execute (node_ops Debug demo) insertion_sort 9
      (pair_graph (node_ops Debug demo) dot_reader wr 0 stream_new GsDirty ExUninitialized)
      2 [frame0] (demo_world dot_disk 4096)
    = Some (Ok (g, w, ExSuccess)) /\ disk_find [98] (w_disk w) <> None.
Proof.
  exists (setup TWrite 2 [WStr "file_path" [98]; WI32 "execute" 1; WI32 "enable" 1]). eexists _, _.
  split; [reflexivity|]. split; [vm_compute; reflexivity|]. vm_compute. discriminate.
Qed.

(* ------------------------------ C53 ------------------------------ *)

(** Read -> viewer with a bake option other than "everything": the viewer bakes
    what the reader reads. *)
Theorem C53_viewer_bakes_file_partial :
  forall (D : Type) p (x : externals D) srt, sorts srt ->
  forall fuel rd vw o slot out s e fr w rd' str sr w1 vw' st sb w2,
  nd_type rd = TRead -> nd_type vw = TViewer -> nd_id rd <> nd_id vw ->
  gi TViewer (nd_attrs vw) "enable" <> 0 ->
  told_to_bake (nd_attrs vw) o -> o <> BakeAll -> o <> BakeUninitialized ->
  node_compute p x rd fr mode_all [] out w = Ok (rd', str, sr, w1) ->
  node_compute p x vw fr mode_all [sr] sr w1 = Ok (vw', st, sb, w2) ->
  (str = NsValid \/ str = NsWarning) -> (st = NsValid \/ st = NsWarning) ->
  exists g', execute (node_ops p x) srt (3 + fuel) (pair_graph (node_ops p x) rd vw slot out s e) (nd_id vw) [fr] w
             = Some (Ok (g', w2, ExSuccess)) /\ g_output g' = sb.
Proof. intros D. exact told_bakes_read. Qed.
Print Assumptions C53_viewer_bakes_file_partial.

(** "Bake everything": the reader is not asked for pixels, so whatever its file
    holds, the viewer bakes the previous output of the graph. *)
Theorem C53_bake_all_rebakes_output :
  forall (D : Type) p (x : externals D) srt, sorts srt ->
  forall fuel rd vw slot out s e fr w kr vw' st sb w2,
  nd_type rd = TRead -> nd_type vw = TViewer -> nd_id rd <> nd_id vw ->
  gi TViewer (nd_attrs vw) "enable" <> 0 -> told_to_bake (nd_attrs vw) BakeAll ->
  cache_hash p (x_expand x) (x_digest x) TRead (nd_attrs rd) fr [] = Ok kr ->
  node_compute p x vw fr mode_all [out] out w = Ok (vw', st, sb, w2) ->
  st = NsValid \/ st = NsWarning ->
  exists g', execute (node_ops p x) srt (3 + fuel) (pair_graph (node_ops p x) rd vw slot out s e) (nd_id vw) [fr] w
             = Some (Ok (g', w2, ExSuccess)) /\ g_output g' = sb.
Proof. intros D. exact told_all_rebakes. Qed.
Print Assumptions C53_bake_all_rebakes_output.

(** A viewer that bakes anything and crops to the format shows its input's
    display window, with nothing left pending, whether or not it stores the
    picture in the cache.  (What it shows when it finds one there: C37, C54.) *)
Theorem C53_cropped : forall (D : Type) p (x : externals D) b h mode s rest out (w : world D) fr st s' w',
  gi TViewer b "enable" = 1 -> gi TViewer b "bake_option" <> 0 -> gi TViewer b "crop_to_format" <> 0 ->
  gi TViewer b "use_cache" = 0 \/ misses w h ->
  compute_op p x TViewer b fr h mode (s :: rest) out w = Ok (st, s', w') ->
  st_display s' = st_display s /\ st_data s' = st_display s /\ nothing_pending s' /\ w_disk w' = w_disk w.
Proof. intros D. exact cropped_view. Qed.
Print Assumptions C53_cropped.
Example C53_cropped_example : misses (demo_world [] 4000) 0 /\ forall u, u = 0 \/ u = 1 -> exists r,
  compute_op Debug demo TViewer (attrs TViewer [WI32 "bake_option" 1; WI32 "crop_to_format" 1; WI32 "use_cache" u]) frame0 0 15
    [set_display_window stream_new (BBox 0 0 2 3)] stream_new (demo_world [] 4000) = Ok r.
Proof. split; [reflexivity|]. intros u [-> | ->]; eexists; vm_compute; reflexivity. Qed.

(** A fresh graph showing a 1x1 file shows the 4x4 colour bars instead. *)
Theorem C53_refuted :
  exists vw g w,
    nd_type vw = TViewer /\ gi TViewer (nd_attrs vw) "enable" = 1 /\
    execute (node_ops Debug demo) insertion_sort 9
      (pair_graph (node_ops Debug demo) dot_reader vw 0 stream_new GsDirty ExUninitialized)
      2 [frame0] (demo_world dot_disk 4096)
    = Some (Ok (g, w, ExSuccess))
    /\ pb_size (st_block (g_output g)) = BS 4 4 3
    /\ pb_size (sh_block dot_image) = BS 1 1 3.
Proof.
  exists (setup TViewer 2 [WI32 "enable" 1; WI32 "bake_option" 3]). eexists _, _.
  split; [reflexivity|]. split; [reflexivity|]. split; [vm_compute; reflexivity|]. split; vm_compute; reflexivity.
Qed.
Print Assumptions C53_refuted.
Example C53_example :
  exists vw g w,
    nd_type vw = TViewer /\ gi TViewer (nd_attrs vw) "enable" = 1 /\
    execute (node_ops Debug demo) insertion_sort 9
      (pair_graph (node_ops Debug demo) dot_reader vw 0 stream_new GsDirty ExUninitialized)
      2 [frame0] (demo_world dot_disk 4096)
    = Some (Ok (g, w, ExSuccess))
    /\ st_block (g_output g) = PB (BS 1 1 3) (DF16 [S754_finite false 1024 (-10); S754_zero false; S754_finite false 1024 (-10)]).
Proof.
  exists (setup TViewer 2 [WI32 "enable" 1; WI32 "bake_option" 2]). eexists _, _.
  split; [reflexivity|]. split; [reflexivity|]. split; [vm_compute; reflexivity|]. vm_compute; reflexivity.
Qed.

(** Failing writers, and baking viewers connected to readers: proofs. *)
From Coq Require String.
Import String.StringSyntax.
From Coq Require Import Floats.SpecFloat.
From Verif Require Import Machine CacheModel FloatModel BBoxModel PixelModel EnumModel AttrModel
  HashModel StreamModel GradeModel DeformModel BakeModel GraphModel GraphSpec NodeModel NodeSpec NodeProofs NodePair.
Local Open Scope string_scope.

Section Write.
Context {D : Type}.
Variable p : profile.
Variable x : externals D.

(** Only the write node uses the writer, and it does not look at the outcome. *)
Lemma write_image_ok f f' d path img crop co r :
  write_image p (with_writer x f) d path img crop co = Ok r ->
  exists r', write_image p (with_writer x f') d path img crop co = Ok r'.
Proof.
  unfold write_image. destruct (if crop then _ else _) as [im|]; [|discriminate]. cbn [bind]. eauto.
Qed.

Lemma write_process_ok f f' b fr s d r :
  write_process p (with_writer x f) b fr s d = Ok r ->
  exists r', write_process p (with_writer x f') b fr s d = Ok r'.
Proof.
  unfold write_process. cbn [with_writer x_expand x_numerics x_convert].
  destruct (PathModel.expand_string _ _ _) as [path|]; [|discriminate]. cbn [bind].
  destruct (do_process _ _ _ _ _ _ _ _ _ _ _ _) as [r0|]; [|discriminate]. cbn [bind].
  destruct (match crop_from _ with CropUninitialized => _ | _ => _ end) as [crop|]; [|discriminate]. cbn [bind].
  apply write_image_ok.
Qed.

Lemma write_blind f f' b fr h mode ins out w st s w1 :
  compute_op p (with_writer x f) TWrite b fr h mode ins out w = Ok (st, s, w1) ->
  st <> NsError /\
  exists w2, compute_op p (with_writer x f') TWrite b fr h mode ins out w = Ok (st, s, w2)
             /\ w_cache w2 = w_cache w1.
Proof.
  cbn [compute_op]. unfold write_compute. destruct (gi TWrite b "enable" =? 0).
  { intros [= <- <- <-]. split; [discriminate|eauto]. }
  destruct ins as [|s0 ins]. { intros [= <- <- <-]. split; [discriminate|eauto]. }
  destruct (gi TWrite b "execute" =? 0). { intros [= <- <- <-]. split; [discriminate|eauto]. }
  destruct (write_process p (with_writer x f) b fr s0 (w_disk w)) as [[d ok]|] eqn:E; [|discriminate]. cbn [bind].
  intros [= <- <- <-]. split; [discriminate|].
  destruct (write_process_ok f f' _ _ _ _ _ E) as [[d' ok'] ->]. cbn [bind]. eauto.
Qed.
End Write.

Section Read.
Context {D : Type}.
Variable p : profile.
Variable x : externals D.
Variable srt : edge_sort.
Hypothesis HS : sorts srt.
Notation ops := (node_ops p x).

Lemma bake_all_mode b n : gi TViewer b "enable" <> 0 -> viewer_bake b = BakeAll ->
  validate_op TViewer b mode_all (S n) = Ok (0 :: nones n).
Proof.
  intros H K. cbn [validate_op]. unfold validate_viewer.
  replace (gi TViewer b "enable" =? 0) with false by (symmetry; now apply Z.eqb_neq).
  rewrite K. reflexivity.
Qed.

Lemma other_modes b n : gi TViewer b "enable" <> 0 ->
  viewer_bake b <> BakeAll -> viewer_bake b <> BakeUninitialized ->
  exists m, validate_op TViewer b mode_all (S n) = Ok (m :: nones n) /\ Z.land m m_pixel <> 0.
Proof.
  intros H K U. cbn [validate_op]. unfold validate_viewer.
  replace (gi TViewer b "enable" =? 0) with false by (symmetry; now apply Z.eqb_neq).
  destruct (viewer_bake b); try contradiction; eexists; (split; [reflexivity|]); vm_compute; discriminate.
Qed.

(** A read node that is not asked for pixels hands back the given stream. *)
Lemma read_no_pixels b fr h ins out (w : world D) :
  compute_op p x TRead b fr h 0 ins out w = Ok (NsValid, out, w).
Proof. reflexivity. Qed.
(** Asked for pixels, the mode makes no difference. *)
Lemma read_pixels b fr h ins out (w : world D) m : Z.land m m_pixel <> 0 ->
  compute_op p x TRead b fr h m ins out w = compute_op p x TRead b fr h mode_all ins out w.
Proof.
  intro H. cbn [compute_op]. unfold read_compute.
  replace (Z.land m m_pixel =? 0) with false by (symmetry; now apply Z.eqb_neq). reflexivity.
Qed.

(** Read -> viewer, "bake everything": what is baked is the previous output of
    the graph. *)
Theorem bake_all_rebakes fuel rd vw slot out s e fr w kr vw' st sb w2 :
  nd_type rd = TRead -> nd_type vw = TViewer -> nd_id rd <> nd_id vw ->
  gi TViewer (nd_attrs vw) "enable" <> 0 -> viewer_bake (nd_attrs vw) = BakeAll ->
  cache_hash p (x_expand x) (x_digest x) TRead (nd_attrs rd) fr [] = Ok kr ->
  node_compute p x vw fr mode_all [out] out w = Ok (vw', st, sb, w2) ->
  st = NsValid \/ st = NsWarning ->
  exists g', execute ops srt (3 + fuel) (pair_graph ops rd vw slot out s e) (nd_id vw) [fr] w
             = Some (Ok (g', w2, ExSuccess)) /\ g_output g' = sb.
Proof.
  intros TR TV NE EN BK KR C ST.
  eexists. split.
  - apply (execute_pair ops srt HS fuel rd vw slot out s e fr w 0
             (Node TRead (nd_id rd) (status_code NsValid) (nd_attrs rd)) NsValid out w vw' st sb w2).
    + exact NE.
    + intro h. cbn [n_validate node_ops]. unfold node_validate. rewrite TV. now apply (bake_all_mode _ 0).
    + intro h. cbn [n_validate node_ops]. unfold node_validate. rewrite TR. reflexivity.
    + cbn [n_compute node_ops]. unfold node_compute. rewrite TR. cbn [map]. rewrite KR. cbn [bind].
      rewrite read_no_pixels. reflexivity.
    + now left.
    + exact C.
    + exact ST.
  - reflexivity.
Qed.

(** Other bake options: the viewer gets what the reader reads. *)
Theorem other_bakes_read fuel rd vw slot out s e fr w rd' str sr w1 vw' st sb w2 :
  nd_type rd = TRead -> nd_type vw = TViewer -> nd_id rd <> nd_id vw ->
  gi TViewer (nd_attrs vw) "enable" <> 0 ->
  viewer_bake (nd_attrs vw) <> BakeAll -> viewer_bake (nd_attrs vw) <> BakeUninitialized ->
  node_compute p x rd fr mode_all [] out w = Ok (rd', str, sr, w1) ->
  node_compute p x vw fr mode_all [sr] sr w1 = Ok (vw', st, sb, w2) ->
  (str = NsValid \/ str = NsWarning) -> (st = NsValid \/ st = NsWarning) ->
  exists g', execute ops srt (3 + fuel) (pair_graph ops rd vw slot out s e) (nd_id vw) [fr] w
             = Some (Ok (g', w2, ExSuccess)) /\ g_output g' = sb.
Proof.
  intros TR TV NE EN BA BU CR C SR ST.
  destruct (other_modes (nd_attrs vw) 0 EN BA BU) as (m & VM & PM).
  eexists. split.
  - apply (execute_pair ops srt HS fuel rd vw slot out s e fr w m rd' str sr w1 vw' st sb w2).
    + exact NE.
    + intro h. cbn [n_validate node_ops]. unfold node_validate. rewrite TV. exact VM.
    + intro h. cbn [n_validate node_ops]. unfold node_validate. rewrite TR. reflexivity.
    + cbn [n_compute node_ops]. revert CR. unfold node_compute. rewrite TR. intro CR.
      destruct (cache_hash _ _ _ _ _ _ _) as [k|]; [|discriminate]. cbn [bind] in CR |- *.
      rewrite read_pixels by exact PM. exact CR.
    + exact SR.
    + exact C.
    + exact ST.
  - reflexivity.
Qed.
End Read.

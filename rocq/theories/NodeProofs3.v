(** Where the merge node places its background: proofs. *)
From Coq Require String.
Import String.StringSyntax.
From Coq Require Import Floats.SpecFloat.
From Verif Require Import Machine Loops CacheModel FloatModel BBoxModel PixelModel MergeModel MergeSpec EnumModel AttrModel
  HashModel StreamModel GradeModel DeformModel BakeModel GraphModel NodeModel NodeSpec FloatFacts.
Local Open Scope string_scope.

Section M.
Context {D : Type}.
Variable p : profile.
Variable x : externals D.
Notation bake opt s ty := (do_process p (x_numerics x) (x_convert x) opt (st_block s) (st_display s) (st_data s)
              (st_spec s) s (sp_color_space (st_spec s)) linear_name ty).

Lemma fold_box_plain nx (ds : list deformer) b win :
  (forall v, ~ In (DTde4 v) ds) -> fold_box nx ds b win = Ok b.
Proof.
  induction ds as [|d ds IH]; [reflexivity|]. intro H. cbn [fold_box].
  destruct d as [v|v|v]; cbn [deform_box bind]; try (apply IH; intros v' I; apply (H v'); now right).
  elim (H v). now left.
Qed.

Lemma deform_window nx ds display blk win blk' win' :
  (forall v, In (DTde4 v) ds -> vi v "enable" <> 1) -> exact_window win ->
  deform_pixels nx p ds display blk win = Ok (blk', win') -> win' = win.
Proof.
  intros NL (E1 & E2 & E3 & E4). unfold deform_pixels.
  assert (NE : forall v, ~ In (DTde4 v) (enabled ds)).
  { intros v I. apply filter_In in I. destruct I as [I J]. apply (NL v I). now apply Z.eqb_eq in J. }
  destruct (enabled ds) as [|d es] eqn:E; [intros [= _ <-]; reflexivity|].
  rewrite fold_box_plain by exact NE. cbn [bind bboxf_of fmin_x fmin_y fmax_x fmax_y].
  rewrite !floor_of_Z, !ceil_of_Z by assumption. intro H.
  destruct (width_i32 _ _); [|discriminate]. cbn [bind] in H.
  destruct (height_i32 _ _); [|discriminate]. cbn [bind] in H.
  destruct (pb_resize _ _ _ _); [|discriminate]. cbn [bind] in H.
  destruct (_ || _); [discriminate|].
  destruct (apply_each _ _ _); [|discriminate]. cbn [bind] in H.
  destruct (pb_data blk); try discriminate. destruct (negb _); [discriminate|].
  destruct (i32_of _ _); [|discriminate]. cbn [bind] in H.
  destruct (i32_of _ _); [|discriminate]. cbn [bind] in H.
  destruct (i32_of _ _); [|discriminate]. cbn [bind] in H.
  destruct (remap_pixels _ _ _ _ _ _ _ _ _ _ _); [|discriminate]. cbn [bind] in H.
  injection H as _ <-. destruct win; reflexivity.
Qed.

Lemma bake_all_facts s ty r : bake BakeAll s ty = Ok r ->
  bk_stream r = clear_deformers (clear_color_ops (set_color_matrix s identity4)) /\
  (no_lens_pending s -> exact_window (st_data s) -> bk_data r = st_data s).
Proof.
  unfold do_process. destruct (bake_colorspace (x_convert x) (st_block s) _ _ _) as [[b1 s1]|]; [|discriminate].
  cbn [bind]. unfold bake_stream_colorgrade.
  destruct (bake_colorgrade _ _ _ _) as [b2|]; [|discriminate]. cbn [bind].
  destruct (deform_pixels _ _ _ _ _ _) as [[b3 d3]|] eqn:DP; [|discriminate]. cbn [bind].
  destruct (bake_colorspace _ _ _ _ _) as [[b4 s4]|]; [|discriminate]. cbn [bind].
  destruct (pb_convert _ _); [|discriminate]. cbn [bind]. intros [= <-]. cbn [bk_stream bk_data].
  split; [reflexivity|]. intros NL EW. now apply deform_window in DP.
Qed.

(** The merged window is made from A's baked window and B's original one. *)
Theorem merge_window a b mode mix img u ra : known_mode mode ->
  merge_process p x a b mode mix = Ok (img, u) -> bake BakeAll a Float32 = Ok ra ->
  sh_data img = combine (bk_data ra) (st_data b).
Proof.
  intros KM H RA. unfold merge_process in H. rewrite RA in H. cbn [bind] in H.
  destruct (bake BakeAll b Float32) as [rb|] eqn:RB; [|discriminate]. cbn [bind] in H.
  destruct (bake_all_facts _ _ _ RB) as [SB _]. rewrite SB in H. cbn [clear_deformers clear_color_ops set_color_matrix st_data st_display] in H.
  destruct (merge _ _ _ _ _ _) as [[im|]|] eqn:M; [| |discriminate]; cbn [bind] in H.
  - injection H as <- _. cbn [with_plain sh_data]. revert M. unfold merge.
    destruct KM as [->|[->| ->]]; cbn [im_block im_data im_display];
      (destruct (negb _); [discriminate|]; destruct (negb _); [discriminate|];
       destruct (width_i32 _ _); [|discriminate]; cbn [bind];
       destruct (height_i32 _ _); [|discriminate]; cbn [bind];
       destruct (pb_resize _ _ _ _); [|discriminate]; cbn [bind];
       destruct (slice_f32 _); [|discriminate]; cbn [bind];
       destruct (for_range _ _ _ _); [|discriminate]; cbn [bind];
       intros [= <-]; reflexivity).
  - exfalso. revert M. unfold merge.
    destruct KM as [->|[->| ->]]; 
      (destruct (negb _); [discriminate|]; destruct (negb _); [discriminate|];
       destruct (width_i32 _ _); [|discriminate]; cbn [bind];
       destruct (height_i32 _ _); [|discriminate]; cbn [bind];
       destruct (pb_resize _ _ _ _); [|discriminate]; cbn [bind];
       destruct (slice_f32 _); [|discriminate]; cbn [bind];
       destruct (for_range _ _ _ _); [|discriminate]; cbn [bind]; discriminate).
Qed.

(** Without lens distortion on the background the merge is the specified one. *)
Theorem merge_process_spec a b mode mix :
  no_lens_pending b -> exact_window (st_data b) ->
  merge_process p x a b mode mix =
  match merged_streams p x a b mode mix with
  | Ok (Some img) => Ok (img, tt)
  | Ok None => Ok (with_plain merge_start spec_new, tt)
  | Panic => Panic
  end.
Proof.
  intros NL EW. unfold merge_process, merged_streams, baked_image.
  destruct (bake BakeAll a Float32) as [ra|]; [|reflexivity]. cbn [bind].
  destruct (bake BakeAll b Float32) as [rb|] eqn:RB; [|reflexivity]. cbn [bind].
  destruct (bake_all_facts _ _ _ RB) as [SB DB]. rewrite SB, (DB NL EW).
  cbn [clear_deformers clear_color_ops set_color_matrix st_data st_display].
  destruct (merge _ _ _ _ _ _) as [[im|]|]; reflexivity.
Qed.
End M.

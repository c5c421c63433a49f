(** C108: single pixels of finished pictures with three channels or one. *)
From Coq Require String.
Import String.StringSyntax.
From Coq Require Import Lia Floats.SpecFloat.
From Verif Require Import Machine Loops CacheModel FloatModel BBoxModel BBoxSpec PixelModel PixelSpec PathModel PathSpec MergeModel MergeSpec EnumModel AttrModel
  HashModel HashSpec HashProofs StreamModel DeformModel BakeModel BakeSpec BakeProofs GraphModel GraphSpec GraphSim GraphWalk GraphHistory GraphFacts AttrProofs NodeModel NodeExamples
  NodeSpec LutSpec LutHistory LutProofs3 ChainSpec RunSpec SafeSpec SafeProofs SafeFacts ShowSpec UncachedSpec ShowProofs SoundSpec ShowCacheProofs ViewSpec FrameModel FrameSpec RemapSpec
  SceneSpec SceneProofs SceneProofs2 AlikeSpec AlikeProofs WriteSpec SceneWrite PartSpec EachSpec EachProofs FinishSpec FinishProofs FinishScene FinishSpec2 FinishProofs2
  PropertiesBake PropertiesNode PropertiesSafe PropertiesShow PropertiesSound PropertiesShow2 PropertiesScene PropertiesAlike PropertiesWrite PropertiesEach PropertiesFinish.
Local Open Scope string_scope.


(** Pixel by pixel, for linear pictures of red, green and blue; the operations
    see an alpha of one. *)
Theorem C108_pixel_rgb : forall nx convert s ty r win,
  PixelSpec.wf_block (st_block s) -> bs_nc (pb_size (st_block s)) = 3 -> placed (st_block s) (st_data s) ->
  sp_color_space (st_spec s) = linear_name -> finished nx convert s linear_name ty r win ->
  forall X Y, in_box win X Y -> rgb_pixel_right nx s ty r win X Y.
Proof. exact finished_rgb_pixel. Qed.
Print Assumptions C108_pixel_rgb.

(** Pictures of alpha only; the operations see white. *)
Theorem C108_pixel_alpha : forall nx convert s ty r win,
  PixelSpec.wf_block (st_block s) -> bs_nc (pb_size (st_block s)) = 1 -> placed (st_block s) (st_data s) ->
  sp_color_space (st_spec s) = linear_name -> finished nx convert s linear_name ty r win ->
  forall X Y, in_box win X Y -> alpha_pixel_right nx s ty r win X Y.
Proof. exact finished_alpha_pixel. Qed.
Print Assumptions C108_pixel_alpha.

(* ------------------------------ examples ------------------------------ *)

(** Two pixels of bytes with red doubled, moved by a transform. *)
Definition rgb_stream : stream :=
  Stream SdValid 1 (BBox 0 0 2 1) (BBox 0 0 2 1) identity4 spec_new (PB (BS 2 1 3) (DU8 [51; 0; 0; 102; 255; 0]))
    [DTransform (transform_op (PropertiesBake.with_attrs TTransform []))]
    [grade_op (PropertiesBake.with_attrs TGrade [WF32 "multiply_r" 1073741824])].
Example C108_pixel_rgb_example : exists r,
  do_process Debug demo_numerics (x_convert demo) BakeAll (st_block rgb_stream) (st_display rgb_stream) (st_data rgb_stream) (st_spec rgb_stream)
    rgb_stream (sp_color_space (st_spec rgb_stream)) linear_name UnknownType = Ok r /\
  bk_block r = PB (BS 2 1 3) (DU8 [102; 0; 0; 204; 255; 0]) /\
  PixelSpec.wf_block (st_block rgb_stream) /\ bs_nc (pb_size (st_block rgb_stream)) = 3 /\ placed (st_block rgb_stream) (st_data rgb_stream) /\
  finished demo_numerics (x_convert demo) rgb_stream linear_name UInt8 (bk_block r) (bk_data r) /\ in_box (bk_data r) 1 0.
Proof.
  destruct (do_process Debug demo_numerics (x_convert demo) BakeAll (st_block rgb_stream) (st_display rgb_stream) (st_data rgb_stream) (st_spec rgb_stream)
    rgb_stream (sp_color_space (st_spec rgb_stream)) linear_name UnknownType) as [r|] eqn:H; [|vm_compute in H; discriminate H].
  exists r.
  assert (Q : bk_block r = PB (BS 2 1 3) (DU8 [102; 0; 0; 204; 255; 0]) /\ bk_data r = BBox 0 0 2 1).
  { pose proof H as E. vm_compute in E. injection E as <-. split; reflexivity. }
  destruct Q as (Q1 & Q2).
  assert (W : PixelSpec.wf_block (st_block rgb_stream)) by (repeat split; vm_compute; discriminate).
  assert (CS : coords_small (st_data rgb_stream)) by (cbn; unfold coords_small; cbn; lia).
  split; [reflexivity|]. split; [exact Q1|]. split; [exact W|]. split; [reflexivity|]. split; [split; reflexivity|].
  split; [|rewrite Q2; unfold in_box; cbn; lia].
  apply (bake_finished Debug demo_numerics (x_convert demo)) with (ty := UnknownType); [discriminate|exact W|right; left; reflexivity| |exact H].
  intros d _ _. rewrite Q2. split; [discriminate|]. split; [exact CS|]. vm_compute. repeat split; discriminate.
Qed.

(** Two pixels of alpha, halved by a grade. *)
Definition alpha_stream : stream :=
  Stream SdValid 1 (BBox 0 0 2 1) (BBox 0 0 2 1) identity4 spec_new (PB (BS 2 1 1) (DU8 [100; 204])) []
    [grade_op (PropertiesBake.with_attrs TGrade [WI32 "process_a" 1; WF32 "multiply_a" 1056964608])].
Example C108_pixel_alpha_example : exists r,
  do_process Debug demo_numerics (x_convert demo) BakeAll (st_block alpha_stream) (st_display alpha_stream) (st_data alpha_stream) (st_spec alpha_stream)
    alpha_stream (sp_color_space (st_spec alpha_stream)) linear_name UnknownType = Ok r /\
  bk_block r = PB (BS 2 1 1) (DU8 [50; 102]) /\
  PixelSpec.wf_block (st_block alpha_stream) /\ bs_nc (pb_size (st_block alpha_stream)) = 1 /\ placed (st_block alpha_stream) (st_data alpha_stream) /\
  finished demo_numerics (x_convert demo) alpha_stream linear_name UInt8 (bk_block r) (bk_data r) /\ in_box (bk_data r) 1 0.
Proof.
  destruct (do_process Debug demo_numerics (x_convert demo) BakeAll (st_block alpha_stream) (st_display alpha_stream) (st_data alpha_stream) (st_spec alpha_stream)
    alpha_stream (sp_color_space (st_spec alpha_stream)) linear_name UnknownType) as [r|] eqn:H; [|vm_compute in H; discriminate H].
  exists r.
  assert (Q : bk_block r = PB (BS 2 1 1) (DU8 [50; 102]) /\ bk_data r = BBox 0 0 2 1).
  { pose proof H as E. vm_compute in E. injection E as <-. split; reflexivity. }
  destruct Q as (Q1 & Q2).
  assert (W : PixelSpec.wf_block (st_block alpha_stream)) by (repeat split; vm_compute; discriminate).
  split; [reflexivity|]. split; [exact Q1|]. split; [exact W|]. split; [reflexivity|]. split; [split; reflexivity|].
  split; [|rewrite Q2; unfold in_box; cbn; lia].
  apply (bake_finished Debug demo_numerics (x_convert demo)) with (ty := UnknownType); [discriminate|exact W|left; reflexivity| |exact H].
  intros d [].
Qed.

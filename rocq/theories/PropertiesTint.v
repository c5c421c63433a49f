(** C96: colour matrices. *)
From Coq Require Import Reals Floats.SpecFloat Psatz.
From Verif Require Import Machine FloatModel FloatReal BBoxModel PixelModel EnumModel AttrModel StreamModel GradeModel DeformModel
  BakeModel MergeSpec BakeSpec LineSpec LineProofs PropertiesDeform TintModel TintSpec TintProofs.
Local Open Scope R_scope.

(** Baking a stream with a pending matrix multiplies every pixel with it, up to
    rounding. *)
Theorem C96_rgba : forall p nx convert w h disp data sp s,
  st_ops s = [] -> st_deformers s = [] -> modest_matrix (st_matrix s) -> forall ps, Forall modest_pixel ps -> exists ps',
  do_process p nx convert BakeAll (PB (BS w h 4) (DF32 (flat4 ps))) disp data sp s linear_name linear_name Float32 =
  Ok (Baked (PB (BS w h 4) (DF32 (flat4 ps'))) data (set_color_space sp linear_name)
    (Stream (st_state s) (st_hash s) (st_display s) (st_data s) identity4 (st_spec s) (st_block s) [] [])) /\
  Forall2 (multiplied (st_matrix s)) ps ps'.
Proof. exact bake_rgba. Qed.
Print Assumptions C96_rgba.
Theorem C96_rgb : forall p nx convert w h disp data sp s,
  st_ops s = [] -> st_deformers s = [] -> modest_matrix (st_matrix s) -> forall ps, Forall modest_rgb ps -> exists ps',
  do_process p nx convert BakeAll (PB (BS w h 3) (DF32 (flat3 ps))) disp data sp s linear_name linear_name Float32 =
  Ok (Baked (PB (BS w h 3) (DF32 (flat3 ps'))) data (set_color_space sp linear_name)
    (Stream (st_state s) (st_hash s) (st_display s) (st_data s) identity4 (st_spec s) (st_block s) [] [])) /\
  Forall2 (multiplied_rgb (st_matrix s)) ps ps'.
Proof. exact bake_rgb. Qed.
Print Assumptions C96_rgb.
Theorem C96_alpha : forall p nx convert w h disp data sp s,
  st_ops s = [] -> st_deformers s = [] -> modest_matrix (st_matrix s) -> forall l, Forall modest l -> exists l',
  do_process p nx convert BakeAll (PB (BS w h 1) (DF32 l)) disp data sp s linear_name linear_name Float32 =
  Ok (Baked (PB (BS w h 1) (DF32 l')) data (set_color_space sp linear_name)
    (Stream (st_state s) (st_hash s) (st_display s) (st_data s) identity4 (st_spec s) (st_block s) [] [])) /\
  Forall2 (multiplied_alpha (st_matrix s)) l l'.
Proof. exact bake_alpha. Qed.
Print Assumptions C96_alpha.

(** Scaling the colours of a matrix scales the colours of its results. *)
Theorem C96_scale : forall m r g b a ps, modest_matrix m -> modest_pixel (r, g, b, a) -> Forall modest_pixel ps ->
  exists ps', apply_color_matrix (apply_scale_rgba m r g b a) 4 (flat4 ps) = Ok (flat4 ps') /\ Forall2 (scaled_by m r g b a) ps ps'.
Proof. exact scale_applied. Qed.
Print Assumptions C96_scale.
(** Of nothing but a scale there is one rounding, that of the product. *)
Theorem C96_scale_only : forall r g b a ps, modest_pixel (r, g, b, a) -> Forall modest_pixel ps ->
  exists ps', apply_color_matrix (apply_scale_rgba identity4 r g b a) 4 (flat4 ps) = Ok (flat4 ps') /\ Forall2 (float_scaled r g b a) ps ps'.
Proof. exact scale_plain. Qed.
Print Assumptions C96_scale_only.

(** Swapping red and blue and doubling green meets the hypotheses. *)
Definition swap : mat4 :=
  let o := f32_one in let z := f32_zero in [z; z; o; z;  z; f32_of_Z 2; z; z;  o; z; z; z;  z; z; z; o].
Example C96_example : modest_matrix swap /\ modest_pixel (f32_of_Z 1, f32_of_Z 2, f32_of_Z 3, f32_of_Z 1) /\
  apply_color_matrix swap 4 [f32_of_Z 1; f32_of_Z 2; f32_of_Z 3; f32_of_Z 1] = Ok [f32_of_Z 3; f32_of_Z 4; f32_of_Z 1; f32_of_Z 1].
Proof.
  split; [|split; [|vm_compute; reflexivity]].
  - intros i j Hi Hj. pose proof (modest_Z 0 ltac:(lia)). pose proof (modest_Z 1 ltac:(lia)). pose proof (modest_Z 2 ltac:(lia)).
    destruct (four i Hi) as [-> | [-> | [-> | ->]]]; destruct (four j Hj) as [-> | [-> | [-> | ->]]]; assumption.
  - intros i Hi. pose proof (modest_Z 1 ltac:(lia)). pose proof (modest_Z 2 ltac:(lia)). pose proof (modest_Z 3 ltac:(lia)).
    destruct (four i Hi) as [-> | [-> | [-> | ->]]]; assumption.
Qed.

(** Not so for infinite factors: the red of (1, 1, 1, 1) becomes NaN, not infinite. *)
Theorem C96_infinite_refuted : exists r ps', apply_color_matrix (apply_scale_rgba identity4 r f32_one f32_one f32_one) 4 [f32_one; f32_one; f32_one; f32_one] = Ok ps' /\
  f32_mul r f32_one = S754_infinity false /\ ps' = [S754_nan; f32_one; f32_one; f32_one].
Proof. exists (S754_infinity false). eexists. split; [vm_compute; reflexivity|]. split; vm_compute; reflexivity. Qed.
Print Assumptions C96_infinite_refuted.

(** C21: merging. *)
From Coq Require Import Floats.SpecFloat.
From Verif Require Import Machine Loops FloatModel BBoxModel BBoxSpec PixelModel PixelSpec
  MergeModel MergeSpec MergeProofs.

(** For every mode, mix, pair of float RGB/RGBA images and previous content of
    the output: the merge succeeds in both profiles, on the smallest window, and
    every pixel is the formula of the source pixels at that coordinate. *)
Theorem C21_merge : forall p mode ima imb mix out,
  known_mode mode -> float_image ima -> float_image imb ->
  well_formed (im_data ima) -> well_formed (im_data imb) ->
  merge_fits (im_data ima) (im_data imb) ->
  exists r, merge p mode ima imb mix out = Ok (Some r) /\ merged mode mix ima imb r.
Proof. exact merge_exact. Qed.
Print Assumptions C21_merge.

(** Outside A's window, "over" with mix 1 shows B (up to the sign of zeros). *)
Theorem C21_over_outside_a : forall ima imb x y c,
  ~ in_box (im_data ima) x y -> f32_ok (channel_at imb x y c) ->
  channel_at imb x y c <> S754_nan ->
  same_number
    (formula MOver (f32_of_Z 1) (channel_at ima x y 3) (channel_at ima x y c) (channel_at imb x y c))
    (channel_at imb x y c).
Proof.
  intros ima imb x y c H. rewrite !(channel_outside ima) by exact H. intros.
  apply over_outside; auto.
Qed.
Print Assumptions C21_over_outside_a.

(** Where A is opaque, "over" shows A whatever (finite) B and mix are. *)
Theorem C21_over_opaque_a : forall ima imb mix x y c,
  channel_at ima x y 3 = f32_of_Z 1 -> f32_finite mix -> f32_finite (channel_at imb x y c) ->
  channel_at ima x y c <> S754_nan ->
  same_number
    (formula MOver mix (channel_at ima x y 3) (channel_at ima x y c) (channel_at imb x y c))
    (channel_at ima x y c).
Proof. intros ima imb mix x y c ->. apply over_opaque. Qed.
Print Assumptions C21_over_opaque_a.

(** Outside B's window "add" shows A; "multiply" is black outside either window. *)
Theorem C21_add_outside_b : forall ima imb mix x y c,
  ~ in_box (im_data imb) x y -> f32_finite mix -> channel_at ima x y c <> S754_nan ->
  same_number
    (formula MAdd mix (channel_at ima x y 3) (channel_at ima x y c) (channel_at imb x y c))
    (channel_at ima x y c).
Proof.
  intros ima imb mix x y c H. rewrite (channel_outside imb) by exact H. apply add_outside_b.
Qed.
Print Assumptions C21_add_outside_b.

Theorem C21_multiply_outside : forall ima imb mix x y c,
  ~ in_box (im_data ima) x y \/ ~ in_box (im_data imb) x y ->
  f32_finite mix -> f32_finite (channel_at ima x y c) ->
  f32_finite (f32_mul (channel_at imb x y c) mix) ->
  exists s,
    formula MMultiply mix (channel_at ima x y 3) (channel_at ima x y c) (channel_at imb x y c)
    = S754_zero s.
Proof.
  intros ima imb mix x y c [H|H] FM FA FB.
  - rewrite (channel_outside ima x y c) by exact H. apply multiply_outside_a. exact FB.
  - rewrite (channel_outside imb x y c) by exact H. apply multiply_outside_b; assumption.
Qed.
Print Assumptions C21_multiply_outside.

(** The uninitialised mode changes nothing; images of another pixel type panic. *)
Theorem C21_uninitialized : forall p ima imb mix out, merge p MUninitialized ima imb mix out = Ok None.
Proof. exact merge_uninit. Qed.
Print Assumptions C21_uninitialized.

Theorem C21_wrong_type : forall p mode ima imb mix out,
  mode <> MUninitialized ->
  db_type (pb_data (im_block ima)) <> Float32 \/ db_type (pb_data (im_block imb)) <> Float32 ->
  merge p mode ima imb mix out = Panic.
Proof. exact merge_wrong_type. Qed.
Print Assumptions C21_wrong_type.

(** A concrete merge: a 1x1 opaque RGBA pixel at (1,0) over a 1x1 RGB pixel at (0,0). *)
Definition ex_a : image :=
  Image (PB (BS 1 1 4) (DF32 [f32_of_Z 2; f32_of_Z 3; f32_of_Z 4; f32_of_Z 1]))
    (BBox 0 0 2 1) (BBox 1 0 2 1).
Definition ex_b : image :=
  Image (PB (BS 1 1 3) (DF32 [f32_of_Z 5; f32_of_Z 6; f32_of_Z 7])) (BBox 0 0 1 1) (BBox 0 0 1 1).
Example C21_hypotheses_met :
  float_image ex_a /\ float_image ex_b /\ merge_fits (im_data ex_a) (im_data ex_b) /\
  merge Debug MOver ex_a ex_b (f32_of_Z 1) ex_b =
  Ok (Some (Image (PB (BS 2 1 3) (DF32 [f32_of_Z 5; f32_of_Z 6; f32_of_Z 7; f32_of_Z 2; f32_of_Z 3; f32_of_Z 4]))
    (BBox 0 0 1 1) (BBox 0 0 2 1))).
Proof.
  split; [|split; [|split]].
  - cbv. repeat split; intros; try discriminate. right. reflexivity.
  - cbv. repeat split; intros; try discriminate. left. reflexivity.
  - cbv. repeat split.
  - vm_compute. reflexivity.
Qed.

(** Finding: an infinite value in B shows through an opaque A as NaN. *)
Theorem C21_opaque_infinite_refuted :
  exists va vb, f32_ok va /\ f32_ok vb /\ formula MOver (f32_of_Z 1) (f32_of_Z 1) va vb = S754_nan /\
    va <> S754_nan /\ vb <> S754_nan.
Proof.
  exists (f32_of_Z 1), (S754_infinity false). repeat split; discriminate.
Qed.
Print Assumptions C21_opaque_infinite_refuted.

(** Finding: an image without alpha is treated as fully transparent, so an RGB
    foreground placed "over" a background does not hide it but is added to it. *)
Theorem C21_rgb_foreground_refuted :
  exists ima imb r, float_image ima /\ float_image imb /\
    bs_nc (pb_size (im_block ima)) = 3 /\ im_data ima = im_data imb /\
    merge Release MOver ima imb (f32_of_Z 1) imb = Ok (Some r) /\
    channel_at ima 0 0 0 = f32_of_Z 2 /\ channel_at imb 0 0 0 = f32_of_Z 5 /\
    channel_at r 0 0 0 = f32_of_Z 7.
Proof.
  exists (Image (PB (BS 1 1 3) (DF32 [f32_of_Z 2; f32_of_Z 2; f32_of_Z 2])) (BBox 0 0 1 1) (BBox 0 0 1 1)),
    ex_b.
  eexists. split; [cbv; repeat split; intros; try discriminate; left; reflexivity|].
  split; [cbv; repeat split; intros; try discriminate; left; reflexivity|].
  split; [reflexivity|]. split; [reflexivity|]. split; [vm_compute; reflexivity|].
  split; [vm_compute; reflexivity|]. split; vm_compute; reflexivity.
Qed.
Print Assumptions C21_rgb_foreground_refuted.

(** One-channel images are read beyond the pixel: the last pixel panics. *)
Theorem C21_one_channel_refuted :
  exists im, wf_block (im_block im) /\ placed (im_block im) (im_data im) /\
    db_type (pb_data (im_block im)) = Float32 /\ bs_nc (pb_size (im_block im)) = 1 /\
    forall p, merge p MAdd im im (f32_of_Z 1) im = Panic.
Proof.
  exists (Image (PB (BS 1 1 1) (DF32 [f32_of_Z 2])) (BBox 0 0 1 1) (BBox 0 0 1 1)).
  split; [cbv; repeat split; intros; discriminate|]. split; [cbv; split; reflexivity|].
  split; [reflexivity|]. split; [reflexivity|]. intros []; vm_compute; reflexivity.
Qed.
Print Assumptions C21_one_channel_refuted.

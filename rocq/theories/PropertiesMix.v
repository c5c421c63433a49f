(** C84: merging in exact numbers. *)
From Coq Require Import Reals Floats.SpecFloat Lia Lra.
From Verif Require Import Machine FloatModel FloatReal GeomReal BBoxModel BBoxSpec PixelModel PixelSpec MergeModel MergeSpec LineSpec LineProofs MixSpec MixProofs PropertiesLaw.

(** Every channel of every pixel is the exact merge, up to five units of
    rounding of its terms. *)
Theorem C84_formula : forall p mode a b mix o, known_mode mode -> float_image a -> float_image b -> well_formed (im_data a) -> well_formed (im_data b) ->
  merge_fits (im_data a) (im_data b) -> modest_picture a -> modest_picture b ->
  f32_ok mix -> f32_finite mix -> (0 <= R32 mix <= 1)%R ->
  exists r, merge p mode a b mix o = Ok (Some r) /\ least_window (im_data a) (im_data b) (im_data r) /\
  bs_nc (pb_size (im_block r)) = bs_nc (pb_size (im_block b)) /\
  forall x y c, 0 <= c < bs_nc (pb_size (im_block r)) -> f32_finite (channel_at r x y c) /\
    (Rabs (shade r x y c - exact_merge mode (R32 mix) (shade a x y 3) (shade a x y c) (shade b x y c))
     <= 5 * / 2 ^ 24 * merge_size mode (R32 mix) (shade a x y 3) (shade a x y c) (shade b x y c) + / 2 ^ 70)%R.
Proof. exact formula_near. Qed.
Print Assumptions C84_formula.

(** Three RGBA pictures: the two ways of grouping two merges of the same kind
    agree, up to rounding. *)
Theorem C84_grouping : forall p mode a b c o1 o2 o3 o4, known_mode mode ->
  float_image a -> float_image b -> float_image c ->
  bs_nc (pb_size (im_block a)) = 4 -> bs_nc (pb_size (im_block b)) = 4 -> bs_nc (pb_size (im_block c)) = 4 ->
  well_formed (im_data a) -> well_formed (im_data b) -> well_formed (im_data c) ->
  three_fit (im_data a) (im_data b) (im_data c) ->
  modest_picture a -> modest_picture b -> modest_picture c ->
  exists ab bc r s,
    merge p mode a b (f32_of_Z 1) o1 = Ok (Some ab) /\ merge p mode ab c (f32_of_Z 1) o2 = Ok (Some r) /\
    merge p mode b c (f32_of_Z 1) o3 = Ok (Some bc) /\ merge p mode a bc (f32_of_Z 1) o4 = Ok (Some s) /\
    im_data r = im_data s /\
    forall x y ch, 0 <= ch < 4 -> f32_finite (channel_at r x y ch) /\ f32_finite (channel_at s x y ch) /\
      (Rabs (shade r x y ch - shade s x y ch)
       <= 17 * / 2 ^ 24 * three_size mode (shade a x y 3) (shade b x y 3) (shade a x y ch) (shade b x y ch) (shade c x y ch) + / 2 ^ 70)%R.
Proof. exact grouping. Qed.
Print Assumptions C84_grouping.

(** Without alpha in the middle the grouping matters: an RGB picture counts as
    transparent, so what is behind it shows through only one way. *)
Theorem C84_rgb_refuted : exists a b c ab bc r s,
  float_image a /\ float_image b /\ float_image c /\ im_data a = im_data b /\ im_data b = im_data c /\
  bs_nc (pb_size (im_block a)) = 4 /\ bs_nc (pb_size (im_block b)) = 3 /\ bs_nc (pb_size (im_block c)) = 4 /\
  merge Release MOver a b (f 1) a = Ok (Some ab) /\ merge Release MOver ab c (f 1) a = Ok (Some r) /\
  merge Release MOver b c (f 1) a = Ok (Some bc) /\ merge Release MOver a bc (f 1) a = Ok (Some s) /\
  channel_at r 0 0 0 = f 6 /\ channel_at s 0 0 0 = f 1.
Proof.
  exists (pixel 0 [f 1; f 1; f 1; f 1]), (pixel 0 [f 2; f 2; f 2]), (pixel 0 [f 5; f 5; f 5; f 1]). do 4 eexists.
  split; [apply pixel_float; cbn; lia|]. split; [apply pixel_float; cbn; lia|]. split; [apply pixel_float; cbn; lia|].
  split; [reflexivity|]. split; [reflexivity|]. split; [reflexivity|]. split; [reflexivity|]. split; [reflexivity|].
  split; [vm_compute; reflexivity|]. split; [vm_compute; reflexivity|]. split; [vm_compute; reflexivity|]. split; [vm_compute; reflexivity|].
  split; vm_compute; reflexivity.
Qed.
Print Assumptions C84_rgb_refuted.

(** Pictures the theorems apply to. *)
Lemma pixel_modest x l : Forall modest l -> modest_picture (pixel x l).
Proof.
  intros A a b c C. unfold shade. apply (pixel_all (fun v => f32_ok v /\ f32_finite v /\ (Rabs (R32 v) <= 2 ^ 20)%R)); [| |exact C].
  - split; [reflexivity|]. split; [exact I|]. change (R32 f32_zero) with 0%R. rewrite Rabs_R0. lra.
  - intros v I. rewrite Forall_forall in A. destruct (A v I) as ((O & F) & B). auto.
Qed.
Lemma small_modest l : Forall (fun z => Z.abs z <= 1000) l -> Forall modest (map f l).
Proof. intros H. induction H; constructor; [now apply modest_Z|assumption]. Qed.
Definition first := pixel 0 (map f [1; 2; 3; 1]).
Definition second := pixel 1 (map f [4; 5; 6; 0]).
Example C84_example :
  float_image first /\ float_image second /\ modest_picture first /\ modest_picture second /\
  three_fit (im_data first) (im_data second) (im_data first) /\
  exact_merge MOver 1 (shade first 0 0 3) (shade first 0 0 0) (shade second 0 0 0) = 1%R.
Proof.
  split; [apply pixel_float; cbn; lia|]. split; [apply pixel_float; cbn; lia|].
  split; [apply pixel_modest, small_modest; repeat constructor; cbn; lia|]. split; [apply pixel_modest, small_modest; repeat constructor; cbn; lia|].
  split.
  - split; [cbv; repeat split|]. split; [cbv; repeat split|]. intros u v (A & B & L) (A' & B' & L').
    specialize (L (BBox 0 0 2 1)). specialize (L' (BBox 0 0 2 1)). cbn in *.
    assert (U : window_in u (BBox 0 0 2 1)) by (apply L; unfold window_in; cbn; lia).
    assert (V : window_in v (BBox 0 0 2 1)) by (apply L'; unfold window_in; cbn; lia).
    unfold window_in in *. cbn in *. unfold merge_fits, two31. cbn [min_x min_y max_x max_y].
    assert (EU : u = BBox 0 0 2 1) by (destruct u; cbn in *; f_equal; lia). assert (EV : v = BBox 0 0 2 1) by (destruct v; cbn in *; f_equal; lia).
    rewrite EU, EV. cbn. lia.
  - destruct one_real as (_ & _ & E1). unfold shade.
    assert (A : channel_at first 0 0 3 = f32_one) by (vm_compute; reflexivity). assert (B : channel_at first 0 0 0 = f32_one) by (vm_compute; reflexivity).
    assert (C : channel_at second 0 0 0 = f32_zero) by (vm_compute; reflexivity). rewrite A, B, C, E1. change (R32 f32_zero) with 0%R.
    cbn [exact_merge]. ring.
Qed.

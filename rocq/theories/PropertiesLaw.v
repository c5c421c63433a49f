(** C72: laws of merging. *)
From Coq Require Import Lia Floats.SpecFloat.
From Verif Require Import Machine Loops FloatModel BBoxModel BBoxSpec PixelModel PixelSpec MergeModel MergeSpec LawSpec LawProofs.

(** Swapping the inputs of "add" and "multiply" gives the same picture. *)
Theorem C72_swap : forall p mode a b o1 o2,
  mode = MAdd \/ mode = MMultiply -> float_image a -> float_image b ->
  well_formed (im_data a) -> well_formed (im_data b) -> merge_fits (im_data a) (im_data b) ->
  bs_nc (pb_size (im_block a)) = bs_nc (pb_size (im_block b)) -> valid_image a -> valid_image b ->
  exists r s, merge p mode a b (f32_of_Z 1) o1 = Ok (Some r) /\ merge p mode b a (f32_of_Z 1) o2 = Ok (Some s) /\ same_picture r s.
Proof. exact swap_law. Qed.
Print Assumptions C72_swap.

(** A mix of zero leaves the first input. *)
Theorem C72_mix_zero : forall p mode a b o sg,
  mode = MAdd \/ (mode = MOver /\ forall x y, f32_finite (f32_sub (f32_of_Z 1) (channel_at a x y 3))) ->
  float_image a -> float_image b -> well_formed (im_data a) -> well_formed (im_data b) -> merge_fits (im_data a) (im_data b) ->
  finite_image a -> finite_image b ->
  exists r, merge p mode a b (S754_zero sg) o = Ok (Some r) /\ shows_picture r a b a.
Proof. exact mix_zero_law. Qed.
Print Assumptions C72_mix_zero.

(** A transparent first input leaves the second. *)
Theorem C72_transparent_first : forall p mode a b o,
  mode = MAdd \/ mode = MOver ->
  float_image a -> float_image b -> well_formed (im_data a) -> well_formed (im_data b) -> merge_fits (im_data a) (im_data b) ->
  transparent a -> valid_image b -> finite_image b ->
  exists r, merge p mode a b (f32_of_Z 1) o = Ok (Some r) /\ shows_picture r a b b.
Proof. exact transparent_law. Qed.
Print Assumptions C72_transparent_first.

(** A transparent second input leaves the first, whatever the mix. *)
Theorem C72_transparent_second : forall p mode mix a b o,
  mode = MAdd \/ (mode = MOver /\ forall x y, f32_finite (f32_mul (f32_sub (f32_of_Z 1) (channel_at a x y 3)) mix)) ->
  f32_finite mix ->
  float_image a -> float_image b -> well_formed (im_data a) -> well_formed (im_data b) -> merge_fits (im_data a) (im_data b) ->
  transparent b -> finite_image a ->
  exists r, merge p mode a b mix o = Ok (Some r) /\ shows_picture r a b a.
Proof. exact black_background_law. Qed.
Print Assumptions C72_transparent_second.

(** One-pixel pictures. *)
Definition pixel (x : Z) (l : list f32) : image := Image (PB (BS 1 1 (zlen l)) (DF32 l)) (BBox 0 0 2 1) (BBox x 0 (x + 1) 1).
Definition f := f32_of_Z.
Lemma pixel_float x l : 0 <= x < 100 -> zlen l = 3 \/ zlen l = 4 -> float_image (pixel x l).
Proof.
  intros X L. unfold float_image, pixel, wf_block, placed. cbn [im_block im_data pb_size pb_data bs_w bs_h bs_nc db_type min_x min_y max_x max_y].
  repeat split; cbn; unfold zlen in *; try lia; try tauto. now destruct (Z.of_nat (length l)).
Qed.

Example C72_example :
  float_image (pixel 0 [f 1; f 2; f 3; f 1]) /\ float_image (pixel 1 [f 5; f 6; f 7; f 0])
  /\ merge_fits (im_data (pixel 0 [f 1; f 2; f 3; f 1])) (im_data (pixel 1 [f 5; f 6; f 7; f 0]))
  /\ merge Debug MAdd (pixel 0 [f 1; f 2; f 3; f 1]) (pixel 1 [f 5; f 6; f 7; f 0]) (f 1) (pixel 0 []) =
     Ok (Some (Image (PB (BS 2 1 4) (DF32 [f 1; f 2; f 3; f 1; f 5; f 6; f 7; f 0])) (BBox 0 0 2 1) (BBox 0 0 2 1))).
Proof.
  split; [apply pixel_float; cbn; lia|]. split; [apply pixel_float; cbn; lia|]. split; [cbv; repeat split|]. vm_compute. reflexivity.
Qed.

(** Each law in use. *)
Definition bright := pixel 0 [f 1; f 2; f 3; f 1].
Definition other := pixel 0 [f 5; f 6; f 7; f 1].
Lemma pixel_channel x l a b c : 0 <= c -> (channel_at (pixel x l) a b c = f32_zero \/ In (channel_at (pixel x l) a b c) l).
Proof.
  intros C. unfold channel_at. destruct (in_boxb (im_data (pixel x l)) a b) eqn:B; [|now left].
  destruct (c <? bs_nc (pb_size (im_block (pixel x l)))) eqn:E; [|now left]. cbn [andb].
  unfold pixel_val. cbn [im_block im_data pixel pb_data elems pb_size].
  match goal with |- context [at_z ?l0 ?i0] => destruct (at_z l0 i0) as [v|] eqn:V end; [|now left].
  unfold at_z in V. destruct (_ <=? _) in V; [|discriminate]. apply nth_error_In, in_map_iff in V. destruct V as (w & <- & I). now right.
Qed.
Lemma pixel_all (P : f32 -> Prop) x l : P f32_zero -> (forall v, In v l -> P v) -> forall a b c, 0 <= c -> P (channel_at (pixel x l) a b c).
Proof. intros Z0 A a b c C. destruct (pixel_channel x l a b c C) as [-> | I]; [exact Z0|exact (A _ I)]. Qed.
Example C72_laws_apply :
  valid_image bright /\ finite_image bright /\ transparent (pixel 0 [f 0; f 0; f 0; f 0])
  /\ (forall x y, f32_finite (f32_sub (f 1) (channel_at bright x y 3))).
Proof.
  split; [|split; [|split]].
  - intros x y c C. apply (pixel_all f32_ok); [reflexivity| |exact C]. intros v [<-|[<-|[<-|[<-|[]]]]]; vm_compute; reflexivity.
  - intros x y c C. apply (pixel_all f32_finite); [exact I| |exact C]. intros v [<-|[<-|[<-|[<-|[]]]]]; exact I.
  - intros x y c C. apply (pixel_all (fun v => exists s, v = S754_zero s)); [now exists false| |exact C].
    intros v [<-|[<-|[<-|[<-|[]]]]]; now exists false.
  - intros x y. apply (pixel_all (fun v => f32_finite (f32_sub (f 1) v))); [exact I| |lia]. intros v [<-|[<-|[<-|[<-|[]]]]]; exact I.
Qed.

(** The inputs of "over" cannot be swapped, nor those of "add" with a mix
    other than one: it fades the second input only. *)
Theorem C72_swap_refuted : exists a b r s r' s',
  float_image a /\ float_image b /\ im_data a = im_data b /\ finite_image a /\ finite_image b /\
  merge Release MOver a b (f 1) a = Ok (Some r) /\ merge Release MOver b a (f 1) a = Ok (Some s) /\ ~ same_picture r s /\
  merge Release MAdd a b (f 2) a = Ok (Some r') /\ merge Release MAdd b a (f 2) a = Ok (Some s') /\ ~ same_picture r' s'.
Proof.
  exists bright, other. do 4 eexists. split; [apply pixel_float; cbn; lia|]. split; [apply pixel_float; cbn; lia|]. split; [reflexivity|].
  split; [intros x y c C; apply (pixel_all f32_finite); [exact I| |exact C]; intros v [<-|[<-|[<-|[<-|[]]]]]; exact I|].
  split; [intros x y c C; apply (pixel_all f32_finite); [exact I| |exact C]; intros v [<-|[<-|[<-|[<-|[]]]]]; exact I|].
  split; [vm_compute; reflexivity|]. split; [vm_compute; reflexivity|].
  split; [intros (_ & _ & H); specialize (H 0 0 0 ltac:(lia)); vm_compute in H; discriminate H|].
  split; [vm_compute; reflexivity|]. split; [vm_compute; reflexivity|].
  intros (_ & _ & H); specialize (H 0 0 0 ltac:(lia)); vm_compute in H; discriminate H.
Qed.
Print Assumptions C72_swap_refuted.

(** Merging three pictures in the two possible orders differs by rounding:
    (2^24 + 1) + 1 is 2^24, 2^24 + (1 + 1) is not. *)
Theorem C72_grouping_refuted : exists a b c ab bc r s,
  finite_image a /\ finite_image b /\ finite_image c /\
  merge Release MAdd a b (f 1) a = Ok (Some ab) /\ merge Release MAdd ab c (f 1) a = Ok (Some r) /\
  merge Release MAdd b c (f 1) a = Ok (Some bc) /\ merge Release MAdd a bc (f 1) a = Ok (Some s) /\ ~ same_picture r s.
Proof.
  exists (pixel 0 [f 16777216; f 0; f 0]), (pixel 0 [f 1; f 0; f 0]), (pixel 0 [f 1; f 0; f 0]). do 4 eexists.
  split; [intros x y c C; apply (pixel_all f32_finite); [exact I| |exact C]; intros v [<-|[<-|[<-|[]]]]; exact I|].
  split; [intros x y c C; apply (pixel_all f32_finite); [exact I| |exact C]; intros v [<-|[<-|[<-|[]]]]; exact I|].
  split; [intros x y c C; apply (pixel_all f32_finite); [exact I| |exact C]; intros v [<-|[<-|[<-|[]]]]; exact I|].
  split; [vm_compute; reflexivity|]. split; [vm_compute; reflexivity|]. split; [vm_compute; reflexivity|]. split; [vm_compute; reflexivity|].
  intros (_ & _ & H); specialize (H 0 0 0 ltac:(lia)); vm_compute in H; discriminate H.
Qed.
Print Assumptions C72_grouping_refuted.

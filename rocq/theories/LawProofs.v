(** Proofs of the laws of merging. *)
From Coq Require Import Lia Floats.SpecFloat.
From Verif Require Import Machine Loops FloatModel BBoxModel BBoxSpec PixelModel PixelSpec MergeModel MergeSpec MergeProofs LawSpec.

Lemma add_comm x y : f32_add x y = f32_add y x.
Proof.
  unfold f32_add, SFadd. destruct x as [s|s| |s m e], y as [t|t| |t n f]; try reflexivity; try (destruct s, t; reflexivity).
  rewrite (Z.min_comm e f). f_equal. apply Z.add_comm.
Qed.
Lemma mul_comm x y : f32_mul x y = f32_mul y x.
Proof.
  unfold f32_mul, SFmul. destruct x as [s|s| |s m e], y as [t|t| |t n f]; try reflexivity; try (destruct s, t; reflexivity).
  rewrite (Bool.xorb_comm s t), (Pos.mul_comm m n), (Z.add_comm e f). reflexivity.
Qed.

Lemma merged_channel mode mix a b r x y c : merged mode mix a b r -> in_box (im_data r) x y -> 0 <= c < bs_nc (pb_size (im_block r)) ->
  channel_at r x y c = formula mode mix (channel_at a x y 3) (channel_at a x y c) (channel_at b x y c).
Proof.
  intros (_ & _ & _ & _ & P) B C. unfold channel_at at 1. specialize (P x y c B C).
  replace (in_boxb (im_data r) x y) with true by (symmetry; unfold in_boxb; unfold in_box in B; lia).
  destruct (Z.ltb_spec c (bs_nc (pb_size (im_block r)))); [|lia]. cbn [andb]. rewrite P. reflexivity.
Qed.
Lemma least_unique a b u v : least_window a b u -> least_window b a v -> u = v.
Proof.
  intros (A & B & C) (D & E & F). pose proof (C v E D) as (? & ? & ? & ?). pose proof (F u B A) as (? & ? & ? & ?).
  destruct u, v. cbn in *. f_equal; lia.
Qed.
Lemma outside_both a b r x y c : least_window (im_data a) (im_data b) (im_data r) -> ~ in_box (im_data r) x y ->
  channel_at a x y c = S754_zero false /\ channel_at b x y c = S754_zero false.
Proof.
  intros ((A & A2 & A3 & A4) & (B & B2 & B3 & B4) & _) N. split; apply channel_outside; intros I; apply N; unfold in_box in *; lia.
Qed.
Lemma channel_beyond im x y c : bs_nc (pb_size (im_block im)) <= c -> channel_at im x y c = S754_zero false.
Proof.
  intros H. unfold channel_at. destruct (Z.ltb_spec c (bs_nc (pb_size (im_block im)))); [lia|]. now rewrite andb_false_r.
Qed.
Lemma in_box_dec w x y : in_box w x y \/ ~ in_box w x y.
Proof. unfold in_box. lia. Qed.

Lemma swap_law : forall p mode a b o1 o2,
  mode = MAdd \/ mode = MMultiply -> float_image a -> float_image b ->
  well_formed (im_data a) -> well_formed (im_data b) -> merge_fits (im_data a) (im_data b) ->
  bs_nc (pb_size (im_block a)) = bs_nc (pb_size (im_block b)) -> valid_image a -> valid_image b ->
  exists r s, merge p mode a b (f32_of_Z 1) o1 = Ok (Some r) /\ merge p mode b a (f32_of_Z 1) o2 = Ok (Some s) /\ same_picture r s.
Proof.
  intros p mode a b o1 o2 M FA FB WA WB F N VA VB.
  assert (K : known_mode mode) by (unfold known_mode; tauto).
  assert (F' : merge_fits (im_data b) (im_data a)).
  { unfold merge_fits in *. rewrite (Z.max_comm (max_x (im_data b))), (Z.max_comm (max_y (im_data b))), (Z.min_comm (min_x (im_data b))), (Z.min_comm (min_y (im_data b))). exact F. }
  destruct (merge_exact p mode a b (f32_of_Z 1) o1 K FA FB WA WB F) as (r & E & R).
  destruct (merge_exact p mode b a (f32_of_Z 1) o2 K FB FA WB WA F') as (s & E' & S).
  exists r, s. split; [exact E|]. split; [exact E'|].
  assert (LR := proj1 R). assert (LS := proj1 S). assert (NR : bs_nc (pb_size (im_block r)) = bs_nc (pb_size (im_block b))) by apply R.
  assert (NS : bs_nc (pb_size (im_block s)) = bs_nc (pb_size (im_block a))) by apply S.
  assert (W : im_data r = im_data s) by (eapply least_unique; [exact LR|exact LS]).
  split; [exact W|]. split; [congruence|]. intros x y c C.
  destruct (in_box_dec (im_data r) x y) as [I|I].
  2: { rewrite channel_outside by exact I. rewrite channel_outside by (rewrite <- W; exact I). reflexivity. }
  destruct (Z.lt_ge_cases c (bs_nc (pb_size (im_block r)))) as [L|L].
  2: { rewrite !channel_beyond by lia. reflexivity. }
  rewrite (merged_channel _ _ _ _ _ _ _ _ R I) by lia. rewrite (merged_channel _ _ _ _ _ x y c S) by (try lia; rewrite <- W; exact I).
  destruct M as [-> | ->]; unfold formula; rewrite !f32_mul_one by (apply VA || apply VB; exact C); [apply add_comm|apply mul_comm].
Qed.

Lemma shows_from p mode mix a b o s : known_mode mode -> float_image a -> float_image b ->
  well_formed (im_data a) -> well_formed (im_data b) -> merge_fits (im_data a) (im_data b) ->
  (forall x y c, 0 <= c -> same_number (formula mode mix (channel_at a x y 3) (channel_at a x y c) (channel_at b x y c)) (channel_at s x y c)) ->
  (forall u, least_window (im_data a) (im_data b) u -> forall x y c, ~ in_box u x y -> channel_at s x y c = S754_zero false) ->
  exists r, merge p mode a b mix o = Ok (Some r) /\ shows_picture r a b s.
Proof.
  intros K FA FB WA WB F H O. destruct (merge_exact p mode a b mix o K FA FB WA WB F) as (r & E & R).
  exists r. split; [exact E|]. split; [apply R|]. intros x y c C.
  destruct (in_box_dec (im_data r) x y) as [I|I].
  - rewrite (merged_channel _ _ _ _ _ _ _ _ R I C). apply H. lia.
  - rewrite channel_outside by exact I. rewrite (O (im_data r)) by (exact I || apply R). apply same_refl.
Qed.
Lemma finite_not_nan x : f32_finite x -> x <> S754_nan.
Proof. intros H ->. exact H. Qed.

Lemma mix_zero_law : forall p mode a b o sg,
  mode = MAdd \/ (mode = MOver /\ forall x y, f32_finite (f32_sub (f32_of_Z 1) (channel_at a x y 3))) ->
  float_image a -> float_image b -> well_formed (im_data a) -> well_formed (im_data b) -> merge_fits (im_data a) (im_data b) ->
  finite_image a -> finite_image b ->
  exists r, merge p mode a b (S754_zero sg) o = Ok (Some r) /\ shows_picture r a b a.
Proof.
  intros p mode a b o sg M FA FB WA WB F VA VB. apply shows_from; try assumption.
  - unfold known_mode. tauto.
  - intros x y c C. destruct M as [-> | (-> & AL)].
    + unfold formula. destruct (mul_zero_r sg (channel_at b x y c) (VB x y c C)) as (t & ->). apply add_zero_r, finite_not_nan, VA, C.
    + unfold formula. destruct (mul_zero_r sg _ (AL x y)) as (t & ->). destruct (mul_zero_r t (channel_at b x y c) (VB x y c C)) as (t' & ->).
      apply add_zero_r, finite_not_nan, VA, C.
  - intros u L x y c N. apply channel_outside. intros I. apply N. destruct L as ((? & ? & ? & ?) & _). unfold in_box in *. lia.
Qed.

Lemma transparent_law : forall p mode a b o,
  mode = MAdd \/ mode = MOver ->
  float_image a -> float_image b -> well_formed (im_data a) -> well_formed (im_data b) -> merge_fits (im_data a) (im_data b) ->
  transparent a -> valid_image b -> finite_image b ->
  exists r, merge p mode a b (f32_of_Z 1) o = Ok (Some r) /\ shows_picture r a b b.
Proof.
  intros p mode a b o M FA FB WA WB F T VB NB. apply shows_from; try assumption.
  - unfold known_mode. tauto.
  - intros x y c C. destruct (T x y c C) as (s & E). destruct (T x y 3 ltac:(lia)) as (s' & E'). rewrite E, E'.
    assert (X : f32_mul (f32_sub (f32_of_Z 1) (S754_zero s')) (f32_of_Z 1) = f32_of_Z 1) by (destruct s'; reflexivity).
    destruct M as [-> | ->]; unfold formula; [|rewrite X]; rewrite f32_mul_one by (apply VB, C); apply add_zero_l, finite_not_nan, NB, C.
  - intros u L x y c N. apply channel_outside. intros I. apply N. destruct L as (_ & (? & ? & ? & ?) & _). unfold in_box in *. lia.
Qed.

Lemma black_background_law : forall p mode mix a b o,
  mode = MAdd \/ (mode = MOver /\ forall x y, f32_finite (f32_mul (f32_sub (f32_of_Z 1) (channel_at a x y 3)) mix)) ->
  f32_finite mix ->
  float_image a -> float_image b -> well_formed (im_data a) -> well_formed (im_data b) -> merge_fits (im_data a) (im_data b) ->
  transparent b -> finite_image a ->
  exists r, merge p mode a b mix o = Ok (Some r) /\ shows_picture r a b a.
Proof.
  intros p mode mix a b o M FM FA FB WA WB F T NA. apply shows_from; try assumption.
  - unfold known_mode. tauto.
  - intros x y c C. destruct (T x y c C) as (s & ->). destruct M as [-> | (-> & AL)].
    + apply add_outside_b; [exact FM|apply finite_not_nan, NA, C].
    + apply over_outside_b; [exact FM|apply AL|apply finite_not_nan, NA, C].
  - intros u L x y c N. apply channel_outside. intros I. apply N. destruct L as ((? & ? & ? & ?) & _). unfold in_box in *. lia.
Qed.

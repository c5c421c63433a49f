(** Proofs: whole numbers below and above floats. *)
From Coq Require Import Floats.SpecFloat.
From Verif Require Import Machine FloatModel BBoxModel PixelModel PixelSpec StreamModel DeformModel RemapSpec RemapProofs EdgeSpec.

Lemma floor_shift_spec v e k : k * 2 ^ Z.max 0 (- e) <= v * 2 ^ Z.max 0 e <-> k <= floor_shift v e.
Proof.
  unfold floor_shift. destruct (Z.leb_spec 0 e).
  - rewrite Z.shiftl_mul_pow2, Z.max_l, Z.max_r by lia. rewrite Z.pow_0_r. lia.
  - rewrite Z.shiftr_div_pow2, Z.max_r, Z.max_l by lia. rewrite Z.pow_0_r.
    assert (P : 0 < 2 ^ (- e)) by (apply Z.pow_pos_nonneg; lia). set (d := 2 ^ (- e)) in *. clearbody d.
    split; intros L.
    + apply Z.div_le_lower_bound; nia.
    + pose proof (Z.mul_div_le v d P). nia.
Qed.
Lemma signed (s : bool) m : (if s then -1 else 1) * Zpos m = cond_Zopp s (Zpos m).
Proof. destruct s; cbn; lia. Qed.

Lemma floor_greatest v : greatest_below v (f32_floor_as_i32 v).
Proof.
  unfold greatest_below, is_i32. destruct v as [s|[]| |s m e]; cbn [f32_floor_as_i32].
  - split; [cbn; unfold two31; lia|]. split; [discriminate|]. intros _. cbn [below num den].
    change (f32_as_i32 (S754_zero s)) with 0. split; [intros; lia|left; lia].
  - split; [cbn; unfold two31; lia|]. split; [discriminate|]. intros _. cbn [below]. split; [discriminate|]. right. reflexivity.
  - split; [cbn; unfold two31; lia|]. split; [discriminate|]. intros _. cbn [below]. split; [|now left]. unfold two31. intros k K _. cbn. lia.
  - split; [cbn; unfold two31; lia|]. split; [reflexivity|]. congruence.
  - split; [unfold sat_i32, two31; lia|]. split; [discriminate|]. intros _. cbn [below num den]. rewrite signed.
    pose proof (floor_shift_spec (cond_Zopp s (Zpos m)) e) as F. split.
    + intros k K B. apply F in B. unfold sat_i32, two31 in *. lia.
    + destruct (Z.le_gt_cases (- two31) (floor_shift (cond_Zopp s (Zpos m)) e)) as [L|L].
      * left. apply F. unfold sat_i32, two31 in *. lia.
      * right. unfold sat_i32, two31 in *. lia.
Qed.
Lemma ceil_least v : least_above v (f32_ceil_as_i32 v).
Proof.
  unfold least_above, is_i32. destruct v as [s|[]| |s m e]; cbn [f32_ceil_as_i32].
  - split; [cbn; unfold two31; lia|]. split; [discriminate|]. intros _. cbn [above num den].
    change (f32_as_i32 (S754_zero s)) with 0. split; [intros; lia|left; lia].
  - split; [cbn; unfold two31; lia|]. split; [discriminate|]. intros _. cbn [above]. split; [|now left]. unfold two31. intros k K _. cbn. lia.
  - split; [cbn; unfold two31; lia|]. split; [discriminate|]. intros _. cbn [above]. split; [discriminate|]. right. reflexivity.
  - split; [cbn; unfold two31; lia|]. split; [reflexivity|]. congruence.
  - split; [unfold sat_i32, two31; lia|]. split; [discriminate|]. intros _. cbn [above num den]. rewrite signed.
    assert (F : forall k, cond_Zopp s (Zpos m) * 2 ^ Z.max 0 e <= k * 2 ^ Z.max 0 (- e) <-> - floor_shift (- cond_Zopp s (Zpos m)) e <= k).
    { intros k. pose proof (floor_shift_spec (- cond_Zopp s (Zpos m)) e (- k)) as F. rewrite !Z.mul_opp_l in F. lia. }
    split.
    + intros k K B. apply F in B. unfold sat_i32, two31 in *. lia.
    + destruct (Z.le_gt_cases (- floor_shift (- cond_Zopp s (Zpos m)) e) (two31 - 1)) as [L|L].
      * left. apply F. unfold sat_i32, two31 in *. lia.
      * right. unfold sat_i32, two31 in *. lia.
Qed.

Theorem window_encloses nx p ds display blk win dst w' b : enabled ds <> [] ->
  fold_box nx (enabled ds) (bboxf_of win) (bboxf_of display) = Ok b ->
  deform_pixels nx p ds display blk win = Ok (dst, w') -> encloses b w'.
Proof.
  intros NE FB H. unfold deform_pixels in H. destruct (enabled ds) as [|e es] eqn:EN; [now elim NE|]. rewrite <- EN in *.
  rewrite FB in H. cbn [bind] in H.
  assert (E : w' = BBox (f32_floor_as_i32 (fmin_x b)) (f32_floor_as_i32 (fmin_y b)) (f32_ceil_as_i32 (fmax_x b)) (f32_ceil_as_i32 (fmax_y b))).
  { destruct (width_i32 _ _) as [dw|]; [|discriminate]. cbn [bind] in H. destruct (height_i32 _ _) as [dh|]; [|discriminate]. cbn [bind] in H.
    destruct (pb_resize _ _ _ _) as [d|]; [|discriminate]. cbn [bind] in H. destruct (_ || _); [discriminate|].
    match type of H with bind ?a _ = _ => destruct a as [coords|]; [|discriminate] end. cbn [bind] in H. destruct (pb_data blk); try discriminate.
    destruct (negb _); [discriminate|].
    repeat (match type of H with bind ?a _ = _ => destruct a; [|discriminate]; cbn [bind] in H end). injection H as _ <-. reflexivity. }
  subst w'. split; [apply floor_greatest|split; [apply floor_greatest|split; apply ceil_least]].
Qed.

Lemma greatest_unique v z z' : greatest_below v z -> greatest_below v z' -> z = z'.
Proof.
  intros (A1 & A2 & A3) (B1 & B2 & B3). assert (N : v = S754_nan \/ v <> S754_nan) by (destruct v; [right|right|left|right]; congruence).
  destruct N as [N|N]; [rewrite A2, B2 by exact N; reflexivity|]. destruct (A3 N) as (A & A'). destruct (B3 N) as (B & B').
  unfold is_i32 in *. destruct A' as [A' |A'], B' as [B' |B'].
  - pose proof (A z' B1 B'). pose proof (B z A1 A'). lia.
  - pose proof (B z A1 A'). lia.
  - pose proof (A z' B1 B'). lia.
  - congruence.
Qed.
Lemma least_unique v z z' : least_above v z -> least_above v z' -> z = z'.
Proof.
  intros (A1 & A2 & A3) (B1 & B2 & B3). assert (N : v = S754_nan \/ v <> S754_nan) by (destruct v; [right|right|left|right]; congruence).
  destruct N as [N|N]; [rewrite A2, B2 by exact N; reflexivity|]. destruct (A3 N) as (A & A'). destruct (B3 N) as (B & B').
  unfold is_i32 in *. destruct A' as [A' |A'], B' as [B' |B'].
  - pose proof (A z' B1 B'). pose proof (B z A1 A'). lia.
  - pose proof (B z A1 A'). lia.
  - pose proof (A z' B1 B'). lia.
  - congruence.
Qed.
Lemma encloses_rounds b w : encloses b w ->
  w = BBox (f32_floor_as_i32 (fmin_x b)) (f32_floor_as_i32 (fmin_y b)) (f32_ceil_as_i32 (fmax_x b)) (f32_ceil_as_i32 (fmax_y b)).
Proof.
  intros (A & B & C & D). destruct w as [a b' c d]. cbn [BBoxModel.min_x BBoxModel.min_y BBoxModel.max_x BBoxModel.max_y] in *.
  f_equal; [exact (greatest_unique _ _ _ A (floor_greatest _))|exact (greatest_unique _ _ _ B (floor_greatest _))|
    exact (least_unique _ _ _ C (ceil_least _))|exact (least_unique _ _ _ D (ceil_least _))].
Qed.

Theorem runs_enclosed nx p ds display blk win b :
  enabled ds <> [] -> float_picture blk -> coords_small win ->
  fold_box nx (enabled ds) (bboxf_of win) (bboxf_of display) = Ok b ->
  forall w', encloses b w' -> min_x w' < max_x w' -> min_y w' < max_y w' ->
  (max_x w' - min_x w') * (max_y w' - min_y w') * bs_nc (pb_size blk) < two31 ->
  (forall x y, min_x w' <= x < max_x w' -> min_y w' <= y < max_y w' ->
     exists q, taken_back nx display (enabled ds) (centre x, centre y) = Ok q) ->
  exists dst, deform_pixels nx p ds display blk win = Ok (dst, w').
Proof. intros NE FP CS FB w' EN. rewrite (encloses_rounds b w' EN). exact (deform_pixels_runs nx p ds display blk win b NE FP CS FB). Qed.

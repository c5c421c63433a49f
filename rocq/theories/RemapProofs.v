(** Baking deformations, pixel by pixel. *)
From Coq Require Import Floats.SpecFloat.
From Verif Require Import Machine Loops FloatModel BBoxModel PixelModel PixelSpec PixelProofs PixelProofs2
  AttrModel StreamModel GradeModel DeformModel RemapSpec.

Lemma Ok_inj {A} (a b : A) : Ok a = Ok b -> a = b.
Proof. now intros [= ->]. Qed.

(** ** Positions as pairs *)
Fixpoint flat2 (ps : list (f32 * f32)) : list f32 :=
  match ps with [] => [] | (x, y) :: t => x :: y :: flat2 t end.

Lemma flat2_app a b : flat2 (a ++ b) = (flat2 a ++ flat2 b)%list.
Proof. induction a as [|[x y] a IH]; [reflexivity|]. cbn [flat2 app]. now rewrite IH. Qed.
Lemma flat2_length ps : length (flat2 ps) = (2 * length ps)%nat.
Proof. induction ps as [|[x y] ps IH]; [reflexivity|]. cbn [flat2 length]. lia. Qed.

Fixpoint map_res {A B} (f : A -> Res B) (l : list A) : Res (list B) :=
  match l with [] => Ok [] | a :: t => let* b := f a in let* r := map_res f t in Ok (b :: r) end.

Lemma map_res_nth {A B} (f : A -> Res B) l : forall r i a, map_res f l = Ok r -> nth_error l i = Some a ->
  exists b, f a = Ok b /\ nth_error r i = Some b.
Proof.
  induction l as [|x l IH]; intros r i a H N; [now destruct i|].
  cbn [map_res] in H. destruct (f x) as [b|] eqn:E; [|discriminate]. cbn [bind] in H.
  destruct (map_res f l) as [t|]; [|discriminate]. cbn [bind] in H. apply Ok_inj in H. subst r.
  destruct i as [|i]; cbn [nth_error] in *.
  - injection N as ->. eauto.
  - eapply IH; eauto.
Qed.
Lemma map_res_length {A B} (f : A -> Res B) l : forall r, map_res f l = Ok r -> length r = length l.
Proof.
  induction l as [|x l IH]; intros r H; cbn [map_res] in H; [apply Ok_inj in H; now subst|].
  destruct (f x) as [b|]; [|discriminate]. cbn [bind] in H.
  destruct (map_res f l) as [t|]; [|discriminate]. cbn [bind] in H. apply Ok_inj in H. subst r.
  cbn [length]. f_equal. now apply IH.
Qed.
Lemma map_res_ok {A B} (f : A -> Res B) l : (forall a, In a l -> exists b, f a = Ok b) -> exists r, map_res f l = Ok r.
Proof.
  induction l as [|x l IH]; intro H; [exists []; reflexivity|].
  destruct (H x (or_introl eq_refl)) as (b & E). destruct IH as (r & R); [intros a Ha; apply H; now right|].
  exists (b :: r). cbn [map_res]. rewrite E. cbn [bind]. now rewrite R.
Qed.

Lemma map_xy2_flat f ps : map_xy2 f (flat2 ps) = (let* r := map_res f ps in Ok (flat2 r)).
Proof.
  induction ps as [|[x y] ps IH]; [reflexivity|]. cbn [flat2 map_xy2 map_res].
  destruct (f (x, y)) as [[a b]|]; [|reflexivity]. cbn [bind]. rewrite IH.
  destruct (map_res f ps); reflexivity.
Qed.

Lemma map_res_bind {A B C} (f : A -> Res B) (g : B -> Res C) l :
  forall r t, map_res f l = Ok r -> map_res g r = Ok t -> map_res (fun a => let* b := f a in g b) l = Ok t.
Proof.
  induction l as [|x l IH]; intros r t H K; cbn [map_res] in *.
  - apply Ok_inj in H. subst r. exact K.
  - destruct (f x) as [b|]; [|discriminate]. cbn [bind] in *.
    destruct (map_res f l) as [u|]; [|discriminate]. cbn [bind] in *. apply Ok_inj in H. subst r.
    cbn [map_res] in K. destruct (g b) as [c|]; [|discriminate]. cbn [bind] in *.
    destruct (map_res g u) as [v|] eqn:G; [|discriminate]. cbn [bind] in *. now rewrite (IH u v eq_refl G).
Qed.

Section Remap.
Variables (nx : numerics) (p : profile).

Lemma apply_each_flat display ds : forall ps r,
  apply_each (fun d => map_xy2 (deform_point nx d (bboxf_of display) true)) ds (flat2 ps) = Ok r ->
  exists qs, r = flat2 qs /\ map_res (taken_back nx display ds) ps = Ok qs.
Proof.
  induction ds as [|d ds IH]; intros ps r H; cbn [apply_each] in H.
  - apply Ok_inj in H. exists ps. split; [now symmetry|]. clear. induction ps as [|a ps IH]; [reflexivity|].
    cbn [map_res]. rewrite IH. reflexivity.
  - rewrite map_xy2_flat in H.
    destruct (map_res (deform_point nx d (bboxf_of display) true) ps) as [us|] eqn:E; [|discriminate]. cbn [bind] in H.
    destruct (IH us r H) as (qs & -> & Q). exists qs. split; [reflexivity|].
    change (taken_back nx display (d :: ds)) with
      (fun q => let* q := deform_point nx d (bboxf_of display) true q in taken_back nx display ds q).
    now apply map_res_bind with us.
Qed.

Lemma apply_each_total display ds : forall ps,
  (forall q, In q ps -> exists q', taken_back nx display ds q = Ok q') ->
  exists r, apply_each (fun d => map_xy2 (deform_point nx d (bboxf_of display) true)) ds (flat2 ps) = Ok r.
Proof.
  induction ds as [|d ds IH]; intros ps H; cbn [apply_each]; [eauto|].
  rewrite map_xy2_flat.
  destruct (map_res_ok (deform_point nx d (bboxf_of display) true) ps) as (us & U).
  { intros a Ha. destruct (H a Ha) as (q' & Q). cbn [taken_back] in Q.
    destruct (deform_point nx d (bboxf_of display) true a) as [b|]; [eauto|discriminate]. }
  rewrite U. cbn [bind]. apply IH. intros q Hq.
  apply In_nth_error in Hq. destruct Hq as (i & Hi).
  assert (L : (i < length ps)%nat) by (rewrite <- (map_res_length _ _ _ U); apply nth_error_Some; congruence).
  destruct (nth_error ps i) as [a|] eqn:Ea; [|apply nth_error_None in Ea; lia].
  destruct (map_res_nth _ _ _ _ _ U Ea) as (b & Eb & Nb).
  destruct (H a (nth_error_In _ _ Ea)) as (q' & Q). cbn [taken_back] in Q. rewrite Eb in Q. cbn [bind] in Q.
  exists q'. congruence.
Qed.

(** ** The grid of pixel centres *)
Definition grid (w : bbox) : list (f32 * f32) :=
  flat_map (fun row => map (fun col => (centre col, centre row)) (zrange (min_x w) (max_x w))) (zrange (min_y w) (max_y w)).

Lemma centres_grid w : pixel_centres w = flat2 (grid w).
Proof.
  unfold pixel_centres, grid. generalize (DeformModel.zrange (min_y w) (max_y w)) as rows.
  induction rows as [|r rows IH]; [reflexivity|]. cbn [flat_map]. rewrite flat2_app, <- IH. f_equal. clear.
  generalize (DeformModel.zrange (min_x w) (max_x w)) as cols. induction cols as [|c cols IH]; [reflexivity|].
  cbn [flat_map map flat2 app]. now rewrite IH.
Qed.

Lemma zrange_length a b : length (DeformModel.zrange a b) = Z.to_nat (b - a).
Proof. unfold DeformModel.zrange. now rewrite map_length, seq_length. Qed.
Lemma zrange_nth a b i : 0 <= i < b - a -> nth_error (DeformModel.zrange a b) (Z.to_nat i) = Some (a + i).
Proof.
  intro H. unfold DeformModel.zrange. rewrite nth_error_map.
  assert (E : nth_error (seq 0 (Z.to_nat (b - a))) (Z.to_nat i) = Some (Z.to_nat i)).
  { rewrite (nth_error_nth' _ 0%nat) by (rewrite seq_length; lia). rewrite seq_nth by lia. f_equal. }
  rewrite E. cbn [option_map]. f_equal. lia.
Qed.

Lemma nth_flat_map {A B} (f : A -> list B) n (HF : forall a, length (f a) = n) : forall l i a j b,
  nth_error l i = Some a -> (j < n)%nat -> nth_error (f a) j = Some b -> nth_error (flat_map f l) (i * n + j) = Some b.
Proof.
  induction l as [|x l IH]; intros i a j b Hi Hj Hb; [now destruct i|].
  destruct i as [|i]; cbn [nth_error flat_map] in *.
  - injection Hi as ->. rewrite nth_error_app1 by (rewrite HF; lia). exact Hb.
  - rewrite nth_error_app2 by (rewrite HF; lia). rewrite HF.
    replace (S i * n + j - n)%nat with (i * n + j)%nat by lia. eapply IH; eauto.
Qed.
Lemma flat_map_len {A B} (f : A -> list B) n (HF : forall a, length (f a) = n) l : length (flat_map f l) = (length l * n)%nat.
Proof. induction l as [|x l IH]; [reflexivity|]. cbn [flat_map length]. rewrite app_length, HF, IH. lia. Qed.

Lemma grid_length w : length (grid w) = (Z.to_nat (max_y w - min_y w) * Z.to_nat (max_x w - min_x w))%nat.
Proof.
  unfold grid. rewrite (flat_map_len _ (Z.to_nat (max_x w - min_x w))).
  - now rewrite zrange_length.
  - intro a. now rewrite map_length, zrange_length.
Qed.
Lemma grid_nth w x y : min_x w <= x < max_x w -> min_y w <= y < max_y w ->
  nth_error (grid w) (Z.to_nat ((y - min_y w) * (max_x w - min_x w) + (x - min_x w))) = Some (centre x, centre y).
Proof.
  intros Hx Hy. unfold grid.
  replace (Z.to_nat ((y - min_y w) * (max_x w - min_x w) + (x - min_x w)))
    with (Z.to_nat (y - min_y w) * Z.to_nat (max_x w - min_x w) + Z.to_nat (x - min_x w))%nat by nia.
  eapply nth_flat_map.
  - intro a. now rewrite map_length, zrange_length.
  - apply zrange_nth. lia.
  - lia.
  - rewrite nth_error_map, zrange_nth by lia. cbn [option_map]. do 3 f_equal; lia.
Qed.

Lemma grid_in w q : In q (grid w) -> exists x y, q = (centre x, centre y) /\ min_x w <= x < max_x w /\ min_y w <= y < max_y w.
Proof.
  unfold grid. rewrite in_flat_map. intros (r & Hr & Hq). apply in_map_iff in Hq. destruct Hq as (c & <- & Hc).
  unfold DeformModel.zrange in Hr, Hc. apply in_map_iff in Hr, Hc. destruct Hr as (i & <- & Hi), Hc as (j & <- & Hj).
  apply in_seq in Hi, Hj. do 2 eexists. split; [reflexivity|]. lia.
Qed.

(** ** Rounding a coordinate *)
Lemma rounds_finite s m e : rounds_to (S754_finite s m e) (cond_Zopp s (mag_round m e)).
Proof.
  assert (P : rounds_to (S754_finite false m e) (mag_round m e) /\ 0 <= mag_round m e).
  { destruct (mag_round_bounds m e) as [B N]. split; [|exact N]. split; [exact B|]. intro T.
    rewrite (Z.abs_eq (mag_round m e)) by exact N.
    unfold sf_num, sf_den, mag_round in *. destruct (Z.leb_spec 0 e).
    - rewrite Z.max_l in * by lia. rewrite (Z.max_r (- e) 0) in * by lia.
      rewrite Z.shiftl_mul_pow2 in * by lia.
      replace (1 * (Z.pos m * 2 ^ e) - Z.pos m * 2 ^ e * 2 ^ 0) with 0 in T by (rewrite Z.pow_0_r; ring).
      rewrite Z.pow_0_r in T. exfalso. revert T. cbn [Z.abs Z.mul]. lia.
    - rewrite Z.max_r in * by lia. rewrite (Z.max_l (- e) 0) in * by lia.
      rewrite Z.shiftr_div_pow2 in * by lia. rewrite Z.shiftl_mul_pow2 in * by lia.
      replace (2 ^ (- e)) with (2 * 2 ^ (- e - 1)) in * by (rewrite <- Z.pow_succ_r by lia; f_equal; lia).
      assert (Hd : 0 < 2 ^ (- e - 1)) by (apply Z.pow_pos_nonneg; lia).
      set (d := 2 ^ (- e - 1)) in *. rewrite Z.pow_0_r, !Z.mul_1_l, Z.mul_1_r in *.
      pose proof (Z.div_mod (Z.pos m + d) (2 * d) ltac:(lia)) as D.
      pose proof (Z.mod_pos_bound (Z.pos m + d) (2 * d) ltac:(lia)) as M.
      set (q := (Z.pos m + d) / (2 * d)) in *. lia. }
  destruct P as ((B & T) & N). destruct s; unfold cond_Zopp; [|split; assumption].
  unfold rounds_to. rewrite sf_opp_num, sf_opp_den. split; lia.
Qed.

Lemma clamp_picked x n : 1 <= n < two31 -> exists k, clamp_coord p x n = Ok k /\ picked x n k /\ 0 <= k < n.
Proof.
  intro Hn. unfold clamp_coord. rewrite i32c by lia. cbn [bind]. eexists. split; [reflexivity|]. split; [|lia].
  destruct x as [s|s| |s m e]; unfold picked, f32_round_as_i32.
  - exists 0. split; [|lia]. split; cbn [sf_num sf_den]; lia.
  - destruct s; unfold two31 in *; lia.
  - lia.
  - eexists. split; [apply rounds_finite|]. unfold two31 in *. lia.
Qed.

(** ** The pixels of the result *)
Lemma remap_px display src smx smy pixels w h nc x y :
  block4_ok w h nc -> nc = 3 \/ nc = 4 -> zlen pixels = w * h * nc ->
  exists px sx sy,
    (if nc =? 4
     then let* (r, g, b, a) := sample_rgba p pixels w h nc (w * nc)
            (remap (fmin_x display) (fmax_x display) (f32_of_Z (min_x src)) (f32_of_Z smx) x)
            (remap (fmin_y display) (fmax_y display) (f32_of_Z (min_y src)) (f32_of_Z smy) y) in Ok [r; g; b; a]
     else let* (r, g, b) := sample_rgb p pixels w h nc (w * nc)
            (remap (fmin_x display) (fmax_x display) (f32_of_Z (min_x src)) (f32_of_Z smx) x)
            (remap (fmin_y display) (fmax_y display) (f32_of_Z (min_y src)) (f32_of_Z smy) y) in Ok [r; g; b]) = Ok px /\
    length px = Z.to_nat nc /\
    picked (remap (fmin_x display) (fmax_x display) (f32_of_Z (min_x src)) (f32_of_Z smx) x) w sx /\
    picked (remap (fmin_y display) (fmax_y display) (f32_of_Z (min_y src)) (f32_of_Z smy) y) h sy /\
    0 <= sx < w /\ 0 <= sy < h /\
    forall c, 0 <= c < nc -> at_z px c = at_z pixels ((sy * w + sx) * nc + c).
Proof.
  intros HB Hnc HL. pose proof HB as (Hw & Hh & _).
  set (X := remap _ _ _ _ x). set (Y := remap _ _ _ _ y).
  destruct (clamp_picked X w Hw) as (sx & Ex & Nx & Rx).
  destruct (clamp_picked Y h Hh) as (sy & Ey & Ny & Ry).
  destruct (sample_index p w h nc sx sy HB Rx Ry) as (Ei & R1 & R2).
  set (i := (sy * w + sx) * nc) in *.
  destruct (at_z_some pixels i ltac:(lia)) as (r & Vr).
  destruct (at_z_some pixels (i + 1) ltac:(lia)) as (g & Vg).
  destruct (at_z_some pixels (i + 2) ltac:(lia)) as (b & Vb).
  destruct Hnc as [-> | ->].
  - exists [r; g; b], sx, sy. split; [|split; [reflexivity|]; repeat (split; [assumption|])].
    + change (3 =? 4) with false. cbn iota. unfold sample_rgb. rewrite Ex. cbn [bind]. rewrite Ey. cbn [bind]. rewrite Ei. cbn [bind].
      replace (i >=? 0) with true by lia. replace (i + 0) with i by lia.
      rewrite (idx_ok _ _ _ Vr), (idx_ok _ _ _ Vg), (idx_ok _ _ _ Vb). reflexivity.
    + fold i. intros c Hc. assert (c = 0 \/ c = 1 \/ c = 2) as [-> | [-> | ->]] by lia.
      * rewrite Z.add_0_r, Vr. reflexivity.
      * rewrite Vg. reflexivity.
      * rewrite Vb. reflexivity.
  - destruct (at_z_some pixels (i + 3) ltac:(lia)) as (a & Va).
    exists [r; g; b; a], sx, sy. split; [|split; [reflexivity|]; repeat (split; [assumption|])].
    + change (4 =? 4) with true. cbn iota. unfold sample_rgba. rewrite Ex. cbn [bind]. rewrite Ey. cbn [bind]. rewrite Ei. cbn [bind].
      replace (i >=? 0) with true by lia. replace (i + 0) with i by lia.
      rewrite (idx_ok _ _ _ Vr), (idx_ok _ _ _ Vg), (idx_ok _ _ _ Vb), (idx_ok _ _ _ Va). reflexivity.
    + fold i. intros c Hc. assert (c = 0 \/ c = 1 \/ c = 2 \/ c = 3) as [-> | [-> | [-> | ->]]] by lia.
      * rewrite Z.add_0_r, Vr. reflexivity.
      * rewrite Vg. reflexivity.
      * rewrite Vb. reflexivity.
      * rewrite Va. reflexivity.
Qed.

Lemma remap_ok display src smx smy pixels w h nc :
  block4_ok w h nc -> nc = 3 \/ nc = 4 -> zlen pixels = w * h * nc ->
  forall qs, exists out,
    remap_pixels p display src smx smy pixels w h nc (w * nc) (flat2 qs) = Ok out /\
    length out = (length qs * Z.to_nat nc)%nat /\
    forall i x y, nth_error qs i = Some (x, y) ->
      exists sx sy,
        picked (remap (fmin_x display) (fmax_x display) (f32_of_Z (min_x src)) (f32_of_Z smx) x) w sx /\
        picked (remap (fmin_y display) (fmax_y display) (f32_of_Z (min_y src)) (f32_of_Z smy) y) h sy /\
        0 <= sx < w /\ 0 <= sy < h /\
        forall c, 0 <= c < nc -> at_z out (Z.of_nat i * nc + c) = at_z pixels ((sy * w + sx) * nc + c).
Proof.
  intros HB Hnc HL. induction qs as [|[x y] qs (out & E & L & V)].
  - exists []. split; [reflexivity|]. split; [reflexivity|]. intros [|i] x y H; discriminate.
  - cbn [flat2 remap_pixels].
    destruct (remap_px display src smx smy pixels w h nc x y HB Hnc HL) as (px & sx & sy & Ep & Lp & P1 & P2 & R1 & R2 & Vp).
    rewrite Ep. cbn [bind]. rewrite E. cbn [bind]. exists (px ++ out)%list. split; [reflexivity|].
    split; [rewrite app_length, Lp, L; cbn [length]; lia|].
    assert (Lz : zlen px = nc) by (unfold zlen; rewrite Lp; lia).
    intros [|i] x' y' N; cbn [nth_error] in N.
    + injection N as <- <-. exists sx, sy. repeat (split; [assumption|]). intros c Hc.
      rewrite at_z_app1 by lia. rewrite <- Vp by exact Hc. reflexivity.
    + destruct (V i x' y' N) as (sx' & sy' & Q1 & Q2 & S1 & S2 & W). exists sx', sy'. repeat (split; [assumption|]).
      intros c Hc. rewrite at_z_app2 by lia. rewrite <- W by exact Hc. f_equal. lia.
Qed.

Lemma i32_of_dims a b d : - two31 <= a < two31 -> - two31 <= b < two31 -> i32_of p (b - a) = Ok d -> 0 < d ->
  a <= b -> d = b - a.
Proof.
  intros Ha Hb H Hd L. unfold i32_of in H. destruct (in_i32 (b - a)) eqn:E; [now apply Ok_inj in H|].
  destruct p; [discriminate|]. apply Ok_inj in H. exfalso. subst d.
  assert (two31 <= b - a < two32) by (unfold in_i32, two31, two32 in *; lia).
  revert Hd. unfold wrap_i32.
  replace ((b - a + two31) mod two32) with (b - a + two31 - two32); [unfold two31, two32 in *; lia|].
  apply Z.mod_unique with 1; unfold two31, two32 in *; lia.
Qed.

Lemma sat_range z : - two31 <= sat_i32 z < two31.
Proof. unfold sat_i32, two31. lia. Qed.
Lemma as_i32_range v : - two31 <= f32_as_i32 v < two31.
Proof. unfold f32_as_i32, f_as_int, two31. destruct v as [s|[]| |s m e]; lia. Qed.
Lemma floor_range v : - two31 <= f32_floor_as_i32 v < two31.
Proof. destruct v; cbn [f32_floor_as_i32]; try apply as_i32_range. apply sat_range. Qed.
Lemma ceil_range v : - two31 <= f32_ceil_as_i32 v < two31.
Proof. destruct v; cbn [f32_ceil_as_i32]; try apply as_i32_range. apply sat_range. Qed.

Lemma float_block4 b : float_picture b -> block4_ok (bs_w (pb_size b)) (bs_h (pb_size b)) (bs_nc (pb_size b)).
Proof.
  intros (_ & _ & Hnc & Hw & Hh & F). unfold block4_ok. unfold two31 in *.
  set (w := bs_w (pb_size b)) in *. set (h := bs_h (pb_size b)) in *. set (n := bs_nc (pb_size b)) in *.
  clearbody w h n. clear b. assert (1 <= w * h) by nia.
  assert (w <= w * h) by nia. assert (h <= w * h) by nia. assert (w * h <= w * h * n) by nia.
  assert (w * n <= w * h * n) by nia. replace (h * (w * n)) with (w * h * n) by ring. lia.
Qed.

Lemma final_pixels display ds blk l win w' qs out smx smy :
  pb_data blk = DF32 l -> float_picture blk ->
  min_x w' < max_x w' -> min_y w' < max_y w' ->
  map_res (taken_back nx display ds) (grid w') = Ok qs ->
  smx = max_x win - 1 -> smy = max_y win - 1 ->
  remap_pixels p (bboxf_of display) win smx smy l (bs_w (pb_size blk)) (bs_h (pb_size blk)) (bs_nc (pb_size blk))
    (bs_w (pb_size blk) * bs_nc (pb_size blk)) (flat2 qs) = Ok out ->
  moved_pixels nx display ds blk win
    (PB (BS (max_x w' - min_x w') (max_y w' - min_y w') (bs_nc (pb_size blk))) (DF32 out)) w'.
Proof.
  intros Hl FP Hx Hy Q -> -> R. pose proof (float_block4 _ FP) as HB.
  destruct FP as (_ & WF & Hnc & Hw & Hh & F).
  assert (HL : zlen l = bs_w (pb_size blk) * bs_h (pb_size blk) * bs_nc (pb_size blk)).
  { destruct WF as (_ & _ & _ & E). rewrite Hl in E. exact E. }
  destruct (remap_ok (bboxf_of display) win (max_x win - 1) (max_y win - 1) l _ _ _ HB Hnc HL qs) as (out' & E & L & V).
  rewrite R in E. apply Ok_inj in E. subst out'.
  assert (Lq : length qs = (Z.to_nat (max_y w' - min_y w') * Z.to_nat (max_x w' - min_x w'))%nat)
    by (rewrite (map_res_length _ _ _ Q); apply grid_length).
  split; [reflexivity|]. split; [|split; [eexists; reflexivity|]].
  - unfold wf_block. cbn [pb_size pb_data bs_w bs_h bs_nc db_len]. split; [lia|]. split; [lia|]. split; [lia|].
    unfold zlen. rewrite L, Lq. rewrite !Nat2Z.inj_mul, !Z2Nat.id by lia. ring.
  - intros x y Bx By. pose proof (grid_nth w' x y Bx By) as G.
    destruct (map_res_nth _ _ _ _ _ Q G) as ([qx qy] & T & N).
    destruct (V _ _ _ N) as (sx & sy & P1 & P2 & R1 & R2 & W).
    exists qx, qy, sx, sy. split; [exact T|]. split; [exact P1|]. split; [exact P2|].
    intros c Hc. destruct (sample_index p _ _ _ sx sy HB R1 R2) as (_ & I1 & I2).
    destruct (at_z_some l ((sy * bs_w (pb_size blk) + sx) * bs_nc (pb_size blk) + c) ltac:(lia)) as (v & Hv).
    exists (EF v). unfold pixel_val, offset. cbn [pb_data pb_size bs_nc]. rewrite Hl. cbn [elems].
    assert (M : forall (k : list f32) i u, at_z k i = Some u -> at_z (map EF k) i = Some (EF u)).
    { intros k i u. unfold at_z. destruct (0 <=? i); [|discriminate]. intro H. now apply map_nth_error. }
    split; [|now apply M]. apply M. rewrite <- Hv. rewrite <- W by exact Hc. f_equal.
    rewrite Z2Nat.id; [reflexivity|]. assert (0 <= (y - min_y w') * (max_x w' - min_x w')) by (apply Z.mul_nonneg_nonneg; lia). lia.
Qed.

Lemma deform_pixels_moved ds display blk win dst w' :
  enabled ds <> [] -> float_picture blk -> coords_small win ->
  deform_pixels nx p ds display blk win = Ok (dst, w') ->
  min_x w' <= max_x w' -> min_y w' <= max_y w' ->
  min_x w' < max_x w' /\ min_y w' < max_y w' /\ moved_pixels nx display (enabled ds) blk win dst w'.
Proof.
  intros NE FP CS. unfold deform_pixels. destruct (enabled ds) as [|e es] eqn:EN; [now elim NE|].
  rewrite <- EN. clear NE. intros H Lx Ly.
  destruct (fold_box nx (enabled ds) (bboxf_of win) (bboxf_of display)) as [b|]; [|discriminate]. cbn [bind] in H.
  set (w := BBox _ _ _ _) in H.
  assert (Rw : - two31 <= min_x w < two31 /\ - two31 <= max_x w < two31 /\ - two31 <= min_y w < two31 /\ - two31 <= max_y w < two31).
  { unfold w. cbn [min_x max_x min_y max_y]. repeat split; try apply floor_range; apply ceil_range. }
  clearbody w.
  destruct (width_i32 p w) as [dw|] eqn:Ew; [|discriminate]. cbn [bind] in H.
  destruct (height_i32 p w) as [dh|] eqn:Eh; [|discriminate]. cbn [bind] in H.
  destruct (pb_resize p blk _ _) as [d0|] eqn:Er; [|discriminate]. cbn [bind] in H.
  destruct ((dw <=? 0) || (dh <=? 0) || (two31 <=? dw * dh * bs_nc (pb_size blk))) eqn:Es; [discriminate|].
  apply orb_false_iff in Es. destruct Es as [Es E3]. apply orb_false_iff in Es. destruct Es as [E1 E2].
  destruct (apply_each _ _ _) as [coords|] eqn:EA; [|discriminate]. cbn [bind] in H.
  destruct FP as ((l & Hl) & FP). rewrite Hl in H.
  destruct (negb _); [discriminate|].
  pose proof (float_block4 blk (conj (ex_intro _ l Hl) FP)) as HB. destruct HB as (B1 & B2 & B3 & B4 & B5).
  destruct CS as (C1 & C2 & C3 & C4).
  rewrite i32c in H by (unfold two31 in *; nia). cbn [bind] in H.
  rewrite i32c in H by (unfold two31; lia). cbn [bind] in H. rewrite i32c in H by (unfold two31; lia). cbn [bind] in H.
  destruct (remap_pixels _ _ _ _ _ _ _ _ _ _ _) as [out|] eqn:ER; [|discriminate]. cbn [bind] in H.
  apply Ok_inj in H. injection H as <- <-.
  destruct Rw as (R1 & R2 & R3 & R4).
  assert (Dw : dw = max_x w - min_x w) by (apply (i32_of_dims (min_x w) (max_x w)); auto; lia).
  assert (Dh : dh = max_y w - min_y w) by (apply (i32_of_dims (min_y w) (max_y w)); auto; lia).
  subst dw dh. assert (min_x w < max_x w) by lia. assert (min_y w < max_y w) by lia. split; [assumption|]. split; [assumption|].
  rewrite centres_grid in EA. replace (_ - length (flat2 (grid w)))%nat with 0%nat in EA by (rewrite flat2_length, grid_length; nia).
  cbn [repeat] in EA. rewrite app_nil_r in EA.
  destruct (apply_each_flat _ _ _ _ EA) as (qs & -> & Q).
  assert (Sz : pb_size d0 = BS (max_x w - min_x w) (max_y w - min_y w) (bs_nc (pb_size blk))).
  { unfold pb_resize in Er. destruct (bs_size p _); [|discriminate]. cbn [bind] in Er.
    destruct (db_resize _ _ _); [|discriminate]. cbn [bind] in Er. apply Ok_inj in Er. now subst d0. }
  rewrite Sz. eapply final_pixels; eauto. split; eauto.
Qed.

(** The bake succeeds whenever the moved window is not empty and small enough
    and no deformer refuses its direction. *)
Lemma deform_pixels_runs ds display blk win b :
  enabled ds <> [] -> float_picture blk -> coords_small win ->
  fold_box nx (enabled ds) (bboxf_of win) (bboxf_of display) = Ok b ->
  let w' := BBox (f32_floor_as_i32 (fmin_x b)) (f32_floor_as_i32 (fmin_y b))
                 (f32_ceil_as_i32 (fmax_x b)) (f32_ceil_as_i32 (fmax_y b)) in
  min_x w' < max_x w' -> min_y w' < max_y w' ->
  (max_x w' - min_x w') * (max_y w' - min_y w') * bs_nc (pb_size blk) < two31 ->
  (forall x y, min_x w' <= x < max_x w' -> min_y w' <= y < max_y w' ->
     exists q, taken_back nx display (enabled ds) (centre x, centre y) = Ok q) ->
  exists dst, deform_pixels nx p ds display blk win = Ok (dst, w').
Proof.
  intros NE FP CS FB w Hx Hy HF HT. unfold deform_pixels. destruct (enabled ds) as [|e es] eqn:EN; [now elim NE|].
  rewrite <- EN in *. clear NE. rewrite FB. cbn [bind]. fold w. clearbody w.
  pose proof (float_block4 blk FP) as HB. destruct HB as (B1 & B2 & B3 & B4 & B5).
  pose proof FP as ((l & Hl) & WF & Hnc & Hw & Hh & F).
  set (W := max_x w - min_x w) in *. set (H := max_y w - min_y w) in *.
  assert (CW : W < two31 /\ H < two31 /\ W * H < two31 /\ W * bs_nc (pb_size blk) < two31).
  { clear - Hx Hy HF Hnc W H. subst W H. set (a := max_x w - min_x w) in *. set (c := max_y w - min_y w) in *.
    set (n := bs_nc (pb_size blk)) in *. assert (1 <= a /\ 1 <= c) by lia. clearbody a c n.
    assert (a <= a * c) by nia. assert (c <= a * c) by nia. assert (a * c <= a * c * n) by nia.
    assert (a * n <= a * c * n) by nia. lia. }
  destruct CW as (W1 & H1 & WH & WN).
  unfold width_i32, height_i32. fold W H. rewrite !i32c by (unfold two31 in *; lia). cbn [bind].
  destruct (pb_resize_spec p blk (BS W H (bs_nc (pb_size blk))) (db_type (pb_data blk))) as (d0 & E0 & _);
    cbn [bs_w bs_h bs_nc]; try lia.
  { rewrite Hl. discriminate. }
  { unfold count_fits. rewrite Z.max_r by lia. unfold two31 in *. lia. }
  rewrite E0. cbn [bind].
  replace ((W <=? 0) || (H <=? 0) || (two31 <=? W * H * bs_nc (pb_size blk))) with false
    by (symmetry; rewrite !orb_false_iff; lia).
  rewrite centres_grid.
  replace (_ - length (flat2 (grid w)))%nat with 0%nat by (rewrite flat2_length, grid_length; fold W H; nia).
  cbn [repeat]. rewrite app_nil_r.
  destruct (apply_each_total display (enabled ds) (grid w)) as (r & EA).
  { intros q Hq. apply grid_in in Hq. destruct Hq as (x & y & -> & Bx & By). now apply HT. }
  rewrite EA. cbn [bind]. destruct (apply_each_flat _ _ _ _ EA) as (qs & -> & Q). rewrite Hl.
  replace (negb _) with false by (destruct Hnc as [-> | ->]; reflexivity).
  destruct CS as (C1 & C2 & C3 & C4).
  rewrite ?i32c by (unfold two31 in *; nia). cbn [bind].
  destruct WF as (_ & _ & _ & E). rewrite Hl in E.
  destruct (remap_ok (bboxf_of display) win (max_x win - 1) (max_y win - 1) l _ _ _ (float_block4 _ FP) Hnc E qs)
    as (out & Eo & _). rewrite Eo. cbn [bind]. eauto.
Qed.
End Remap.

(** Walking pictures; boxes of machine integers. *)
From Verif Require Import Machine Loops FloatModel BBoxModel BBoxSpec PixelModel MergeModel CacheProofs RowModel RowSpec.

Lemma usize_id : forall z, 0 <= z < two31 -> i32_as_usize z = z.
Proof. exact i32_as_usize_ok. Qed.

(** A row that the picture has. *)
Lemma picture_row_is : forall p w h nc data y,
  filled w h nc data -> 0 <= y < h ->
  picture_row p (float_picture w h nc data) y
  = Ok (firstn (Z.to_nat (w * nc)) (skipn (Z.to_nat (y * (w * nc))) data)).
Proof.
  intros p w h nc data y (Hw & Hh & Hn & HL & HM) Hy. unfold picture_row, float_picture.
  cbn [pb_size pb_data bs_w bs_nc bs_h slice_f32]. rewrite !usize_id by assumption.
  assert (S : 0 <= w * nc < 2 ^ 62). { unfold two31 in *. change (2 ^ 62) with (2 ^ 31 * 2 ^ 31). nia. }
  assert (T : 0 <= (y + 1) * (w * nc) <= zlen data) by nia.
  assert (U : 0 <= y * (w * nc) <= (y + 1) * (w * nc)) by nia.
  unfold mul_u64, add_u64.
  rewrite (u64_of_ok p (w * nc)) by (unfold two64; lia). cbn [bind].
  rewrite (u64_of_ok p (y * (w * nc))) by (unfold two64, two31 in *; lia). cbn [bind].
  rewrite (u64_of_ok p (y + 1)) by (unfold two64, two31 in *; lia). cbn [bind].
  rewrite (u64_of_ok p ((y + 1) * (w * nc))) by (unfold two64, two31 in *; lia). cbn [bind].
  unfold subslice.
  replace ((0 <=? y * (w * nc)) && (y * (w * nc) <=? (y + 1) * (w * nc)) && ((y + 1) * (w * nc) <=? zlen data)) with true by lia.
  do 3 f_equal. lia.
Qed.

Lemma skipn_past : forall {A} (l : list A) n, (length l <= n)%nat -> skipn n l = [].
Proof. intros A l n H. apply length_zero_iff_nil. rewrite skipn_length. lia. Qed.

Lemma skipn_add : forall {A} (l : list A) a b, skipn (a + b) l = skipn b (skipn a l).
Proof.
  intros A l a. revert l. induction a as [|a IH]; intros l b; [reflexivity|].
  destruct l; [cbn; now rewrite skipn_nil|]. cbn [plus skipn]. apply IH.
Qed.

Lemma walk_from : forall p w h nc data, filled w h nc data ->
  forall fuel y, 0 <= y <= h -> (Z.to_nat (h - y) < fuel)%nat ->
  exists rows, walk p (float_picture w h nc data) fuel y = Ok (rows, true) /\
    concat rows = skipn (Z.to_nat (y * (w * nc))) data /\ zlen rows = h - y /\
    forall r, In r rows -> zlen r = w * nc.
Proof.
  intros p w h nc data F. pose proof F as (Hw & Hh & Hn & HL & HM).
  induction fuel as [|fuel IH]; intros y Hy Hf; [lia|].
  cbn [walk]. unfold picture_rows_next at 1. unfold float_picture at 1. cbn [pb_size bs_h]. rewrite usize_id by assumption.
  rewrite Z.geb_leb. destruct (h <=? y) eqn:E.
  - exists []. assert (y = h) by lia. subst y. split; [reflexivity|]. split; [|split; [cbn; lia|intros r []]].
    cbn [concat]. symmetry. apply skipn_past. unfold zlen in HL. nia.
  - rewrite picture_row_is by (assumption || lia). cbn [bind].
    destruct (IH (y + 1)) as (rows & W & C & L & R); [lia..|]. rewrite W. cbn [bind].
    eexists. split; [reflexivity|]. split; [|split].
    + cbn [concat]. rewrite C.
      replace (Z.to_nat ((y + 1) * (w * nc))) with (Z.to_nat (y * (w * nc)) + Z.to_nat (w * nc))%nat by nia.
      rewrite skipn_add. apply firstn_skipn.
    + unfold zlen in *. cbn [length]. lia.
    + intros r [<-|H]; [|exact (R r H)]. unfold zlen in *. rewrite firstn_length, skipn_length.
      assert ((y + 1) * (w * nc) <= Z.of_nat (length data)) by nia. lia.
Qed.

Lemma walk_whole : forall p w h nc data fuel,
  filled w h nc data -> (Z.to_nat h < fuel)%nat ->
  exists rows, walk p (float_picture w h nc data) fuel 0 = Ok (rows, true) /\
    concat rows = data /\ zlen rows = h /\ forall r, In r rows -> zlen r = w * nc.
Proof.
  intros p w h nc data fuel F Hf. destruct (walk_from p w h nc data F fuel 0) as (rows & W & C & L & R).
  - destruct F as (_ & ? & _). lia.
  - rewrite Z.sub_0_r. exact Hf.
  - exists rows. split; [exact W|]. split; [exact C|]. split; [lia|exact R].
Qed.

(** Stopped early, the walk has shown as many rows as it made steps. *)
Lemma walk_early : forall p w h nc data, filled w h nc data ->
  forall fuel y, 0 <= y <= h -> (fuel <= Z.to_nat (h - y))%nat ->
  exists rows, walk p (float_picture w h nc data) fuel y = Ok (rows, false) /\
    concat rows = firstn (fuel * Z.to_nat (w * nc)) (skipn (Z.to_nat (y * (w * nc))) data) /\ length rows = fuel.
Proof.
  intros p w h nc data F. pose proof F as (Hw & Hh & Hn & HL & HM).
  induction fuel as [|fuel IH]; intros y Hy Hf; [exists []; repeat split|].
  cbn [walk]. unfold picture_rows_next at 1. unfold float_picture at 1. cbn [pb_size bs_h]. rewrite usize_id by assumption.
  rewrite Z.geb_leb. replace (h <=? y) with false by lia.
  rewrite picture_row_is by (assumption || lia). cbn [bind].
  destruct (IH (y + 1)) as (rows & W & C & L); [lia..|]. rewrite W. cbn [bind].
  eexists. split; [reflexivity|]. split; [|cbn [length]; now rewrite L].
  cbn [concat]. rewrite C.
  replace (Z.to_nat ((y + 1) * (w * nc))) with (Z.to_nat (y * (w * nc)) + Z.to_nat (w * nc))%nat by nia.
  rewrite skipn_add. set (l := skipn (Z.to_nat (y * (w * nc))) data). set (k := Z.to_nat (w * nc)).
  assert (K : (k <= length l)%nat).
  { subst k l. rewrite skipn_length. unfold zlen in HL. assert ((y + 1) * (w * nc) <= Z.of_nat (length data)) by nia. lia. }
  clearbody k l. cbn [Nat.mul].
  rewrite <- (firstn_skipn k l) at 3. rewrite firstn_app, firstn_length_le by exact K.
  rewrite firstn_firstn, Nat.min_r by lia. f_equal. f_equal. lia.
Qed.
Lemma walk_stopped : forall p w h nc data fuel,
  filled w h nc data -> (fuel <= Z.to_nat h)%nat ->
  exists rows, walk p (float_picture w h nc data) fuel 0 = Ok (rows, false) /\
    concat rows = firstn (fuel * Z.to_nat (w * nc)) data /\ length rows = fuel.
Proof.
  intros p w h nc data fuel F Hf. apply (walk_early p w h nc data F fuel 0).
  - destruct F as (_ & ? & _). lia.
  - rewrite Z.sub_0_r. exact Hf.
Qed.

Lemma row_exists : forall p w h nc data y,
  filled w h nc data -> 0 < w * h * nc -> 0 <= y < two31 ->
  row_has_next (float_picture w h nc data) y = true <->
  exists r, picture_row p (float_picture w h nc data) y = Ok r.
Proof.
  intros p w h nc data y F P Y. pose proof F as (Hw & Hh & Hn & HL & HM).
  unfold row_has_next. unfold float_picture at 1. cbn [pb_size bs_h]. rewrite usize_id by assumption.
  rewrite Z.ltb_lt. split.
  - intro H. eexists. apply picture_row_is; [exact F|lia].
  - intros (r & E). destruct (Z.lt_ge_cases y h) as [H|H]; [exact H|exfalso].
    revert E. unfold picture_row, float_picture. cbn [pb_size pb_data bs_w bs_nc slice_f32].
    rewrite !usize_id by assumption. unfold mul_u64, add_u64.
    assert (Z0 : 0 <= w * nc) by (apply Z.mul_nonneg_nonneg; lia).
    assert (HP : 0 < h) by (destruct (Z.eq_dec h 0) as [->|]; [rewrite Z.mul_0_r in P; lia|lia]).
    assert (Q : w * h * nc = h * (w * nc)) by ring.
    assert (S : 0 < w * nc < two31) by (rewrite Q in *; clear - Z0 HP P HM; nia).
    assert (M : 0 <= y * (w * nc) < 2 ^ 62).
    { unfold two31 in *. change (2 ^ 62) with (2 ^ 31 * 2 ^ 31). nia. }
    rewrite (u64_of_ok p (w * nc)) by (unfold two64, two31 in *; lia). cbn [bind].
    rewrite (u64_of_ok p (y * (w * nc))) by (unfold two64; lia). cbn [bind].
    rewrite (u64_of_ok p (y + 1)) by (unfold two64, two31 in *; lia). cbn [bind].
    rewrite (u64_of_ok p ((y + 1) * (w * nc))) by (unfold two64, two31 in *; lia). cbn [bind]. unfold subslice.
    replace ((y + 1) * (w * nc) <=? zlen data) with false by nia. rewrite andb_false_r. discriminate.
Qed.

(* ------------------------------ boxes ------------------------------ *)

Lemma i32_debug : forall z v, i32_of Debug z = Ok v <-> - two31 <= z < two31 /\ v = z.
Proof.
  intros z v. unfold i32_of, in_i32. destruct ((- two31 <=? z) && (z <? two31)) eqn:E; split.
  - intro H. injection H as <-. lia.
  - intros [_ ->]. reflexivity.
  - intro H. discriminate H.
  - intros [H _]. lia.
Qed.

Lemma size_exact : forall p b, well_formed b -> width b < two31 -> height b < two31 ->
  width_i32 p b = Ok (width b) /\ height_i32 p b = Ok (height b).
Proof.
  intros p b [A B] W H. unfold width_i32, height_i32, width, height in *.
  split; apply i32_of_ok; unfold two31 in *; lia.
Qed.

Lemma size_wraps : forall b, i32_box b -> well_formed b -> two31 <= width b ->
  width_i32 Debug b = Panic /\ width_i32 Release b = Ok (width b - two32).
Proof.
  intros b (A & _ & B & _) [C _] H. unfold width_i32, i32_of, in_i32, width in *.
  replace ((- two31 <=? max_x b - min_x b) && (max_x b - min_x b <? two31)) with false by lia.
  split; [reflexivity|]. f_equal. unfold wrap_i32, two31, two32 in *.
  rewrite <- (Z.mod_unique (max_x b - min_x b + 2 ^ 31) (2 ^ 32) 1 (max_x b - min_x b + 2 ^ 31 - 2 ^ 32)); lia.
Qed.

Lemma area_small : forall p b, well_formed b -> width b < two31 -> height b < two31 -> width b * height b < two31 ->
  area_u32 p b = Ok (width b * height b).
Proof.
  intros p b F W H A. pose proof F as [C D]. unfold area_u32.
  destruct (size_exact p b F W H) as [-> ->]. cbn [bind]. unfold width, height in *.
  assert (0 <= (max_x b - min_x b) * (max_y b - min_y b)) by nia.
  rewrite i32_of_ok by (unfold two31 in *; lia). cbn [bind]. f_equal. apply Z.mod_small. unfold two31, two32 in *. lia.
Qed.

Lemma area_debug : forall b, well_formed b -> width b < two31 -> height b < two31 ->
  area_u32 Debug b = Panic <-> two31 <= width b * height b.
Proof.
  intros b F W H. split.
  - intro P. destruct (Z.lt_ge_cases (width b * height b) two31) as [L|L]; [|exact L].
    rewrite (area_small Debug b F W H L) in P. discriminate P.
  - intro L. unfold area_u32. destruct (size_exact Debug b F W H) as [-> ->]. cbn [bind].
    unfold i32_of, in_i32. replace (width b * height b <? two31) with false by lia. rewrite andb_false_r. reflexivity.
Qed.

Lemma area_release : forall b, well_formed b -> width b < two31 -> height b < two31 -> width b * height b < two32 ->
  area_u32 Release b = Ok (width b * height b).
Proof.
  intros b F W H A. pose proof F as [C D]. unfold area_u32.
  destruct (size_exact Release b F W H) as [-> ->]. cbn [bind].
  assert (N : 0 <= width b * height b) by (unfold width, height in *; nia).
  unfold i32_of, in_i32. destruct ((- two31 <=? width b * height b) && (width b * height b <? two31)) eqn:E; cbn [bind].
  - f_equal. apply Z.mod_small. lia.
  - f_equal. unfold wrap_i32. set (a := width b * height b) in *.
    rewrite <- Zminus_mod_idemp_l, Z.mod_mod by (unfold two32; lia). rewrite Zminus_mod_idemp_l.
    replace (a + two31 - two31) with a by lia. apply Z.mod_small. lia.
Qed.

Lemma center_fits : forall p b,
  - two31 <= min_x b + max_x b < two31 -> - two31 <= min_y b + max_y b < two31 ->
  center_i32 p b = Ok (center b).
Proof. intros p b X Y. unfold center_i32. rewrite !i32_of_ok by assumption. reflexivity. Qed.

Lemma center_debug : forall b, center_i32 Debug b = Panic <->
  ~ (- two31 <= min_x b + max_x b < two31 /\ - two31 <= min_y b + max_y b < two31).
Proof.
  intro b. split.
  - intros H [X Y]. rewrite center_fits in H by assumption. discriminate H.
  - intro H. unfold center_i32. destruct (i32_of Debug (min_x b + max_x b)) as [x|] eqn:X; [|reflexivity].
    cbn [bind]. destruct (i32_of Debug (min_y b + max_y b)) as [y|] eqn:Y; [|reflexivity].
    apply i32_debug in X. apply i32_debug in Y. tauto.
Qed.

Lemma box_row_exists : forall p b y, well_formed b -> width b < two31 -> height b = width b -> 0 <= y ->
  exists v, box_row_has_next p b y = Ok v /\ (v = true <-> y < height b).
Proof.
  intros p b y F W Q Y. unfold box_row_has_next, box_row_len.
  destruct (size_exact p b F W ltac:(lia)) as [-> _]. cbn [bind].
  rewrite usize_id by (destruct F; unfold width in *; lia).
  eexists. split; [reflexivity|]. rewrite Q. apply Z.ltb_lt.
Qed.

Lemma box_row_span : forall p b, well_formed b -> width b < two31 ->
  (forall x y, in_box b x y <-> box_row_min b <= x < box_row_max b /\ min_y b <= y < max_y b) /\
  box_row_len p b = Ok (box_row_max b - box_row_min b).
Proof.
  intros p b F W. split; [intros x y; apply iff_refl|]. unfold box_row_len, width_i32.
  rewrite i32_of_ok by (destruct F; unfold width, two31 in *; lia). cbn [bind].
  rewrite usize_id by (destruct F; unfold width in *; lia). reflexivity.
Qed.

Lemma first_index : forall b, 0 < bs_w b < two31 -> 0 < bs_h b < two31 -> 0 < bs_nc b < two31 ->
  bi_from_xy b 0 0 = Ok (bi_new b) /\ bi_new b = bi_from_index b 0.
Proof.
  intros b W H N. split; [|reflexivity]. unfold bi_from_xy, bi_new. rewrite !usize_id by lia.
  rewrite !Z.geb_leb. replace (bs_w b <=? 0) with false by lia. replace (bs_h b <=? 0) with false by lia.
  reflexivity.
Qed.

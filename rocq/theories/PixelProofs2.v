(** Proofs about addressing, crop algebra, resizing, conversions, sampling. *)
From Coq Require Import Floats.SpecFloat Psatz.
From Verif Require Import Machine Loops FloatModel BBoxModel BBoxSpec BBoxProofs
  PixelModel PixelSpec PixelProofs.

(* ---------------------------------------------------------------- *)
(** Addressing *)


Lemma get_pixel_index_spec : forall p w h nc x y,
  0 <= w < two31 -> 0 <= h < two31 -> 1 <= nc < two31 -> w * nc < two31 -> h * (w * nc) < two31 ->
  in_i32 (x * nc) = true -> in_i32 (y * (w * nc)) = true ->
  in_i32 (x * nc + y * (w * nc)) = true ->
  get_pixel_index p w h nc (w * nc) x y =
    Ok (if (0 <=? x) && (x <? w) && (0 <=? y) && (y <? h) then x * nc + y * (w * nc) else -1).
Proof.
  intros p w h nc x y Hw Hh Hnc F1 F2 O1 O2 O3.
  unfold get_pixel_index.
  assert (E1 : i32_of p (x * nc) = Ok (x * nc)) by (unfold i32_of; rewrite O1; reflexivity).
  assert (E2 : i32_of p (y * (w * nc)) = Ok (y * (w * nc))) by (unfold i32_of; rewrite O2; reflexivity).
  assert (E3 : i32_of p (x * nc + y * (w * nc)) = Ok (x * nc + y * (w * nc))) by (unfold i32_of; rewrite O3; reflexivity).
  clear O1 O2 O3.
  assert (H0 : 0 <= w * nc) by (apply Z.mul_nonneg_nonneg; lia).
  assert (H1 : 0 <= h * (w * nc)) by (apply Z.mul_nonneg_nonneg; lia).
  rewrite E1, E2. cbn [bind]. clear E1 E2.
  rewrite (i32c p (w - 1)) by lia. cbn [bind].
  rewrite (i32c p ((w - 1) * nc)) by lia. cbn [bind].
  rewrite (i32c p (h - 1)) by lia. cbn [bind].
  rewrite (i32c p ((h - 1) * (w * nc))) by lia. cbn [bind].
  rewrite E3. cbn [bind]. clear E3.
  assert (Hx : ((x * nc <? 0) || (x * nc >? (w - 1) * nc)) = negb ((0 <=? x) && (x <? w))).
  { apply eq_true_iff_eq. rewrite negb_true_iff, orb_true_iff, andb_false_iff, Z.ltb_lt, Z.gtb_lt, Z.leb_gt, Z.ltb_ge. clear - Hnc. nia. }
  assert (Hy : w = 0 \/ ((y * (w * nc) <? 0) || (y * (w * nc) >? (h - 1) * (w * nc))) = negb ((0 <=? y) && (y <? h))).
  { destruct (Z.eq_dec w 0); [left; assumption|right].
    assert (Hs : 1 <= w * nc) by nia. clear - Hs. generalize dependent (w * nc). intros s Hs.
    apply eq_true_iff_eq. rewrite negb_true_iff, orb_true_iff, andb_false_iff, Z.ltb_lt, Z.gtb_lt, Z.leb_gt, Z.ltb_ge. nia. }
  rewrite <- orb_assoc. rewrite Hx.
  destruct ((0 <=? x) && (x <? w)) eqn:EX; cbn [negb orb andb].
  - destruct Hy as [Hy|Hy]; [lia|]. rewrite Hy.
    destruct ((0 <=? y) && (y <? h)); reflexivity.
  - reflexivity.
Qed.

Definition block_ok (b : blocksize) : Prop :=
  0 <= bs_w b < two31 /\ 0 <= bs_h b < two31 /\ 1 <= bs_nc b < two31 /\
  bs_w b * bs_nc b < two31 /\ bs_h b * (bs_w b * bs_nc b) < two31.

Lemma get_index_spec : forall p b x y,
  block_ok b ->
  in_i32 (x * bs_nc b) = true -> in_i32 (y * (bs_w b * bs_nc b)) = true ->
  in_i32 (x * bs_nc b + y * (bs_w b * bs_nc b)) = true ->
  bs_get_index p b x y =
    Ok (if (0 <=? x) && (x <? bs_w b) && (0 <=? y) && (y <? bs_h b)
        then (y * bs_w b + x) * bs_nc b else -1).
Proof.
  intros p [w h nc] x y (Hw & Hh & Hnc & F1 & F2) O1 O2 O3. unfold bs_get_index.
  cbn [bs_w bs_h bs_nc] in *.
  assert (0 <= w * nc) by (apply Z.mul_nonneg_nonneg; lia).
  rewrite i32c by lia. cbn [bind].
  rewrite get_pixel_index_spec by assumption.
  replace ((y * w + x) * nc) with (x * nc + y * (w * nc)) by ring. reflexivity.
Qed.

Lemma get_index_in : forall p b x y,
  block_ok b -> 0 <= x < bs_w b -> 0 <= y < bs_h b ->
  bs_get_index p b x y = Ok ((y * bs_w b + x) * bs_nc b).
Proof.
  intros p [w h nc] x y HB Hx Hy. pose proof HB as (Hw & Hh & Hnc & F1 & F2).
  rewrite get_index_spec; cbn [bs_w bs_h bs_nc] in *; [| assumption | | |].
  - replace ((0 <=? x) && (x <? w) && (0 <=? y) && (y <? h)) with true by lia. reflexivity.
  - unfold in_i32. assert (0 <= x * nc <= w * nc) by nia. lia.
  - unfold in_i32. assert (0 <= w * nc) by nia. assert (0 <= y * (w * nc) <= h * (w * nc)) by nia. lia.
  - unfold in_i32. assert (0 <= w * nc) by nia. assert (0 <= y * (w * nc) <= (h - 1) * (w * nc)) by nia.
    assert (0 <= x * nc <= w * nc) by nia. lia.
Qed.

Lemma index_range : forall b x y,
  block_ok b -> 0 <= x < bs_w b -> 0 <= y < bs_h b ->
  0 <= (y * bs_w b + x) * bs_nc b /\
  (y * bs_w b + x) * bs_nc b + bs_nc b <= bs_w b * bs_h b * bs_nc b.
Proof.
  intros [w h nc] x y (Hw & Hh & Hnc & F1 & F2) Hx Hy. cbn [bs_w bs_h bs_nc] in *.
  assert (0 <= y * w) by nia. assert (y * w + x + 1 <= w * h) by nia. nia.
Qed.

Lemma index_disjoint : forall b x y x' y',
  block_ok b -> 0 <= x < bs_w b -> 0 <= x' < bs_w b ->
  (x, y) <> (x', y') ->
  disjoint_ranges ((y * bs_w b + x) * bs_nc b) ((y' * bs_w b + x') * bs_nc b) (bs_nc b).
Proof.
  intros [w h nc] x y x' y' (Hw & Hh & Hnc & F1 & F2) Hx Hx' Hne. cbn [bs_w bs_h bs_nc] in *.
  unfold disjoint_ranges.
  assert (y * w + x <> y' * w + x').
  { intros E. apply Hne. assert (y = y') by nia. subst. f_equal. lia. }
  clear Hne. nia.
Qed.

Lemma wrap_i32_id : forall z, - two31 <= z < two31 -> wrap_i32 z = z.
Proof. intros z H. unfold wrap_i32. rewrite Z.mod_small; unfold two31, two32 in *; lia. Qed.

Lemma get_xy_owner : forall p b ix,
  block_ok b -> 0 <= ix < bs_w b * bs_h b * bs_nc b ->
  exists x y, bs_get_xy p b ix = Ok (x, y) /\ 0 <= x < bs_w b /\ 0 <= y < bs_h b /\
    (y * bs_w b + x) * bs_nc b <= ix < (y * bs_w b + x) * bs_nc b + bs_nc b.
Proof.
  intros p [w h nc] ix (Hw & Hh & Hnc & F1 & F2) Hi. unfold bs_get_xy. cbn [bs_w bs_h bs_nc] in *.
  assert (Hpos : 0 < w * nc) by nia.
  rewrite i32c by lia. cbn [bind].
  rewrite i32_as_usize_ok by lia. replace (w * nc =? 0) with false by lia.
  rewrite i32_as_usize_ok by lia. replace (nc =? 0) with false by lia.
  pose proof (Z.div_mod ix (w * nc) ltac:(lia)) as D1.
  pose proof (Z.mod_pos_bound ix (w * nc) Hpos) as B1.
  set (q := ix / (w * nc)) in *. set (r := ix mod (w * nc)) in *.
  pose proof (Z.div_mod r nc ltac:(lia)) as D2.
  pose proof (Z.mod_pos_bound r nc ltac:(lia)) as B2.
  set (x := r / nc) in *. set (c := r mod nc) in *.
  assert (Hx : 0 <= x < w) by nia.
  assert (Hy : 0 <= q < h) by nia.
  exists x, q. rewrite !wrap_i32_id by lia. split; [reflexivity|].
  split; [lia|]. split; [lia|]. nia.
Qed.

(* ---------------------------------------------------------------- *)
(** Crop algebra *)

Lemma offset_surj : forall w nc i,
  well_formed w -> 0 <= nc -> 0 <= i < (max_x w - min_x w) * (max_y w - min_y w) * nc ->
  exists x y c, in_box w x y /\ 0 <= c < nc /\ offset w nc x y c = i.
Proof.
  intros w nc i Hw Hnc Hi. unfold well_formed in Hw.
  set (W := max_x w - min_x w) in *. set (H := max_y w - min_y w) in *.
  assert (HW0 : 0 <= W) by (unfold W; lia). assert (HH0 : 0 <= H) by (unfold H; lia).
  assert (Hn : 0 < nc) by nia.
  assert (HW : 0 < W) by (destruct (Z.eq_dec W 0) as [E0|]; [rewrite E0 in Hi; lia|lia]).
  pose proof (Z.div_mod i nc ltac:(lia)) as D1.
  pose proof (Z.mod_pos_bound i nc ltac:(lia)) as B1.
  set (q := i / nc) in *. set (c := i mod nc) in *.
  pose proof (Z.div_mod q W ltac:(lia)) as D2.
  pose proof (Z.mod_pos_bound q W ltac:(lia)) as B2.
  set (v := q / W) in *. set (u := q mod W) in *.
  assert (Hq : 0 <= q < W * H) by nia.
  assert (Hv : 0 <= v < H) by nia.
  exists (u + min_x w), (v + min_y w), c. unfold in_box, offset. fold W.
  split; [unfold W, H in *; lia|]. split; [lia|].
  replace (v + min_y w - min_y w) with v by ring. replace (u + min_x w - min_x w) with u by ring.
  nia.
Qed.

Lemma map_inj_eq : forall {A B} (f : A -> B) l l',
  (forall a b, f a = f b -> a = b) -> map f l = map f l' -> l = l'.
Proof.
  intros A B f l. induction l as [|a l IH]; intros [|b l'] Hf E; try discriminate; [reflexivity|].
  injection E as E1 E2. f_equal; auto.
Qed.

Lemma elems_inj : forall d d', db_type d = db_type d' -> elems d = elems d' -> d = d'.
Proof.
  intros [l|l|l|l] [l'|l'|l'|l'] HT HE; try discriminate; cbn [elems] in HE; f_equal;
    (eapply map_inj_eq; [|exact HE]); intros a b E; congruence.
Qed.

Lemma block_ext : forall a b w,
  well_formed w -> wf_block a -> wf_block b -> placed a w -> placed b w ->
  bs_nc (pb_size a) = bs_nc (pb_size b) -> db_type (pb_data a) = db_type (pb_data b) ->
  (forall x y c, in_box w x y -> 0 <= c < bs_nc (pb_size a) ->
     pixel_val a w x y c = pixel_val b w x y c) ->
  a = b.
Proof.
  intros [[aw ah an] ad] [[bw bh bn] bd] w Hw (A1 & A2 & A3 & A4) (B1 & B2 & B3 & B4) [P1 P2] [Q1 Q2] HN HT HV.
  cbn [pb_size pb_data bs_w bs_h bs_nc] in *. subst.
  f_equal. apply elems_inj; [exact HT|]. apply at_z_ext.
  - rewrite !zlen_elems. congruence.
  - intros i Hi. rewrite zlen_elems, A4 in Hi.
    destruct (offset_surj w bn i Hw A3 Hi) as (x & y & c & Hin & Hc & <-).
    exact (HV x y c Hin Hc).
Qed.

Lemma crop_identity : forall p pb dw,
  wf_block pb -> placed pb dw -> well_formed dw -> coords_small dw ->
  count_fits (width dw) (height dw) (bs_nc (pb_size pb)) ->
  from_pixel_block p pb dw dw = Ok pb.
Proof.
  intros p pb dw HW HP Hdw Sdw Fdw.
  destruct (crop_exact p pb dw dw HW HP Hdw Hdw Sdw Sdw Fdw Fdw) as (r & E & W1 & P1 & N1 & T1 & V1).
  rewrite E. f_equal. apply (block_ext r pb dw); auto.
  intros x y c Hin Hc. rewrite N1 in Hc. rewrite V1 by assumption.
  replace (in_boxb dw x y) with true; [reflexivity|].
  symmetry. apply in_boxb_spec. exact Hin.
Qed.

Lemma crop_crop_general : forall p pb dw A B ra rb,
  wf_block pb -> placed pb dw -> well_formed dw -> well_formed A -> well_formed B ->
  coords_small dw -> coords_small A -> coords_small B ->
  count_fits (width dw) (height dw) (bs_nc (pb_size pb)) ->
  count_fits (width A) (height A) (bs_nc (pb_size pb)) ->
  count_fits (width B) (height B) (bs_nc (pb_size pb)) ->
  from_pixel_block p pb dw A = Ok ra -> from_pixel_block p ra A B = Ok rb ->
  forall x y c, in_box B x y -> 0 <= c < bs_nc (pb_size pb) ->
    pixel_val rb B x y c =
    if in_boxb A x y && in_boxb dw x y then pixel_val pb dw x y c
    else Some (zero_elem (db_type (pb_data pb))).
Proof.
  intros p pb dw A B ra rb HW HP Hdw HA HB Sdw SA SB Fdw FA FB EA EB x y c Hin Hc.
  destruct (crop_exact p pb dw A HW HP Hdw HA Sdw SA Fdw FA) as (r & E & W1 & P1 & N1 & T1 & V1).
  rewrite EA in E. injection E as <-.
  destruct (crop_exact p ra A B W1 P1 HA HB SA SB) as (r & E & W2 & P2 & N2 & T2 & V2);
    [rewrite N1; exact FA|rewrite N1; exact FB|].
  rewrite EB in E. injection E as <-.
  rewrite V2 by (rewrite ?N1; assumption).
  destruct (in_boxb A x y) eqn:EI; cbn [andb].
  - apply in_boxb_spec in EI. apply V1; assumption.
  - rewrite T1. reflexivity.
Qed.

Lemma crop_crop : forall p pb dw A B,
  wf_block pb -> placed pb dw -> well_formed dw -> well_formed A -> well_formed B ->
  (forall x y, in_box B x y -> in_box A x y) ->
  coords_small dw -> coords_small A -> coords_small B ->
  count_fits (width dw) (height dw) (bs_nc (pb_size pb)) ->
  count_fits (width A) (height A) (bs_nc (pb_size pb)) ->
  count_fits (width B) (height B) (bs_nc (pb_size pb)) ->
  (let* ra := from_pixel_block p pb dw A in from_pixel_block p ra A B) =
  from_pixel_block p pb dw B /\ exists rb, from_pixel_block p pb dw B = Ok rb.
Proof.
  intros p pb dw A B HW HP Hdw HA HB HAB Sdw SA SB Fdw FA FB.
  destruct (crop_exact p pb dw A HW HP Hdw HA Sdw SA Fdw FA) as (ra & E & W1 & P1 & N1 & T1 & V1).
  rewrite E. cbn [bind].
  destruct (crop_exact p ra A B W1 P1 HA HB SA SB) as (rb & E2 & W2 & P2 & N2 & T2 & V2);
    [rewrite N1; exact FA|rewrite N1; exact FB|].
  destruct (crop_exact p pb dw B HW HP Hdw HB Sdw SB Fdw FB) as (rc & E3 & W3 & P3 & N3 & T3 & V3).
  rewrite E2, E3. split; [|exists rc; reflexivity]. f_equal.
  apply (block_ext rb rc B); auto; try congruence.
  intros x y c Hin Hc. rewrite N2, N1 in Hc.
  rewrite V3 by assumption. rewrite V2 by (rewrite ?N1; assumption).
  specialize (HAB x y Hin).
  replace (in_boxb A x y) with true by (symmetry; apply in_boxb_spec; exact HAB).
  apply V1; assumption.
Qed.

(* ---------------------------------------------------------------- *)
(** crop_image_in_place *)

Definition image_ok (im : image) : Prop :=
  wf_block (im_block im) /\ placed (im_block im) (im_data im) /\ well_formed (im_data im) /\
  coords_small (im_data im) /\
  count_fits (width (im_data im)) (height (im_data im)) (bs_nc (pb_size (im_block im))).

Lemma crop_image_plain : forall p im cw reformat intersect,
  image_ok im -> well_formed cw -> coords_small cw ->
  count_fits (width cw) (height cw) (bs_nc (pb_size (im_block im))) ->
  exists im', crop_image_in_place p im cw reformat false intersect = Ok im' /\
    image_ok im' /\ im_data im' = cw /\
    im_display im' = (if reformat then cw else im_display im) /\
    from_pixel_block p (im_block im) (im_data im) cw = Ok (im_block im').
Proof.
  intros p im cw rf it (W & P & Wd & Sd & Fd) Hcw Scw Fcw.
  destruct (crop_exact p _ _ _ W P Wd Hcw Sd Scw Fd Fcw) as (r & E & W1 & [P1 P2] & N1 & T1 & V1).
  unfold crop_image_in_place. cbn [bind]. rewrite E. cbn [bind].
  unfold width_i32, height_i32. pose proof Scw as Scw'. unfold coords_small, well_formed in Scw', Hcw.
  assert (P31 : two31 = 2 ^ 31) by reflexivity.
  rewrite i32c by lia. cbn [bind]. rewrite P1, Z.eqb_refl. cbn [negb].
  rewrite i32c by lia. cbn [bind]. rewrite P2, Z.eqb_refl. cbn [negb].
  eexists. split; [reflexivity|]. unfold image_ok. cbn [im_block im_data im_display].
  repeat split; try assumption; try apply W1; try apply Hcw; try apply Scw; try lia; try reflexivity;
    try (rewrite N1; apply Fcw).
Qed.

Lemma crop_image_black_outside : forall p im cw reformat intersect,
  image_ok im -> well_formed cw -> coords_small cw ->
  count_fits (width cw) (height cw) (bs_nc (pb_size (im_block im))) ->
  crop_image_in_place p im cw reformat true intersect = Panic.
Proof.
  intros p im cw rf it (W & P & Wd & Sd & Fd) Hcw Scw Fcw.
  destruct (crop_exact p _ _ _ W P Wd Hcw Sd Scw Fd Fcw) as (r & E & W1 & [P1 P2] & N1 & T1 & V1).
  unfold crop_image_in_place. pose proof Scw as Scw'. unfold coords_small, well_formed in Scw', Hcw.
  assert (P31 : two31 = 2 ^ 31) by reflexivity.
  do 4 (rewrite i32c by lia; cbn [bind]). rewrite E. cbn [bind].
  unfold width_i32, height_i32. cbn [min_x min_y max_x max_y].
  destruct (Z.ltb_spec (max_x cw + 1 - (min_x cw - 1)) two31).
  - rewrite i32c by lia. cbn [bind]. rewrite P1.
    replace (max_x cw + 1 - (min_x cw - 1) =? max_x cw - min_x cw) with false by lia. reflexivity.
  - unfold i32_of, in_i32. replace (max_x cw + 1 - (min_x cw - 1) <? two31) with false by lia.
    rewrite andb_false_r. destruct p; [reflexivity|]. cbn [bind].
    rewrite P1. unfold wrap_i32.
    replace ((max_x cw + 1 - (min_x cw - 1) + two31) mod two32 - two31) with
      (max_x cw + 1 - (min_x cw - 1) - two32).
    + replace (max_x cw + 1 - (min_x cw - 1) - two32 =? max_x cw - min_x cw) with false; [reflexivity|].
      unfold two32. lia.
    + rewrite <- (Z.mod_unique _ two32 1 (max_x cw + 1 - (min_x cw - 1) + two31 - two32));
        unfold two31, two32 in *; lia.
Qed.

(* ---------------------------------------------------------------- *)
(** Resizing *)

Lemma at_vec_resize : forall {A} (l : list A) n a i,
  0 <= i < n ->
  at_z (vec_resize l (Z.to_nat n) a) i = if i <? zlen l then at_z l i else Some a.
Proof.
  intros A l n a i Hi. unfold vec_resize.
  destruct (Z.ltb_spec i (zlen l)).
  - rewrite at_z_app1.
    + apply at_z_firstn. lia.
    + unfold zlen in *. rewrite firstn_length. lia.
  - unfold zlen in *. rewrite at_z_app2; unfold zlen; rewrite firstn_length.
    + unfold at_z.
      rewrite (proj2 (Z.leb_le 0 _)) by lia.
      apply nth_error_repeat. lia.
    + lia.
Qed.

Lemma zlen_vec_resize : forall {A} (l : list A) n a, 0 <= n -> zlen (vec_resize l (Z.to_nat n) a) = n.
Proof.
  intros. unfold vec_resize, zlen. rewrite app_length, firstn_length, repeat_length. lia.
Qed.

Lemma option_map_if : forall {A B} (f : A -> B) (c : bool) x y,
  option_map f (if c then x else y) = if c then option_map f x else option_map f y.
Proof. intros. destruct c; reflexivity. Qed.

Lemma db_resize_spec : forall d n t,
  t <> UnknownType -> 0 <= n < 2 ^ 63 ->
  exists d', db_resize d n t = Ok d' /\ db_type d' = t /\ db_len d' = n /\
    forall i, 0 <= i < n ->
      at_z (elems d') i =
      if datatype_eqb (db_type d) t && (i <? db_len d) then at_z (elems d) i
      else Some (full_elem t).
Proof.
  intros d n t Ht Hn. unfold db_resize. replace (n >=? 2 ^ 63) with false by lia.
  destruct t; try congruence; destruct d as [l|l|l|l];
    eexists; (split; [reflexivity|]); (split; [reflexivity|]);
    cbn [db_len elems db_type datatype_eqb andb full_elem];
    (split; [first [apply zlen_vec_resize; lia | apply zlen_repeat; lia]|]);
    intros i Hi; rewrite ?at_z_map;
    first [ rewrite at_z_repeat by lia; reflexivity
          | rewrite at_vec_resize by lia; rewrite option_map_if; reflexivity ].
Qed.

Lemma pb_resize_spec : forall p pb b t,
  t <> UnknownType -> 0 <= bs_w b -> 0 <= bs_h b -> 0 <= bs_nc b ->
  count_fits (bs_w b) (bs_h b) (bs_nc b) ->
  exists pb', pb_resize p pb b t = Ok pb' /\ pb_size pb' = b /\ wf_block pb' /\
    db_type (pb_data pb') = t /\
    forall i, 0 <= i < bs_w b * bs_h b * bs_nc b ->
      at_z (elems (pb_data pb')) i =
      if datatype_eqb (db_type (pb_data pb)) t && (i <? db_len (pb_data pb))
      then at_z (elems (pb_data pb)) i else Some (full_elem t).
Proof.
  intros p pb b t Ht Hw Hh Hnc HF. unfold pb_resize. rewrite bs_size_ok by assumption. cbn [bind].
  destruct HF as (F1 & F2 & F3).
  assert (H0 : 0 <= bs_w b * bs_h b) by (apply Z.mul_nonneg_nonneg; lia).
  destruct (count_mono _ _ H0 Hnc F1) as [F4 F5].
  assert (H1 : 0 <= bs_w b * bs_h b * bs_nc b) by (apply Z.mul_nonneg_nonneg; lia).
  destruct (db_resize_spec (pb_data pb) (bs_w b * bs_h b * bs_nc b) t Ht) as (d' & E & T & L & V).
  { unfold two31 in *. lia. }
  rewrite E. cbn [bind]. exists (PB b d'). split; [reflexivity|]. split; [reflexivity|].
  split; [unfold wf_block; cbn [pb_size pb_data]; lia|]. split; [exact T|]. exact V.
Qed.

(* ---------------------------------------------------------------- *)
(** Sizes *)

Lemma size_bytes_exact : forall p pb,
  wf_block pb -> bs_w (pb_size pb) * bs_h (pb_size pb) * bs_nc (pb_size pb) < two31 ->
  exists s, type_size_bytes (db_type (pb_data pb)) = Ok s /\
    db_size_bytes p (pb_data pb) =
    Ok (bs_w (pb_size pb) * bs_h (pb_size pb) * bs_nc (pb_size pb) * s).
Proof.
  intros p pb (W1 & W2 & W3 & W4) HF. unfold db_size_bytes. rewrite W4.
  assert (H1 : 0 <= bs_w (pb_size pb) * bs_h (pb_size pb) * bs_nc (pb_size pb)).
  { apply Z.mul_nonneg_nonneg; [apply Z.mul_nonneg_nonneg|]; lia. }
  destruct (pb_data pb); cbn [db_type type_size_bytes bind]; eexists; (split; [reflexivity|]);
    unfold mul_u64, u64_of, in_u64; unfold two31, two64 in *;
    match goal with |- (if ?c then _ else _) = _ => replace c with true by lia end; reflexivity.
Qed.

(* ---------------------------------------------------------------- *)
(** Block index *)

Definition index_block_ok (b : blocksize) : Prop :=
  1 <= bs_w b < two31 /\ 1 <= bs_h b < two31 /\ 1 <= bs_nc b < two31.

Lemma block_index_flat : forall b x y,
  index_block_ok b -> 0 <= x < bs_w b -> 0 <= y < bs_h b ->
  bi_from_xy b x y = Ok (bi_from_index b ((y * bs_w b + x) * bs_nc b)).
Proof.
  intros [w h nc] x y (Hw & Hh & Hnc) Hx Hy. cbn [bs_w bs_h bs_nc] in *.
  unfold bi_from_xy, bi_from_index. cbn [bs_w bs_h bs_nc]. rewrite !i32_as_usize_ok by lia.
  replace (x >=? w) with false by lia. replace (y >=? h) with false by lia. do 2 f_equal. ring.
Qed.

Lemma block_index_xy : forall b x y,
  index_block_ok b -> 0 <= x < bs_w b -> 0 <= y < bs_h b ->
  exists i, bi_from_xy b x y = Ok i /\
    bi_column i = Ok (x * bs_nc b) /\
    bi_row i = Ok ((y * bs_w b + x) / bs_h b).
Proof.
  intros [w h nc] x y (Hw & Hh & Hnc) Hx Hy. cbn [bs_w bs_h bs_nc] in *.
  unfold bi_from_xy. cbn [bs_w bs_h bs_nc].
  rewrite !i32_as_usize_ok by lia.
  replace (x >=? w) with false by lia. replace (y >=? h) with false by lia.
  eexists. split; [reflexivity|]. unfold bi_column, bi_row. cbn [bi_index bi_w bi_h bi_nc].
  assert (0 < w * nc) by nia. assert (0 < h * nc) by nia.
  replace (w * nc =? 0) with false by lia. replace (h * nc =? 0) with false by lia.
  split; f_equal.
  - symmetry. apply Z.mod_unique_pos with y; [nia|lia].
  - replace (y * (w * nc) + x * nc) with ((y * w + x) * nc) by ring.
    apply Z.div_mul_cancel_r; lia.
Qed.

Lemma block_row_square : forall b x y,
  index_block_ok b -> 0 <= x < bs_w b -> 0 <= y < bs_h b -> bs_w b = bs_h b ->
  (y * bs_w b + x) / bs_h b = y.
Proof.
  intros [w h nc] x y (Hw & Hh & Hnc) Hx Hy E. cbn [bs_w bs_h bs_nc] in *. subst.
  symmetry. apply Z.div_unique with x; lia.
Qed.

Lemma row_slice_exact : forall w h nc data y,
  0 <= w -> 0 <= nc -> zlen data = w * h * nc -> 0 <= y < h ->
  exists r, row_as_slice w nc data y = Ok r /\ zlen r = w * nc /\
    forall x c, 0 <= x < w -> 0 <= c < nc ->
      at_z r (x * nc + c) = at_z data ((y * w + x) * nc + c).
Proof.
  intros w h nc data y Hw Hnc HL Hy. unfold row_as_slice.
  assert (0 <= w * nc) by nia.
  destruct (subslice_ok data (y * (w * nc)) ((y + 1) * (w * nc))) as (r & E & L & V); [nia|nia|].
  exists r. split; [exact E|]. split; [lia|].
  intros x c Hx Hc. rewrite V by nia. f_equal. ring.
Qed.
Lemma row_operator : forall w h data y r ix,
  0 <= w -> zlen data = w * h -> 0 <= y < h -> 0 <= ix < w -> row_as_slice w 1 data y = Ok r ->
  exists v, idx r ix = Ok v /\ row_index w data y ix = Ok v.
Proof.
  intros w h data y r ix Hw HL Hy Hi R.
  destruct (row_slice_exact w h 1 data y) as (r' & E & L & A); [lia..|]. rewrite E in R. injection R as ->.
  specialize (A ix 0 ltac:(lia) ltac:(lia)). replace (ix * 1 + 0) with ix in A by lia.
  replace ((y * w + ix) * 1 + 0) with (y * w + ix) in A by lia. destruct (at_z r ix) as [v|] eqn:N.
  - exists v. unfold row_index. split; apply idx_ok; congruence.
  - exfalso. unfold at_z in N. replace (0 <=? ix) with true in N by lia. apply nth_error_None in N. unfold zlen in L. lia.
Qed.

(* ---------------------------------------------------------------- *)
(** Sampling *)

Lemma mag_round_bounds : forall m e,
  2 * Z.abs (sf_num (S754_finite false m e) - mag_round m e * sf_den (S754_finite false m e))
  <= sf_den (S754_finite false m e) /\ 0 <= mag_round m e.
Proof.
  intros m e. unfold sf_num, sf_den, mag_round.
  destruct (Z.leb_spec 0 e).
  - rewrite Z.max_l by lia. rewrite (Z.max_r (- e) 0) by lia.
    rewrite Z.shiftl_mul_pow2 by lia.
    replace (1 * (Z.pos m * 2 ^ e) - Z.pos m * 2 ^ e * 2 ^ 0) with 0 by (rewrite Z.pow_0_r; ring).
    split; [cbn; lia|]. apply Z.mul_nonneg_nonneg; [lia|apply Z.pow_nonneg; lia].
  - rewrite Z.max_r by lia. rewrite (Z.max_l (- e) 0) by lia.
    rewrite Z.shiftr_div_pow2 by lia. rewrite Z.shiftl_mul_pow2 by lia.
    replace (2 ^ (- e)) with (2 * 2 ^ (- e - 1)) by (rewrite <- Z.pow_succ_r by lia; f_equal; lia).
    assert (Hd : 0 < 2 ^ (- e - 1)) by (apply Z.pow_pos_nonneg; lia).
    set (d := 2 ^ (- e - 1)) in *. rewrite Z.pow_0_r, !Z.mul_1_l, Z.mul_1_r.
    pose proof (Z.div_mod (Z.pos m + d) (2 * d) ltac:(lia)) as D.
    pose proof (Z.mod_pos_bound (Z.pos m + d) (2 * d) ltac:(lia)) as B.
    set (q := (Z.pos m + d) / (2 * d)) in *. split; [lia|].
    apply Z.div_pos; lia.
Qed.

Lemma sf_den_pos : forall x, 0 < sf_den x.
Proof. intros []; cbn [sf_den]; lia. Qed.

Lemma sf_opp_num : forall m e, sf_num (S754_finite true m e) = - sf_num (S754_finite false m e).
Proof. intros. unfold sf_num. ring. Qed.
Lemma sf_opp_den : forall m e, sf_den (S754_finite true m e) = sf_den (S754_finite false m e).
Proof. reflexivity. Qed.

(** Clamping a nearest integer stays nearest within the interval. *)
Lemma clamp_nearest : forall a d k n,
  0 < d -> 1 <= n -> 2 * Z.abs (a - k * d) <= d ->
  forall j, 0 <= j < n ->
    Z.abs (a - Z.min (Z.max k 0) (n - 1) * d) <= Z.abs (a - j * d).
Proof.
  intros a d k n Hd Hn Hk j Hj.
  assert (J0 : 0 <= j * d) by nia. assert (J1 : j * d <= (n - 1) * d) by nia.
  destruct (Z_lt_le_dec k 0) as [K|K].
  - replace (Z.min (Z.max k 0) (n - 1)) with 0 by lia.
    assert (k * d <= - d) by nia. lia.
  - destruct (Z_lt_le_dec (n - 1) k) as [K2|K2].
    + replace (Z.min (Z.max k 0) (n - 1)) with (n - 1) by lia.
      assert (n * d <= k * d) by nia. lia.
    + replace (Z.min (Z.max k 0) (n - 1)) with k by lia.
      destruct (Z.eq_dec j k) as [->|N]; [lia|].
      assert (j * d - k * d <= - d \/ d <= j * d - k * d) by nia. lia.
Qed.

Lemma clamp_coord_ok : forall p x n,
  1 <= n < two31 ->
  exists k, clamp_coord p x n = Ok k /\ nearest_coord x n k.
Proof.
  intros p x n Hn. unfold clamp_coord. rewrite i32c by lia. cbn [bind].
  eexists. split; [reflexivity|]. unfold nearest_coord.
  destruct x as [s|s| |s m e]; unfold f32_round_as_i32.
  - split; [lia|]. intros j Hj. cbn [sf_num sf_den]. lia.
  - destruct s; split; lia.
  - split; lia.
  - split; [lia|].
    destruct (mag_round_bounds m e) as [HB HP].
    pose proof (sf_den_pos (S754_finite false m e)) as Hd.
    set (k := cond_Zopp s (mag_round m e)).
    replace (Z.min (Z.max (Z.max (- two31) (Z.min (two31 - 1) k)) 0) (n - 1))
      with (Z.min (Z.max k 0) (n - 1)) by (unfold two31 in *; lia).
    apply clamp_nearest; [|lia|].
    + destruct s; rewrite ?sf_opp_den; exact Hd.
    + unfold k. destruct s; unfold cond_Zopp; rewrite ?sf_opp_num, ?sf_opp_den; lia.
Qed.

Definition block4_ok (w h nc : Z) : Prop :=
  1 <= w < two31 /\ 1 <= h < two31 /\ 1 <= nc < two31 /\ w * nc < two31 /\ h * (w * nc) < two31.

Lemma sample_index : forall p w h nc sx sy,
  block4_ok w h nc -> 0 <= sx < w -> 0 <= sy < h ->
  get_pixel_index p w h nc (w * nc) sx sy = Ok ((sy * w + sx) * nc) /\
  0 <= (sy * w + sx) * nc /\ (sy * w + sx) * nc + nc <= w * h * nc.
Proof.
  intros p w h nc sx sy (Hw & Hh & Hnc & F1 & F2) Hx Hy.
  assert (HB : block_ok (BS w h nc)) by (unfold block_ok; cbn [bs_w bs_h bs_nc]; lia).
  pose proof (get_index_in p (BS w h nc) sx sy HB Hx Hy) as E.
  pose proof (index_range (BS w h nc) sx sy HB Hx Hy) as R.
  unfold bs_get_index in E. cbn [bs_w bs_h bs_nc] in *.
  rewrite i32c in E by nia. cbn [bind] in E. split; [exact E|]. exact R.
Qed.

(** Nothing to sample: an image without rows or columns. *)
Lemma empty_index p w h nc x y : 0 <= w < two31 -> 0 <= h < two31 -> 1 <= nc < two31 -> w * nc < two31 -> w = 0 \/ h = 0 ->
  exists sx sy, clamp_coord p x w = Ok sx /\ clamp_coord p y h = Ok sy /\ get_pixel_index p w h nc (w * nc) sx sy = Ok (-1).
Proof.
  intros W H N F E.
  assert (C : forall q n, 0 <= n < two31 -> exists s, clamp_coord p q n = Ok s /\ (n = 0 -> s = -1) /\ (0 < n -> 0 <= s < n)).
  { intros q n B. unfold clamp_coord. rewrite i32_of_ok by (unfold two31 in *; lia). cbn [bind]. eexists. split; [reflexivity|]. lia. }
  destruct (C x w W) as (sx & -> & X0 & X1). destruct (C y h H) as (sy & -> & Y0 & Y1).
  exists sx, sy. split; [reflexivity|]. split; [reflexivity|].
  unfold get_pixel_index.
  destruct (Z.eq_dec w 0) as [-> | W0].
  - rewrite (X0 eq_refl). rewrite !Z.mul_0_l, !Z.mul_0_r. rewrite !i32_of_ok by (unfold two31 in *; lia). cbn [bind].
    repeat (rewrite i32_of_ok by (unfold two31 in *; lia); cbn [bind]).
    replace (-1 * nc <? 0) with true by lia. reflexivity.
  - assert (h = 0) by lia. subst h. rewrite (Y0 eq_refl). pose proof (X1 ltac:(lia)) as X.
    assert (B1 : 0 <= sx * nc <= (w - 1) * nc) by nia. assert (B2 : (w - 1) * nc = w * nc - nc) by ring.
    repeat (rewrite i32_of_ok by (unfold two31 in *; lia); cbn [bind]).
    replace (-1 * (w * nc) <? 0) with true by nia. rewrite !orb_true_r. reflexivity.
Qed.
Lemma sample_empty p pixels w h nc x y : 0 <= w < two31 -> 0 <= h < two31 -> 1 <= nc < two31 -> w * nc < two31 -> w = 0 \/ h = 0 ->
  sample_rgba p pixels w h nc (w * nc) x y = Ok (f32_zero, f32_zero, f32_zero, f32_zero) /\
  sample_rgb p pixels w h nc (w * nc) x y = Ok (f32_zero, f32_zero, f32_zero).
Proof.
  intros W H N F E. destruct (empty_index p w h nc x y W H N F E) as (sx & sy & E1 & E2 & E3).
  unfold sample_rgba, sample_rgb. rewrite E1, E2. cbn [bind]. rewrite E3. split; reflexivity.
Qed.

Lemma sample_rgba_ok : forall p pixels w h nc x y,
  block4_ok w h nc -> 4 <= nc -> zlen pixels = w * h * nc ->
  exists sx sy r g b a,
    sample_rgba p pixels w h nc (w * nc) x y = Ok (r, g, b, a) /\
    nearest_coord x w sx /\ nearest_coord y h sy /\
    at_z pixels ((sy * w + sx) * nc) = Some r /\
    at_z pixels ((sy * w + sx) * nc + 1) = Some g /\
    at_z pixels ((sy * w + sx) * nc + 2) = Some b /\
    at_z pixels ((sy * w + sx) * nc + 3) = Some a.
Proof.
  intros p pixels w h nc x y HB Hnc HL. pose proof HB as (Hw & Hh & _).
  destruct (clamp_coord_ok p x w Hw) as (sx & Ex & Nx).
  destruct (clamp_coord_ok p y h Hh) as (sy & Ey & Ny).
  destruct (sample_index p w h nc sx sy HB (proj1 Nx) (proj1 Ny)) as (Ei & R1 & R2).
  set (i := (sy * w + sx) * nc) in *.
  destruct (at_z_some pixels i ltac:(lia)) as (r & Vr).
  destruct (at_z_some pixels (i + 1) ltac:(lia)) as (g & Vg).
  destruct (at_z_some pixels (i + 2) ltac:(lia)) as (b & Vb).
  destruct (at_z_some pixels (i + 3) ltac:(lia)) as (a & Va).
  exists sx, sy, r, g, b, a. split; [|auto 10].
  unfold sample_rgba. rewrite Ex. cbn [bind]. rewrite Ey. cbn [bind]. rewrite Ei. cbn [bind].
  replace (i >=? 0) with true by lia. replace (i + 0) with i by lia.
  rewrite (idx_ok _ _ _ Vr), (idx_ok _ _ _ Vg), (idx_ok _ _ _ Vb), (idx_ok _ _ _ Va).
  reflexivity.
Qed.

Lemma sample_rgb_ok : forall p pixels w h nc x y,
  block4_ok w h nc -> 3 <= nc -> zlen pixels = w * h * nc ->
  exists sx sy r g b,
    sample_rgb p pixels w h nc (w * nc) x y = Ok (r, g, b) /\
    nearest_coord x w sx /\ nearest_coord y h sy /\
    at_z pixels ((sy * w + sx) * nc) = Some r /\
    at_z pixels ((sy * w + sx) * nc + 1) = Some g /\
    at_z pixels ((sy * w + sx) * nc + 2) = Some b.
Proof.
  intros p pixels w h nc x y HB Hnc HL. pose proof HB as (Hw & Hh & _).
  destruct (clamp_coord_ok p x w Hw) as (sx & Ex & Nx).
  destruct (clamp_coord_ok p y h Hh) as (sy & Ey & Ny).
  destruct (sample_index p w h nc sx sy HB (proj1 Nx) (proj1 Ny)) as (Ei & R1 & R2).
  set (i := (sy * w + sx) * nc) in *.
  destruct (at_z_some pixels i ltac:(lia)) as (r & Vr).
  destruct (at_z_some pixels (i + 1) ltac:(lia)) as (g & Vg).
  destruct (at_z_some pixels (i + 2) ltac:(lia)) as (b & Vb).
  exists sx, sy, r, g, b. split; [|auto 10].
  unfold sample_rgb. rewrite Ex. cbn [bind]. rewrite Ey. cbn [bind]. rewrite Ei. cbn [bind].
  replace (i >=? 0) with true by lia. replace (i + 0) with i by lia.
  rewrite (idx_ok _ _ _ Vr), (idx_ok _ _ _ Vg), (idx_ok _ _ _ Vb).
  reflexivity.
Qed.

(* ------------------------------ pixel_buffer ------------------------------ *)

Lemma pixel_buffer_u8 : forall p l,
  zlen l < two31 -> db_size_bytes p (DU8 l) = Ok (pixel_buffer_len (DU8 l)).
Proof.
  intros p l H. cbn. unfold mul_u64, u64_of, in_u64. rewrite Z.mul_1_r.
  pose proof (zlen_nonneg l). unfold two31, two64 in *.
  match goal with |- (if ?c then _ else _) = _ => replace c with true by lia end.
  reflexivity.
Qed.

Lemma pixel_buffer_scaled : forall p pb s,
  wf_block pb -> bs_w (pb_size pb) * bs_h (pb_size pb) * bs_nc (pb_size pb) < two31 ->
  type_size_bytes (db_type (pb_data pb)) = Ok s ->
  db_size_bytes p (pb_data pb) = Ok (pixel_buffer_len (pb_data pb) * s).
Proof.
  intros p pb s HW HF HS. destruct (size_bytes_exact p pb HW HF) as (s' & E1 & E2).
  destruct HW as (_ & _ & _ & HL).
  rewrite E1 in HS. injection HS as <-. rewrite E2, <- HL. destruct (pb_data pb); reflexivity.
Qed.

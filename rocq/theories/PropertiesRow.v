(** C99: walking pictures row by row, and boxes of machine integers. *)
From Verif Require Import Machine Loops FloatModel BBoxModel BBoxSpec PixelModel RowModel RowSpec RowProofs.

(** Walking the rows of a picture comes to an end, in either build, and shows
    every sample of the picture once, in order, [h] rows of [w * nc] samples. *)
Theorem C99_walk : forall p w h nc data fuel,
  filled w h nc data -> (Z.to_nat h < fuel)%nat ->
  exists rows, walk p (float_picture w h nc data) fuel 0 = Ok (rows, true) /\
    concat rows = data /\ zlen rows = h /\ forall r, In r rows -> zlen r = w * nc.
Proof. exact walk_whole. Qed.
Print Assumptions C99_walk.

(** No step earlier: a walk of at most [h] steps is not at its end, and has
    shown the first samples of the picture. *)
Theorem C99_walk_stopped : forall p w h nc data fuel,
  filled w h nc data -> (fuel <= Z.to_nat h)%nat ->
  exists rows, walk p (float_picture w h nc data) fuel 0 = Ok (rows, false) /\
    concat rows = firstn (fuel * Z.to_nat (w * nc)) data /\ length rows = fuel.
Proof. exact walk_stopped. Qed.
Print Assumptions C99_walk_stopped.

(** A row says that it exists exactly if its samples can be had. *)
Theorem C99_row_exists : forall p w h nc data y,
  filled w h nc data -> 0 < w * h * nc -> 0 <= y < two31 ->
  row_has_next (float_picture w h nc data) y = true <->
  exists r, picture_row p (float_picture w h nc data) y = Ok r.
Proof. exact row_exists. Qed.
Print Assumptions C99_row_exists.

Definition six : list f32 := map f32_of_Z [1; 2; 3; 4; 5; 6].
Example C99_rows_met :
  filled 1 3 2 six /\ walk Debug (float_picture 1 3 2 six) 4 0
  = Ok ([map f32_of_Z [1; 2]; map f32_of_Z [3; 4]; map f32_of_Z [5; 6]], true).
Proof. split; [unfold filled, two31; cbn; lia|reflexivity]. Qed.

(** The row of a box answers for square boxes only: it compares its number
    with its length. *)
Theorem C99_box_row_partial : forall p b y,
  well_formed b -> width b < two31 -> height b = width b -> 0 <= y ->
  exists v, box_row_has_next p b y = Ok v /\ (v = true <-> y < height b).
Proof. exact box_row_exists. Qed.
Print Assumptions C99_box_row_partial.
Example C99_box_row_met : well_formed (BBox 0 1 2 3) /\ height (BBox 0 1 2 3) = width (BBox 0 1 2 3) /\
  box_row_has_next Debug (BBox 0 1 2 3) 1 = Ok true /\ box_row_has_next Debug (BBox 0 1 2 3) 2 = Ok false.
Proof. split; [unfold well_formed; cbn; lia|]. split; [|split]; reflexivity. Qed.
Theorem C99_box_row_refuted :
  (exists b y, well_formed b /\ 0 <= y < height b /\ box_row_has_next Debug b y = Ok false) /\
  (exists b y, well_formed b /\ height b <= y /\ box_row_has_next Debug b y = Ok true).
Proof.
  split.
  - exists (BBox 0 0 1 3), 2. unfold well_formed, height. cbn. split; [lia|]. split; [lia|reflexivity].
  - exists (BBox 0 0 3 1), 2. unfold well_formed, height. cbn. split; [lia|]. split; [lia|reflexivity].
Qed.
Print Assumptions C99_box_row_refuted.

(** A row of a box holds exactly the columns of the box, and says how many. *)
Theorem C99_box_row_span : forall p b, well_formed b -> width b < two31 ->
  (forall x y, in_box b x y <-> box_row_min b <= x < box_row_max b /\ min_y b <= y < max_y b) /\
  box_row_len p b = Ok (box_row_max b - box_row_min b).
Proof. exact box_row_span. Qed.
Print Assumptions C99_box_row_span.
Example C99_box_row_span_met : box_row_len Debug (BBox (-2) 1 5 3) = Ok 7 /\ in_box (BBox (-2) 1 5 3) 4 2.
Proof. split; [reflexivity|unfold in_box; cbn; lia]. Qed.

(** The numbers of a box are those of arithmetic as long as they fit. *)
Theorem C99_size : forall p b, well_formed b -> width b < two31 -> height b < two31 ->
  width_i32 p b = Ok (max_x b - min_x b) /\ height_i32 p b = Ok (max_y b - min_y b).
Proof. exact size_exact. Qed.
Print Assumptions C99_size.
Theorem C99_area : forall p b,
  well_formed b -> width b < two31 -> height b < two31 -> width b * height b < two31 ->
  area_u32 p b = Ok ((max_x b - min_x b) * (max_y b - min_y b)).
Proof. exact area_small. Qed.
Print Assumptions C99_area.
Theorem C99_centre : forall p b,
  - two31 <= min_x b + max_x b < two31 -> - two31 <= min_y b + max_y b < two31 ->
  center_i32 p b = Ok (Z.quot (min_x b + max_x b) 2, Z.quot (min_y b + max_y b) 2).
Proof. exact center_fits. Qed.
Print Assumptions C99_centre.
Example C99_numbers_met : let b := BBox (-5) 2 6 4 in
  well_formed b /\ width_i32 Debug b = Ok 11 /\ area_u32 Debug b = Ok 22 /\ center_i32 Debug b = Ok (0, 3).
Proof. split; [unfold well_formed; cbn; lia|]. split; [|split]; reflexivity. Qed.

(** Beyond that debug builds crash ... *)
Theorem C99_area_debug : forall b, well_formed b -> width b < two31 -> height b < two31 ->
  area_u32 Debug b = Panic <-> two31 <= width b * height b.
Proof. exact area_debug. Qed.
Print Assumptions C99_area_debug.
Theorem C99_centre_debug : forall b, center_i32 Debug b = Panic <->
  ~ (- two31 <= min_x b + max_x b < two31 /\ - two31 <= min_y b + max_y b < two31).
Proof. exact center_debug. Qed.
Print Assumptions C99_centre_debug.

(** ... and release builds go wrong, although an area below 2^32 comes out
    right even then. *)
Theorem C99_area_release : forall b,
  well_formed b -> width b < two31 -> height b < two31 -> width b * height b < two32 ->
  area_u32 Release b = Ok (width b * height b).
Proof. exact area_release. Qed.
Print Assumptions C99_area_release.
Theorem C99_width_wraps : forall b, i32_box b -> well_formed b -> two31 <= width b ->
  width_i32 Debug b = Panic /\ width_i32 Release b = Ok (width b - two32).
Proof. exact size_wraps. Qed.
Print Assumptions C99_width_wraps.
Example C99_wraps_met : let b := BBox (-1500000000) 0 1500000000 1 in
  i32_box b /\ well_formed b /\ two31 <= width b /\ width_i32 Release b = Ok (-1294967296).
Proof. cbn zeta. unfold i32_box, well_formed, width, two31. cbn [min_x max_x min_y max_y]. split; [lia|]. split; [lia|]. split; [lia|reflexivity]. Qed.

(** A release build puts the centre of a one-pixel box outside it, and gives a
    box of more than four thousand million pixels an area of none. *)
Theorem C99_release_refuted :
  (exists b x y, i32_box b /\ non_empty b /\ 0 <= min_x b /\ 0 <= min_y b /\
     center_i32 Release b = Ok (x, y) /\ ~ in_box b x y) /\
  (exists b, i32_box b /\ non_empty b /\ area_u32 Release b = Ok 0).
Proof.
  split.
  - exists (BBox 2000000000 0 2000000001 1), (-147483647), 0.
    unfold i32_box, non_empty, in_box, two31. cbn [min_x max_x min_y max_y].
    split; [lia|]. split; [exists 2000000000, 0; lia|]. split; [lia|]. split; [lia|]. split; [reflexivity|lia].
  - exists (BBox 0 0 65536 65536). unfold i32_box, non_empty, in_box, two31. cbn [min_x max_x min_y max_y].
    split; [lia|]. split; [exists 0, 0; lia|reflexivity].
Qed.
Print Assumptions C99_release_refuted.

(** A new block index is the first element of the first pixel. *)
Theorem C99_first_index : forall b, 0 < bs_w b < two31 -> 0 < bs_h b < two31 -> 0 < bs_nc b < two31 ->
  bi_from_xy b 0 0 = Ok (bi_new b) /\ bi_new b = bi_from_index b 0.
Proof. exact first_index. Qed.
Print Assumptions C99_first_index.
Example C99_first_index_met : bi_row (bi_new (BS 4 3 2)) = Ok 0 /\ bi_column (bi_new (BS 4 3 2)) = Ok 0.
Proof. split; reflexivity. Qed.

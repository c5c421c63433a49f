(** Proofs about pixel addressing and cropping. *)
From Coq Require Import Floats.SpecFloat Psatz.
From Verif Require Import Machine Loops FloatModel BBoxModel BBoxSpec BBoxProofs PixelModel PixelSpec.

(* ---------------------------------------------------------------- *)
(** Index arithmetic *)

Lemma chan_range : forall nc c s e a,
  0 <= c < nc -> (s * nc <= a * nc + c < e * nc <-> s <= a < e).
Proof. intros. split; intros; nia. Qed.

Lemma row_range : forall W u r r0 u0 u1,
  0 <= u < W -> 0 <= u0 -> u1 <= W ->
  (r0 * W + u0 <= r * W + u < r0 * W + u1 <-> r = r0 /\ u0 <= u < u1).
Proof.
  intros. split.
  - intros HH. assert (r = r0) by nia. subst. lia.
  - intros [-> ?]. lia.
Qed.

Lemma offset_bounds : forall w nc x y c,
  in_box w x y -> 0 <= c < nc ->
  0 <= offset w nc x y c < (max_x w - min_x w) * (max_y w - min_y w) * nc.
Proof.
  intros w nc x y c Hb Hc. unfold offset, in_box in *.
  set (W := max_x w - min_x w) in *. set (H := max_y w - min_y w) in *.
  set (u := x - min_x w) in *. set (v := y - min_y w) in *.
  assert (0 <= u < W) by (unfold u, W; lia). assert (0 <= v < H) by (unfold v, H; lia).
  assert (v * W + u < W * H) by nia. assert (0 <= v * W + u) by nia. nia.
Qed.

Lemma offset_inj : forall w nc x y c x' y' c',
  in_box w x y -> in_box w x' y' -> 0 <= c < nc -> 0 <= c' < nc ->
  offset w nc x y c = offset w nc x' y' c' -> x = x' /\ y = y' /\ c = c'.
Proof.
  intros w nc x y c x' y' c' Hb Hb' Hc Hc' E. unfold offset, in_box in *.
  set (W := max_x w - min_x w) in *.
  remember ((y - min_y w) * W + (x - min_x w)) as A. remember ((y' - min_y w) * W + (x' - min_x w)) as B.
  assert (A = B) by nia. assert (c = c') by nia. subst A B.
  assert (y - min_y w = y' - min_y w).
  { assert (0 <= x - min_x w < W) by (unfold W; lia). assert (0 <= x' - min_x w < W) by (unfold W; lia). nia. }
  repeat split; lia.
Qed.

Lemma i32c : forall p z, - two31 <= z -> z < two31 -> i32_of p z = Ok z.
Proof. intros. apply i32_of_ok. lia. Qed.

Lemma count_mono : forall a nc, 0 <= a -> 0 <= nc -> a * Z.max 1 nc < two31 -> a < two31 /\ a * nc < two31.
Proof. intros. destruct (Z.max_spec 1 nc) as [[? E]|[? E]]; rewrite E in *; split; nia. Qed.

Lemma crop_arith : forall W H n ux sr nc,
  0 <= ux -> ux + n <= W -> 0 < n -> 0 <= sr < H -> 0 <= nc -> W * H * Z.max 1 nc < two31 ->
  W * H < two31 /\ W * H * nc < two31 /\ 0 <= sr * W /\ sr * W + ux + n <= W * H /\
  0 <= sr * W * nc /\ sr * W * nc + (ux * nc + n * nc) <= W * H * nc /\
  0 <= n * nc /\ 0 <= ux * nc /\
  0 <= (sr * W + ux) * nc /\ (sr * W + ux) * nc + n * nc <= W * H * nc.
Proof.
  intros W H n ux sr nc Hu Hun Hn Hs Hnc HF.
  assert (A0 : 0 <= W * H) by nia.
  destruct (count_mono _ _ A0 Hnc HF) as [A1 A2]. clear HF.
  assert (A3 : 0 <= sr * W) by nia.
  assert (A4 : sr * W + ux + n <= W * H) by nia.
  assert (A5 : (sr * W + ux + n) * nc <= W * H * nc) by (apply Z.mul_le_mono_nonneg_r; lia).
  repeat split; try assumption; try (apply Z.mul_nonneg_nonneg; lia); nia.
Qed.

(* ---------------------------------------------------------------- *)
(** Cropping *)

Section Crop.
Context {A : Type} (p : profile) (zero : A) (src : list A) (nc : Z) (dw cw : bbox).
Hypothesis Hdw : well_formed dw.
Hypothesis Hcw : well_formed cw.
Hypothesis Hnc : 0 <= nc.
Hypothesis Hsrc : zlen src = (max_x dw - min_x dw) * (max_y dw - min_y dw) * nc.
Hypothesis Sdw : coords_small dw.
Hypothesis Scw : coords_small cw.
Hypothesis Fdw : count_fits (max_x dw - min_x dw) (max_y dw - min_y dw) nc.
Hypothesis Fcw : count_fits (max_x cw - min_x cw) (max_y cw - min_y cw) nc.

Let diff := intersection dw cw.

Lemma diff_bounds : (exists x y, in_box diff x y) ->
  min_x dw <= min_x diff /\ min_x cw <= min_x diff /\ max_x diff <= max_x dw /\ max_x diff <= max_x cw /\
  min_y dw <= min_y diff /\ min_y cw <= min_y diff /\ max_y diff <= max_y dw /\ max_y diff <= max_y cw /\
  min_x diff < max_x diff /\ min_y diff < max_y diff.
Proof.
  intros (x & y & H). unfold diff, intersection in *. unfold well_formed in *.
  destruct ((min_x dw >? max_x cw) || (min_x cw >? max_x dw) || (min_y dw >? max_y cw) || (min_y cw >? max_y dw)) eqn:E;
    unfold in_box in H; cbn [min_x min_y max_x max_y] in *; lia.
Qed.

Definition row_result (y : Z) (dst r : list A) : Prop :=
  zlen r = zlen dst /\
  forall x y' c, in_box cw x y' -> 0 <= c < nc ->
    at_z r (offset cw nc x y' c) =
    if (y' =? y) && (min_x dw <=? x) && (x <? max_x dw) then at_z src (offset dw nc x y c)
    else at_z dst (offset cw nc x y' c).

Lemma crop_row_ok : forall y dst,
  (exists x y, in_box diff x y) ->
  min_y diff <= y < max_y diff ->
  zlen dst = (max_x cw - min_x cw) * (max_y cw - min_y cw) * nc ->
  exists r,
    crop_row p src nc dw cw diff ((min_x diff - min_x dw) * nc)
      ((min_x diff - min_x dw) * nc + (max_x diff - min_x diff) * nc)
      (min_x diff - min_x cw) y dst = Ok r /\ row_result y dst r.
Proof.
  intros y dst Hne Hy Hdst. pose proof (diff_bounds Hne) as B.
  destruct B as (B1 & B2 & B3 & B4 & B5 & B6 & B7 & B8 & B9 & B10).
  unfold coords_small, count_fits in *.
  destruct Fdw as (F1 & F2 & F3), Fcw as (G1 & G2 & G3). clear Fdw Fcw.
  assert (Q : max_x dw - min_x dw < two31 /\ max_y dw - min_y dw < two31 /\
    max_x cw - min_x cw < two31 /\ max_y cw - min_y cw < two31).
  { change two31 with (2 ^ 31). lia. }
  set (W := max_x dw - min_x dw) in *. set (H := max_y dw - min_y dw) in *.
  set (CW := max_x cw - min_x cw) in *. set (CH := max_y cw - min_y cw) in *.
  set (ux := min_x diff - min_x dw) in *. set (vx := min_x diff - min_x cw) in *.
  set (n := max_x diff - min_x diff) in *.
  set (sr := y - min_y dw). set (dr := y - min_y cw).
  assert (Hux : 0 <= ux /\ ux + n <= W) by (unfold ux, n, W; lia).
  assert (Hvx : 0 <= vx /\ vx + n <= CW) by (unfold vx, n, CW; lia).
  assert (Hn : 0 < n) by (unfold n; lia).
  assert (Hsr : 0 <= sr < H) by (unfold sr, H; lia).
  assert (Hdr : 0 <= dr < CH) by (unfold dr, CH; lia).
  destruct (crop_arith W H n ux sr nc) as (M1 & M3 & T3 & T4 & T7 & T8 & T9 & T10 & _ & _); try lia.
  destruct (crop_arith CW CH n vx dr nc) as (M2 & M4 & T1 & T2 & _ & _ & _ & _ & T5 & T6); try lia.
  assert (P31 : 2 ^ 30 < two31) by (unfold two31; lia).
  unfold crop_row, width_i32. fold dr sr CW W n.
  rewrite (i32c p dr) by lia. cbn [bind].
  rewrite (i32c p CW) by lia. cbn [bind].
  rewrite (i32c p (dr * CW)) by lia. cbn [bind].
  rewrite (i32c p (dr * CW + vx)) by lia. cbn [bind].
  rewrite (i32c p ((dr * CW + vx) * nc)) by lia. cbn [bind].
  rewrite (i32c p n) by lia. cbn [bind].
  rewrite (i32c p (n * nc)) by lia. cbn [bind].
  rewrite (i32c p sr) by lia. cbn [bind].
  rewrite (i32c p W) by lia. cbn [bind].
  rewrite (i32c p (sr * W)) by lia. cbn [bind].
  rewrite (i32c p (sr * W * nc)) by lia. cbn [bind].
  rewrite !i32_as_usize_ok by lia.
  set (ds := (dr * CW + vx) * nc) in *. set (de := ds + n * nc) in *.
  set (ss := sr * W * nc + ux * nc). set (se := sr * W * nc + (ux * nc + n * nc)).
  destruct (subslice_ok dst ds de) as (r0 & E0 & _ & _); [lia|lia|]. rewrite E0. cbn [bind].
  destruct (subslice_ok src ss se) as (part & E1 & L1 & V1); [lia|lia|]. rewrite E1. cbn [bind].
  destruct (copy_into_ok dst part ds de) as (r & E2 & L2 & V2); [lia|lia|lia|].
  exists r. split; [exact E2|]. split; [exact L2|].
  intros x y' c Hin Hc. rewrite V2.
  assert (Hin' : 0 <= x - min_x cw < CW) by (unfold in_box in Hin; unfold CW; lia).
  assert (Hbool : ((ds <=? offset cw nc x y' c) && (offset cw nc x y' c <? de)) =
                  ((y' =? y) && (min_x dw <=? x) && (x <? max_x dw))).
  { apply eq_true_iff_eq.
    assert (R : (ds <= offset cw nc x y' c < de) <-> (y' = y /\ min_x diff <= x < max_x diff)).
    { unfold de, ds, offset. fold CW.
      replace ((dr * CW + vx) * nc + n * nc) with ((dr * CW + (vx + n)) * nc) by ring.
      rewrite chan_range by exact Hc.
      rewrite row_range by lia.
      unfold dr, vx, n, in_box in *. lia. }
    assert (R2 : y' = y -> (min_x diff <= x < max_x diff <-> min_x dw <= x < max_x dw)).
    { intros ->. pose proof (intersection_spec dw cw x y) as I. fold diff in I.
      unfold in_box in *. lia. }
    rewrite !andb_true_iff, !Z.leb_le, !Z.ltb_lt, Z.eqb_eq. rewrite R. split.
    - intros [-> Hx]. specialize (R2 eq_refl). lia.
    - intros [[-> Hx] Hx2]. specialize (R2 eq_refl). lia. }
  rewrite Hbool. destruct ((y' =? y) && (min_x dw <=? x) && (x <? max_x dw)) eqn:EB; [|reflexivity].
  assert (y' = y) by lia. subst y'.
  assert (ds <= offset cw nc x y c < de) by lia.
  rewrite V1 by lia. f_equal. unfold ss, ds, offset. fold W CW. unfold dr, sr, vx, ux.
  ring.
Qed.

Lemma crop_rows_ok : forall dst,
  (exists x y, in_box diff x y) ->
  zlen dst = (max_x cw - min_x cw) * (max_y cw - min_y cw) * nc ->
  (forall i, 0 <= i < zlen dst -> at_z dst i = Some zero) ->
  exists r, crop_rows p src nc dw cw diff dst = Ok r /\ zlen r = zlen dst /\
    (forall x y c, in_box cw x y -> 0 <= c < nc ->
       at_z r (offset cw nc x y c) =
       if in_boxb dw x y then at_z src (offset dw nc x y c) else Some zero).
Proof.
  intros dst Hne Hdst Hz. pose proof (diff_bounds Hne) as B.
  destruct B as (B1 & B2 & B3 & B4 & B5 & B6 & B7 & B8 & B9 & B10).
  unfold crop_rows, width_i32.
  pose proof Fdw as (F1 & F2 & F3). pose proof Fcw as (G1 & G2 & G3).
  assert (P31 : 2 ^ 31 = two31) by reflexivity.
  unfold coords_small in *.
  assert (T1 : 0 <= (min_x diff - min_x dw) * nc) by (apply Z.mul_nonneg_nonneg; lia).
  assert (T2 : 0 <= (max_x diff - min_x diff) * nc) by (apply Z.mul_nonneg_nonneg; lia).
  assert (T3 : (min_x diff - min_x dw) * nc + (max_x diff - min_x diff) * nc
               <= (max_x dw - min_x dw) * nc).
  { rewrite <- Z.mul_add_distr_r. apply Z.mul_le_mono_nonneg_r; lia. }
  rewrite (i32c p (min_x diff - min_x cw)) by lia. cbn [bind].
  rewrite (i32c p (min_x diff - min_x dw)) by lia. cbn [bind].
  rewrite (i32c p ((min_x diff - min_x dw) * nc)) by lia. cbn [bind].
  rewrite (i32c p (max_x diff - min_x diff)) by lia. cbn [bind].
  rewrite (i32c p ((max_x diff - min_x diff) * nc)) by lia. cbn [bind].
  rewrite (i32c p ((min_x diff - min_x dw) * nc + (max_x diff - min_x diff) * nc)) by lia.
  cbn [bind].
  set (P := fun (y : Z) (s : list A) =>
    zlen s = zlen dst /\
    forall x y' c, in_box cw x y' -> 0 <= c < nc ->
      at_z s (offset cw nc x y' c) =
      if in_boxb dw x y' && (y' <? y) then at_z src (offset dw nc x y' c) else Some zero).
  destruct (for_range_inv P
    (crop_row p src nc dw cw diff ((min_x diff - min_x dw) * nc)
      ((min_x diff - min_x dw) * nc + (max_x diff - min_x diff) * nc)
      (min_x diff - min_x cw)) (min_y diff) (max_y diff) dst) as (r & E & HP).
  - lia.
  - split; [reflexivity|]. intros x y' c Hin Hc.
    destruct (in_boxb dw x y' && (y' <? min_y diff)) eqn:EB.
    + exfalso. apply andb_true_iff in EB. destruct EB as [EB1 EB2].
      apply in_boxb_spec in EB1.
      assert (in_box diff x y') by (apply intersection_spec; auto).
      unfold in_box in H. lia.
    + apply Hz. rewrite Hdst. apply offset_bounds; assumption.
  - intros y s Hy [HL HS].
    destruct (crop_row_ok y s Hne Hy ltac:(lia)) as (s' & E' & [HL' HS']).
    exists s'. split; [exact E'|]. split; [lia|].
    intros x y' c Hin Hc. rewrite HS' by assumption.
    destruct ((y' =? y) && (min_x dw <=? x) && (x <? max_x dw)) eqn:EB.
    + assert (y' = y) by lia. subst y'.
      assert (in_boxb dw x y = true).
      { apply in_boxb_spec. unfold in_box. lia. }
      rewrite H. replace (y <? y + 1) with true by lia. reflexivity.
    + rewrite HS by assumption.
      destruct (in_boxb dw x y') eqn:EI; [|reflexivity]. cbn [andb].
      apply in_boxb_spec in EI. unfold in_box in EI.
      replace (y' <? y + 1) with (y' <? y) by lia. reflexivity.
  - exists r. split; [exact E|]. destruct HP as [HL HS]. split; [exact HL|].
    intros x y c Hin Hc. rewrite HS by assumption.
    destruct (in_boxb dw x y) eqn:EI; [|reflexivity]. cbn [andb].
    apply in_boxb_spec in EI.
    assert (in_box diff x y) by (apply intersection_spec; auto).
    unfold in_box in H. replace (y <? max_y diff) with true by lia. reflexivity.
Qed.

End Crop.

Lemma at_z_map : forall {A B} (f : A -> B) l i, at_z (map f l) i = option_map f (at_z l i).
Proof.
  intros. unfold at_z. destruct (0 <=? i); [|reflexivity]. apply nth_error_map.
Qed.

Lemma zlen_map : forall {A B} (f : A -> B) l, zlen (map f l) = zlen l.
Proof. intros. unfold zlen. rewrite map_length. reflexivity. Qed.

Lemma zlen_elems : forall d, zlen (elems d) = db_len d.
Proof. intros []; cbn [elems db_len]; apply zlen_map. Qed.

Lemma area_zero_iff : forall p b,
  well_formed b -> coords_small b -> width b * height b < two31 ->
  exists a, area_u32 p b = Ok a /\ (a = 0 <-> ~ exists x y, in_box b x y).
Proof.
  intros p b Hw Hs Hf. unfold coords_small, well_formed, width, height in *.
  unfold area_u32, width_i32, height_i32.
  assert (P31 : 2 ^ 31 = two31) by reflexivity.
  rewrite i32c by lia. cbn [bind]. rewrite i32c by lia. cbn [bind].
  assert (0 <= (max_x b - min_x b) * (max_y b - min_y b)) by nia.
  rewrite i32c by lia. cbn [bind]. eexists. split; [reflexivity|].
  rewrite Z.mod_small by (unfold two32, two31 in *; lia). split.
  - intros E (x & y & Hb). unfold in_box in Hb. nia.
  - intros Hn. destruct (Z.eq_dec ((max_x b - min_x b) * (max_y b - min_y b)) 0) as [|N]; [assumption|].
    exfalso. apply Hn. exists (min_x b), (min_y b). unfold in_box.
    assert (max_x b - min_x b <> 0) by nia. assert (max_y b - min_y b <> 0) by nia. lia.
Qed.

Lemma bs_size_ok : forall p b,
  0 <= bs_w b -> 0 <= bs_h b -> 0 <= bs_nc b -> count_fits (bs_w b) (bs_h b) (bs_nc b) ->
  bs_size p b = Ok (bs_w b * bs_h b * bs_nc b).
Proof.
  intros p [w h nc] Hw Hh Hnc (F1 & F2 & F3). cbn [bs_w bs_h bs_nc] in *. unfold bs_size.
  cbn [bs_w bs_h bs_nc].
  assert (0 <= w * h) by nia. assert (w * h < two31) by nia. assert (0 <= w * h * nc) by nia.
  assert (w * h * nc < two31) by nia.
  rewrite i32c by lia. cbn [bind]. rewrite i32c by lia. cbn [bind].
  rewrite i32_as_usize_ok by lia. reflexivity.
Qed.

Lemma db_new_ok : forall n t, t <> UnknownType -> 0 <= n < 2 ^ 63 ->
  exists d, db_new n t = Ok d /\ db_type d = t /\ db_len d = n /\
    (forall i, 0 <= i < n -> at_z (elems d) i = Some (zero_elem t)).
Proof.
  intros n t Ht Hn.
  destruct t; try congruence; unfold db_new; rewrite alloc_ok by assumption; cbn [bind];
    eexists; (split; [reflexivity|]); (split; [reflexivity|]); cbn [db_len elems];
    (split; [apply zlen_repeat; lia|]); intros i Hi; rewrite at_z_map, at_z_repeat by lia; reflexivity.
Qed.

Lemma db_type_known : forall d, db_type d <> UnknownType.
Proof. intros []; discriminate. Qed.

Definition crop_spec (p : profile) (pb : pixelblock) (dw cw : bbox) : Prop :=
  exists r,
    from_pixel_block p pb dw cw = Ok r /\
    wf_block r /\ placed r cw /\
    bs_nc (pb_size r) = bs_nc (pb_size pb) /\
    db_type (pb_data r) = db_type (pb_data pb) /\
    forall x y c, in_box cw x y -> 0 <= c < bs_nc (pb_size pb) ->
      pixel_val r cw x y c =
      if in_boxb dw x y then pixel_val pb dw x y c else Some (zero_elem (db_type (pb_data pb))).

Lemma crop_case : forall {A} p (inj : A -> elem) (z : A) (mk : list A -> datablock) src nc dw cw dst,
  (forall l, elems (mk l) = map inj l) -> (forall l, db_len (mk l) = zlen l) ->
  well_formed dw -> well_formed cw -> 0 <= nc ->
  zlen src = (max_x dw - min_x dw) * (max_y dw - min_y dw) * nc ->
  coords_small dw -> coords_small cw ->
  count_fits (max_x dw - min_x dw) (max_y dw - min_y dw) nc ->
  count_fits (max_x cw - min_x cw) (max_y cw - min_y cw) nc ->
  (exists x y, in_box (intersection dw cw) x y) ->
  zlen dst = (max_x cw - min_x cw) * (max_y cw - min_y cw) * nc ->
  (forall a b, inj a = inj b -> a = b) ->
  (forall i, 0 <= i < zlen dst -> at_z (elems (mk dst)) i = Some (inj z)) ->
  exists r, crop_rows p src nc dw cw (intersection dw cw) dst = Ok r /\ zlen r = zlen dst /\
    (forall x y c, in_box cw x y -> 0 <= c < nc ->
       at_z (elems (mk r)) (offset cw nc x y c) =
       if in_boxb dw x y then at_z (elems (mk src)) (offset dw nc x y c) else Some (inj z)).
Proof.
  intros A p inj z mk src nc dw cw dst HE HLn Hdw Hcw Hnc Hsrc Sdw Scw Fdw Fcw Hne Hdst Hinj Hz.
  destruct (crop_rows_ok p z src nc dw cw Hdw Hcw Hnc Hsrc Sdw Scw Fdw Fcw dst Hne Hdst) as (r & E & L & V).
  - intros i Hi. specialize (Hz i Hi). rewrite HE, at_z_map in Hz.
    destruct (at_z dst i); cbn [option_map] in Hz; [|discriminate]. f_equal. apply Hinj. congruence.
  - exists r. split; [exact E|]. split; [exact L|].
    intros x y c Hin Hc. rewrite !HE, !at_z_map, V by assumption.
    destruct (in_boxb dw x y); reflexivity.
Qed.

Lemma crop_exact : forall p pb dw cw,
  wf_block pb -> placed pb dw -> well_formed dw -> well_formed cw ->
  coords_small dw -> coords_small cw ->
  count_fits (width dw) (height dw) (bs_nc (pb_size pb)) ->
  count_fits (width cw) (height cw) (bs_nc (pb_size pb)) ->
  crop_spec p pb dw cw.
Proof.
  intros p [[w h nc] d] dw cw (W1 & W2 & W3 & W4) [P1 P2] Hdw Hcw Sdw Scw Fdw Fcw.
  unfold width, height in *. cbn [pb_size pb_data bs_w bs_h bs_nc] in *. subst w h.
  assert (P31 : 2 ^ 31 = two31) by reflexivity.
  pose proof Sdw as Sdw'. pose proof Scw as Scw'. unfold coords_small in Sdw', Scw'.
  pose proof Hdw as Hdw'. pose proof Hcw as Hcw'. unfold well_formed in Hdw', Hcw'.
  unfold crop_spec, from_pixel_block, width_i32, height_i32. cbn [pb_size pb_data bs_w bs_h bs_nc].
  rewrite (i32c p (max_x dw - min_x dw)) by lia. cbn [bind]. rewrite Z.eqb_refl. cbn [negb].
  rewrite (i32c p (max_y dw - min_y dw)) by lia. cbn [bind]. rewrite Z.eqb_refl. cbn [negb].
  rewrite (i32c p (max_x cw - min_x cw)) by lia. cbn [bind].
  rewrite (i32c p (max_y cw - min_y cw)) by lia. cbn [bind].
  set (b := BS (max_x cw - min_x cw) (max_y cw - min_y cw) nc).
  assert (Hsz : bs_size p b = Ok ((max_x cw - min_x cw) * (max_y cw - min_y cw) * nc)).
  { unfold b. apply bs_size_ok; cbn [bs_w bs_h bs_nc]; try lia. exact Fcw. }
  assert (Hn0 : 0 <= (max_x cw - min_x cw) * (max_y cw - min_y cw)) by (apply Z.mul_nonneg_nonneg; lia).
  assert (Hn : 0 <= (max_x cw - min_x cw) * (max_y cw - min_y cw) * nc < two31).
  { destruct Fcw as (G1 & G2 & G3). destruct (count_mono _ _ Hn0 W3 G1). split; [|assumption].
    apply Z.mul_nonneg_nonneg; lia. }
  destruct (db_new_ok ((max_x cw - min_x cw) * (max_y cw - min_y cw) * nc) (db_type d)
              (db_type_known d)) as (d0 & E0 & T0 & L0 & V0).
  { unfold two31 in Hn. lia. }
  unfold pb_new. rewrite Hsz. cbn [bind]. rewrite E0. cbn [bind pb_data].
  assert (Hi : well_formed (intersection dw cw)) by apply intersection_wf.
  assert (Hb0 : (exists x y, in_box (intersection dw cw) x y) ->
     width (intersection dw cw) <= width cw /\ height (intersection dw cw) <= height cw).
  { intros Hx. pose proof (diff_bounds dw cw Hdw Hcw Hx). unfold width, height. lia. }
  assert (Harea : exists a, area_u32 p (intersection dw cw) = Ok a /\
     (a = 0 <-> ~ exists x y, in_box (intersection dw cw) x y)).
  { apply area_zero_iff; [exact Hi| |].
    - unfold coords_small, intersection.
      destruct ((min_x dw >? max_x cw) || (min_x cw >? max_x dw) || (min_y dw >? max_y cw) || (min_y cw >? max_y dw));
        cbn [min_x min_y max_x max_y]; lia.
    - destruct Fcw as (G1 & G2 & G3).
      destruct (count_mono _ _ Hn0 W3 G1) as [G4 _].
      unfold well_formed in Hi.
      destruct (Z_lt_le_dec (min_x (intersection dw cw)) (max_x (intersection dw cw)));
      destruct (Z_lt_le_dec (min_y (intersection dw cw)) (max_y (intersection dw cw))).
      + destruct Hb0 as [Hb1 Hb2].
        { exists (min_x (intersection dw cw)), (min_y (intersection dw cw)). unfold in_box. lia. }
        unfold width, height in *. eapply Z.le_lt_trans; [|exact G4].
        apply Z.mul_le_mono_nonneg; lia.
      + unfold height. replace (max_y (intersection dw cw) - min_y (intersection dw cw)) with 0 by lia.
        rewrite Z.mul_0_r. reflexivity.
      + unfold width. replace (max_x (intersection dw cw) - min_x (intersection dw cw)) with 0 by lia.
        reflexivity.
      + unfold width. replace (max_x (intersection dw cw) - min_x (intersection dw cw)) with 0 by lia.
        reflexivity. }
  destruct Harea as (a & EA & HA). rewrite EA. cbn [bind].
  destruct (Z.eqb_spec a 0) as [Ea|Ea].
  - (* nothing to copy *)
    assert (Hno : ~ exists x y, in_box (intersection dw cw) x y) by (apply HA; exact Ea).
    exists (PB b d0). split; [reflexivity|].
    split; [unfold wf_block, b; cbn [pb_size pb_data bs_w bs_h bs_nc]; lia|].
    split; [unfold placed, b; cbn [pb_size bs_w bs_h]; lia|].
    split; [reflexivity|]. split; [exact T0|].
    intros x y c Hin Hc. unfold pixel_val. cbn [pb_size pb_data bs_nc b].
    rewrite V0 by (apply offset_bounds; assumption).
    destruct (in_boxb dw x y) eqn:EI; [|reflexivity].
    exfalso. apply Hno. exists x, y. apply intersection_spec. apply in_boxb_spec in EI. auto.
  - assert (Hne : exists x y, in_box (intersection dw cw) x y).
    { destruct (Z_lt_le_dec (min_x (intersection dw cw)) (max_x (intersection dw cw)));
      destruct (Z_lt_le_dec (min_y (intersection dw cw)) (max_y (intersection dw cw))).
      1: exists (min_x (intersection dw cw)), (min_y (intersection dw cw)); unfold in_box; lia.
      all: exfalso; apply Ea; apply HA; intros (x & y & HB); unfold in_box in HB; lia. }
    destruct d as [src|src|src|src]; destruct d0 as [dst|dst|dst|dst]; cbn [db_type] in T0; try discriminate;
      cbn [db_len] in *.
    + destruct (crop_case (A:=f32) p EF f32_zero DF32 src nc dw cw dst) as (r & E & L & V); auto; try reflexivity.
      { intros ? ? HE; injection HE; auto. } { intros j Hj. apply V0. lia. }
      rewrite E. cbn [bind]. exists (PB b (DF32 r)). split; [reflexivity|].
      split; [unfold wf_block, b; cbn [pb_size pb_data bs_w bs_h bs_nc db_len]; lia|].
      split; [unfold placed, b; cbn [pb_size bs_w bs_h]; lia|]. split; [reflexivity|]. split; [reflexivity|].
      intros x y c Hin Hc. unfold pixel_val. cbn [pb_size pb_data bs_nc b]. exact (V x y c Hin Hc).
    + destruct (crop_case p EI 0 DU8 src nc dw cw dst) as (r & E & L & V); auto; try reflexivity.
      { intros ? ? HE; injection HE; auto. } { intros j Hj. apply V0. lia. }
      rewrite E. cbn [bind]. exists (PB b (DU8 r)). split; [reflexivity|].
      split; [unfold wf_block, b; cbn [pb_size pb_data bs_w bs_h bs_nc db_len]; lia|].
      split; [unfold placed, b; cbn [pb_size bs_w bs_h]; lia|]. split; [reflexivity|]. split; [reflexivity|].
      intros x y c Hin Hc. unfold pixel_val. cbn [pb_size pb_data bs_nc b]. exact (V x y c Hin Hc).
    + destruct (crop_case p EI 0 DU16 src nc dw cw dst) as (r & E & L & V); auto; try reflexivity.
      { intros ? ? HE; injection HE; auto. } { intros j Hj. apply V0. lia. }
      rewrite E. cbn [bind]. exists (PB b (DU16 r)). split; [reflexivity|].
      split; [unfold wf_block, b; cbn [pb_size pb_data bs_w bs_h bs_nc db_len]; lia|].
      split; [unfold placed, b; cbn [pb_size bs_w bs_h]; lia|]. split; [reflexivity|]. split; [reflexivity|].
      intros x y c Hin Hc. unfold pixel_val. cbn [pb_size pb_data bs_nc b]. exact (V x y c Hin Hc).
    + destruct (crop_case (A:=f16) p EF f32_zero DF16 src nc dw cw dst) as (r & E & L & V); auto; try reflexivity.
      { intros ? ? HE; injection HE; auto. } { intros j Hj. apply V0. lia. }
      rewrite E. cbn [bind]. exists (PB b (DF16 r)). split; [reflexivity|].
      split; [unfold wf_block, b; cbn [pb_size pb_data bs_w bs_h bs_nc db_len]; lia|].
      split; [unfold placed, b; cbn [pb_size bs_w bs_h]; lia|]. split; [reflexivity|]. split; [reflexivity|].
      intros x y c Hin Hc. unfold pixel_val. cbn [pb_size pb_data bs_nc b]. exact (V x y c Hin Hc).
Qed.

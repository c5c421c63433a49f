(** Proofs about merging. *)
From Coq Require Import Floats.SpecFloat.
From Verif Require Import Machine Loops FloatModel BBoxModel BBoxSpec PixelModel PixelSpec
  PixelProofs PixelProofs2 MergeModel MergeSpec.

Lemma mul_bound : forall x nc W, - W <= x <= W -> 0 <= nc <= 4 -> - (W * 4) <= x * nc <= W * 4.
Proof. intros. nia. Qed.

Lemma mul_bound2 : forall y w nc H W,
  - H <= y <= H -> 0 <= w <= W -> 0 <= nc <= 4 -> 0 <= H ->
  - (W * H * 4) <= y * (w * nc) <= W * H * 4.
Proof.
  intros y w nc H W Hy Hw Hn HH.
  assert (0 <= w * nc <= W * 4) by nia. nia.
Qed.

Section Read.
Variables (p : profile) (im : image) (u : bbox).
Let W := max_x u - min_x u.
Let H := max_y u - min_y u.
Hypothesis FI : float_image im.
Hypothesis IN : window_in (im_data im) u.
Hypothesis FIT : W < two31 /\ H < two31 /\ W * (H + 1) * 4 < two31.

Lemma get_pixel_ok : forall x y, in_box u x y ->
  get_pixel_rgba p im x y =
  Ok (channel_at im x y 0, channel_at im x y 1, channel_at im x y 2, channel_at im x y 3).
Proof.
  intros x y HU. destruct FI as (WF & PL & TY & NC). destruct IN as (I1 & I2 & I3 & I4).
  destruct FIT as (F1 & F2 & F3). subst W H.
  unfold get_pixel_rgba. unfold channel_at, pixel_val.
  destruct (im_block im) as [[w h nc] d] eqn:EB. cbn [pb_size pb_data bs_nc] in *.
  unfold wf_block, placed in *. cbn [pb_size pb_data bs_w bs_h bs_nc] in *.
  destruct d as [l| | |]; try discriminate. cbn [slice_f32 bind elems db_len] in *.
  destruct HU as ((U1 & U2) & (U3 & U4)). destruct WF as (Hw & Hh & Hn & HL). destruct PL as (P1 & P2).
  set (D := im_data im) in *.
  assert (A0 : 0 < max_x u - min_x u) by lia.
  assert (A1 : 0 < max_y u - min_y u) by lia.
  set (UW := max_x u - min_x u) in *. set (UH := max_y u - min_y u) in *.
  assert (B0 : UW * (UH + 1) = UW * UH + UW) by ring.
  assert (BP : 0 < UW * UH) by (apply Z.mul_pos_pos; lia).
  rewrite i32c by lia. cbn [bind]. rewrite i32c by lia. cbn [bind].
  set (ix := x - min_x D). set (iy := y - min_y D).
  assert (Bx : - UW <= ix <= UW) by (subst ix; lia).
  assert (By : - UH <= iy <= UH) by (subst iy; lia).
  assert (Hnc : 0 <= nc <= 4) by lia.
  pose proof (mul_bound ix nc UW Bx Hnc) as M1.
  pose proof (mul_bound2 iy w nc UH UW By ltac:(lia) Hnc ltac:(lia)) as M2.
  pose proof (mul_bound2 h w nc UH UW ltac:(lia) ltac:(lia) Hnc ltac:(lia)) as M3.
  pose proof (mul_bound w nc UW ltac:(lia) Hnc) as M4.
  unfold two31 in *.
  rewrite get_index_spec; cbn [bs_w bs_h bs_nc];
    [ | unfold block_ok; cbn [bs_w bs_h bs_nc]; unfold two31; lia
      | unfold in_i32, two31; lia | unfold in_i32, two31; lia | unfold in_i32, two31; lia ].
  cbn [bind].
  replace (in_boxb D x y) with ((0 <=? ix) && (ix <? w) && (0 <=? iy) && (iy <? h))
    by (unfold in_boxb; subst ix iy; lia).
  destruct ((0 <=? ix) && (ix <? w) && (0 <=? iy) && (iy <? h)) eqn:E.
  2:{ cbn [andb]. reflexivity. }
  assert (IB : in_box D x y) by (unfold in_box; subst ix iy; lia).
  assert (PC : forall c, 0 <= c < nc -> exists f,
    at_z l ((iy * w + ix) * nc + c) = Some f /\ at_z (map EF l) (offset D nc x y c) = Some (EF f)).
  { intros c Hc. pose proof (offset_bounds D nc x y c IB Hc) as OB.
    assert (EO : offset D nc x y c = (iy * w + ix) * nc + c).
    { unfold offset. subst ix iy. rewrite P1. reflexivity. }
    rewrite EO in OB.
    destruct (at_z_some (A:=f32) l ((iy * w + ix) * nc + c)) as (f & Ef).
    { rewrite HL. rewrite <- P1, <- P2 in OB. exact OB. }
    exists f. split; [exact Ef|]. rewrite EO. rewrite (at_z_map (A:=f32)), Ef. reflexivity. }
  assert (NN : 0 <= (iy * w + ix) * nc).
  { apply Z.mul_nonneg_nonneg; [|lia]. assert (0 <= iy * w) by (apply Z.mul_nonneg_nonneg; lia). lia. }
  replace ((iy * w + ix) * nc >=? 0) with true by lia.
  destruct (PC 0 ltac:(lia)) as (f0 & E0 & G0). destruct (PC 1 ltac:(lia)) as (f1 & E1 & G1).
  destruct (PC 2 ltac:(lia)) as (f2 & E2 & G2).
  rewrite (idx_ok _ _ _ E0). cbn [bind]. rewrite (idx_ok _ _ _ E1). cbn [bind].
  rewrite (idx_ok _ _ _ E2). cbn [bind].
  replace (0 <? nc) with true by lia. replace (1 <? nc) with true by lia.
  replace (2 <? nc) with true by lia. cbn [andb]. rewrite G0, G1, G2.
  destruct NC as [NC|NC]; rewrite NC in *.
  - reflexivity.
  - destruct (PC 3 ltac:(lia)) as (f3 & E3 & G3).
    cbn [Z.eqb Pos.eqb Z.ltb Z.compare Pos.compare Pos.compare_cont].
    rewrite (idx_ok _ _ _ E3). cbn [bind]. rewrite G3. reflexivity.
Qed.
End Read.

Lemma merge_pixel_ok : forall mode mix a0 a1 a2 a3 b0 b1 b2 b3,
  known_mode mode ->
  merge_pixel mode mix (a0, a1, a2, a3) (b0, b1, b2, b3) =
  Ok (formula mode mix a3 a0 b0, formula mode mix a3 a1 b1,
      formula mode mix a3 a2 b2, formula mode mix a3 a3 b3).
Proof. intros. destruct H as [->|[->| ->]]; reflexivity. Qed.

Definition pick {A} (v : A * A * A * A) (c : Z) : A :=
  let '(r, g, b, a) := v in
  if c =? 0 then r else if c =? 1 then g else if c =? 2 then b else a.

Lemma put_pixel_ok : forall out i nc v,
  nc = 3 \/ nc = 4 -> 0 <= i -> i + nc <= zlen out ->
  exists r, put_pixel out i nc v = Ok r /\ zlen r = zlen out /\
    (forall c, 0 <= c < nc -> at_z r (i + c) = Some (pick v c)) /\
    (forall j, j < i \/ i + nc <= j -> at_z r j = at_z out j).
Proof.
  intros out i nc [[[r g] b] a] Hnc Hi HL. unfold put_pixel.
  destruct (set_idx_ok out (i + 0) r ltac:(lia)) as (o1 & E1 & L1 & R1). rewrite E1. cbn [bind].
  destruct (set_idx_ok o1 (i + 1) g ltac:(lia)) as (o2 & E2 & L2 & R2). rewrite E2. cbn [bind].
  destruct (set_idx_ok o2 (i + 2) b ltac:(lia)) as (o3 & E3 & L3 & R3). rewrite E3. cbn [bind].
  destruct Hnc as [->| ->]; cbn [Z.eqb Pos.eqb].
  - exists o3. split; [reflexivity|]. split; [lia|]. split.
    + intros c Hc. assert (C : c = 0 \/ c = 1 \/ c = 2) by lia.
      destruct C as [->|[->| ->]]; rewrite R3, R2, R1; unfold pick;
        repeat match goal with |- context [?x =? ?y] =>
          first [ replace (x =? y) with true by lia | replace (x =? y) with false by lia ] end; reflexivity.
    + intros j Hj. rewrite R3, R2, R1.
      replace (j =? i + 2) with false by lia. replace (j =? i + 1) with false by lia.
      replace (j =? i + 0) with false by lia. reflexivity.
  - destruct (set_idx_ok o3 (i + 3) a ltac:(lia)) as (o4 & E4 & L4 & R4).
    exists o4. split; [exact E4|]. split; [lia|]. split.
    + intros c Hc. assert (C : c = 0 \/ c = 1 \/ c = 2 \/ c = 3) by lia.
      destruct C as [->|[->|[->| ->]]]; rewrite R4, R3, R2, R1; unfold pick;
        repeat match goal with |- context [?x =? ?y] =>
          first [ replace (x =? y) with true by lia | replace (x =? y) with false by lia ] end; reflexivity.
    + intros j Hj. rewrite R4, R3, R2, R1. replace (j =? i + 3) with false by lia.
      replace (j =? i + 2) with false by lia. replace (j =? i + 1) with false by lia.
      replace (j =? i + 0) with false by lia. reflexivity.
Qed.

Lemma offset_mono : forall w nc x y c x' y' c',
  in_box w x y -> in_box w x' y' -> 0 <= c < nc -> 0 <= c' < nc ->
  (y < y' \/ (y = y' /\ x < x')) ->
  offset w nc x y c < offset w nc x' y' 0.
Proof.
  intros w nc x y c x' y' c' ((A1 & A2) & A3 & A4) ((B1 & B2) & B3 & B4) Hc Hc' HO.
  unfold offset. set (W := max_x w - min_x w) in *.
  set (yy := y - min_y w). set (xx := x - min_x w). set (yy' := y' - min_y w). set (xx' := x' - min_x w).
  assert (Hp : yy * W + xx + 1 <= yy' * W + xx').
  { assert (yy < yy' \/ (yy = yy' /\ xx < xx')) as [L|[-> L]] by (subst yy xx yy' xx'; lia); [|lia].
    assert (0 <= xx < W) by (subst xx W; lia). assert (0 <= xx') by (subst xx'; lia). nia. }
  nia.
Qed.

Section Loop.
Variables (p : profile) (mode : merge_mode) (ima imb : image) (mix : f32) (w : bbox) (nc : Z).
Let W := max_x w - min_x w.
Let H := max_y w - min_y w.
Hypothesis FA : float_image ima.
Hypothesis FB : float_image imb.
Hypothesis INA : window_in (im_data ima) w.
Hypothesis INB : window_in (im_data imb) w.
Hypothesis FIT : W < two31 /\ H < two31 /\ W * (H + 1) * 4 < two31.
Hypothesis WFW : well_formed w.
Hypothesis KM : known_mode mode.
Hypothesis NC : nc = 3 \/ nc = 4.

Definition want (x y c : Z) : f32 :=
  formula mode mix (channel_at ima x y 3) (channel_at ima x y c) (channel_at imb x y c).

Definition inv (row col : Z) (st : list f32 * Z) : Prop :=
  zlen (fst st) = W * H * nc /\
  snd st = ((row - min_y w) * W + (col - min_x w)) * nc /\
  forall x y c, in_box w x y -> 0 <= c < nc -> (y < row \/ (y = row /\ x < col)) ->
    at_z (fst st) (offset w nc x y c) = Some (want x y c).

Lemma step_ok : forall row col st,
  in_box w col row -> inv row col st ->
  exists st', merge_step p mode ima imb mix nc row col st = Ok st' /\ inv row (col + 1) st'.
Proof.
  intros row col [out i] IB (L & I & R). cbn [fst snd] in *. unfold merge_step.
  rewrite (get_pixel_ok p ima w FA INA FIT col row IB). cbn [bind].
  rewrite (get_pixel_ok p imb w FB INB FIT col row IB). cbn [bind].
  rewrite merge_pixel_ok by exact KM. cbn [bind].
  assert (EO : i = offset w nc col row 0) by (rewrite I; unfold offset, W; ring).
  pose proof (offset_bounds w nc col row 0 IB ltac:(lia)) as O0.
  pose proof (offset_bounds w nc col row (nc - 1) IB ltac:(lia)) as O1.
  assert (EO1 : offset w nc col row (nc - 1) = i + (nc - 1)) by (rewrite EO; unfold offset; lia).
  assert (HLW : zlen out = (max_x w - min_x w) * (max_y w - min_y w) * nc) by (rewrite L; reflexivity).
  destruct (put_pixel_ok out i nc
    (formula mode mix (channel_at ima col row 3) (channel_at ima col row 0) (channel_at imb col row 0),
     formula mode mix (channel_at ima col row 3) (channel_at ima col row 1) (channel_at imb col row 1),
     formula mode mix (channel_at ima col row 3) (channel_at ima col row 2) (channel_at imb col row 2),
     formula mode mix (channel_at ima col row 3) (channel_at ima col row 3) (channel_at imb col row 3)))
    as (r & Er & Lr & Pr & Qr); [exact NC | lia | rewrite HLW; lia |].
  rewrite Er. cbn [bind].
  assert (FB1 : i + nc < two31 * 4).
  { destruct FIT as (F1 & F2 & F3). subst W H.
    assert (i + nc <= (max_x w - min_x w) * (max_y w - min_y w) * nc) by lia.
    destruct IB as ((? & ?) & ? & ?).
    assert ((max_x w - min_x w) * (max_y w - min_y w) <= (max_x w - min_x w) * (max_y w - min_y w + 1)) by nia.
    assert (0 <= (max_x w - min_x w) * (max_y w - min_y w)) by nia.
    nia. }
  unfold add_u64, u64_of, in_u64. replace ((0 <=? i + nc) && (i + nc <? two64)) with true
    by (unfold two31, two64 in *; lia). cbn [bind].
  eexists. split; [reflexivity|]. unfold inv. cbn [fst snd]. split; [lia|]. split; [rewrite I; ring|].
  intros x y c Hxy Hc HO.
  destruct (Z.eq_dec x col) as [EX|NX]; [destruct (Z.eq_dec y row) as [EY|NY]|].
  - subst x y. replace (offset w nc col row c) with (i + c) by (rewrite EO; unfold offset; ring).
    rewrite Pr by exact Hc. unfold pick, want.
    assert (C : c = 0 \/ c = 1 \/ c = 2 \/ c = 3) by lia.
    destruct C as [->|[->|[->| ->]]]; reflexivity.
  - pose proof (offset_mono w nc x y c col row 0 Hxy IB Hc ltac:(lia) ltac:(lia)) as OM.
    rewrite Qr by lia. apply R; [exact Hxy | exact Hc | lia].
  - pose proof (offset_mono w nc x y c col row 0 Hxy IB Hc ltac:(lia) ltac:(lia)) as OM.
    rewrite Qr by lia. apply R; [exact Hxy | exact Hc | lia].
Qed.

Lemma row_ok : forall row st,
  min_y w <= row < max_y w -> inv row (min_x w) st ->
  exists st', for_range (min_x w) (max_x w) (fun col => merge_step p mode ima imb mix nc row col) st
    = Ok st' /\ inv (row + 1) (min_x w) st'.
Proof.
  intros row st HR H0. destruct WFW as (W1 & W2).
  destruct (for_range_inv (inv row) (fun col => merge_step p mode ima imb mix nc row col)
    (min_x w) (max_x w) st W1 H0) as (st' & E & L & I & R).
  - intros col s Hc HI. apply step_ok; [split; lia | exact HI].
  - exists st'. split; [exact E|]. unfold inv. split; [exact L|]. split.
    + rewrite I. unfold W. ring.
    + intros x y c Hxy Hc HO. apply R; [exact Hxy | exact Hc |].
      destruct Hxy as ((? & ?) & ? & ?). lia.
Qed.

Lemma rows_ok : forall out,
  zlen out = W * H * nc ->
  exists st', for_range (min_y w) (max_y w)
      (fun row => for_range (min_x w) (max_x w)
         (fun col => merge_step p mode ima imb mix nc row col)) (out, 0) = Ok st' /\
    zlen (fst st') = W * H * nc /\
    forall x y c, in_box w x y -> 0 <= c < nc ->
      at_z (fst st') (offset w nc x y c) = Some (want x y c).
Proof.
  intros out HL. destruct WFW as (W1 & W2).
  destruct (for_range_inv (fun row st => inv row (min_x w) st)
    (fun row => for_range (min_x w) (max_x w) (fun col => merge_step p mode ima imb mix nc row col))
    (min_y w) (max_y w) (out, 0) W2) as (st' & E & L & I & R).
  - unfold inv. cbn [fst snd]. split; [exact HL|]. split; [lia|].
    intros x y c ((? & ?) & ? & ?) Hc HO. lia.
  - intros row s HR HI. apply row_ok; assumption.
  - exists st'. split; [exact E|]. split; [exact L|].
    intros x y c Hxy Hc. apply R; [exact Hxy | exact Hc |]. destruct Hxy as ((? & ?) & ? & ?). lia.
Qed.
End Loop.

Lemma vec_resize_len : forall {A} (l : list A) n a, zlen (vec_resize l n a) = Z.of_nat n.
Proof.
  intros. unfold vec_resize, zlen. rewrite app_length, firstn_length, repeat_length. lia.
Qed.

(** The union window is the least one. *)
Lemma combine_least : forall a b, least_window a b (combine a b).
Proof.
  intros a b. unfold least_window, window_in, combine. cbn [min_x min_y max_x max_y].
  repeat split; try lia; intros; lia.
Qed.

Lemma merge_exact : forall p mode ima imb mix out,
  known_mode mode -> float_image ima -> float_image imb ->
  well_formed (im_data ima) -> well_formed (im_data imb) ->
  merge_fits (im_data ima) (im_data imb) ->
  exists r, merge p mode ima imb mix out = Ok (Some r) /\ merged mode mix ima imb r.
Proof.
  intros p mode ima imb mix out KM FA FB WA WB FIT.
  assert (EM : merge p mode ima imb mix out =
    (if negb (datatype_eqb (db_type (pb_data (im_block ima))) Float32) then Panic else
    if negb (datatype_eqb (db_type (pb_data (im_block imb))) Float32) then Panic else
    let w := combine (im_data ima) (im_data imb) in
    let* ww := width_i32 p w in
    let* wh := height_i32 p w in
    let* blk := pb_resize p (im_block out) (BS ww wh (bs_nc (pb_size (im_block imb)))) Float32 in
    let stride := i32_as_usize (bs_nc (pb_size blk)) in
    let* pixels := slice_f32 (pb_data blk) in
    let* st := for_range (min_y w) (max_y w)
      (fun row => for_range (min_x w) (max_x w)
         (fun col => merge_step p mode ima imb mix stride row col)) (pixels, 0) in
    Ok (Some (Image (PB (pb_size blk) (DF32 (fst st))) (im_display imb) w)))).
  { destruct KM as [->|[->| ->]]; reflexivity. }
  rewrite EM. clear EM.
  pose proof FA as (_ & _ & TA & _). pose proof FB as (WFB & PLB & TB & NCB).
  rewrite TA, TB. cbn [datatype_eqb negb]. cbv zeta.
  set (w := combine (im_data ima) (im_data imb)).
  set (nc := bs_nc (pb_size (im_block imb))) in *.
  destruct WA as (A1 & A2). destruct WB as (B1 & B2).
  destruct FIT as (F1 & F2 & F3). 
  assert (EW : max_x w - min_x w = Z.max (max_x (im_data ima)) (max_x (im_data imb)) - Z.min (min_x (im_data ima)) (min_x (im_data imb))) by reflexivity.
  assert (EH : max_y w - min_y w = Z.max (max_y (im_data ima)) (max_y (im_data imb)) - Z.min (min_y (im_data ima)) (min_y (im_data imb))) by reflexivity.
  rewrite <- EW, <- EH in F3. rewrite <- EW in F1. rewrite <- EH in F2.
  assert (WFW : well_formed w) by (unfold well_formed; lia).
  assert (INA : window_in (im_data ima) w) by (unfold window_in, w, combine; cbn [min_x min_y max_x max_y]; lia).
  assert (INB : window_in (im_data imb) w) by (unfold window_in, w, combine; cbn [min_x min_y max_x max_y]; lia).
  assert (EWC : w = combine (im_data ima) (im_data imb)) by reflexivity.
  clearbody w. clear EW EH.
  set (W := max_x w - min_x w) in *. set (H := max_y w - min_y w) in *.
  destruct WFW as (W1 & W2). assert (0 <= W) by (subst W; lia). assert (0 <= H) by (subst H; lia).
  unfold two31 in *.
  assert (BH : 0 <= W * H) by (apply Z.mul_nonneg_nonneg; lia).
  assert (BE : W * (H + 1) = W * H + W) by ring.
  unfold width_i32, height_i32. fold W H.
  rewrite i32c by (unfold two31; lia). cbn [bind]. rewrite i32c by (unfold two31; lia). cbn [bind].
  assert (HSZ : bs_size p (BS W H nc) = Ok (W * H * nc)).
  { unfold bs_size. cbn [bs_w bs_h bs_nc]. rewrite i32c by (unfold two31; lia). cbn [bind].
    assert (0 <= W * H * nc <= W * H * 4) by nia.
    rewrite i32c by (unfold two31; lia). cbn [bind]. rewrite i32_as_usize_ok by (unfold two31; lia). reflexivity. }
  assert (SZB : 0 <= W * H * nc < 2 ^ 31) by nia.
  unfold pb_resize. rewrite HSZ. cbn [bind].
  assert (EDR : exists l, db_resize (pb_data (im_block out)) (W * H * nc) Float32 = Ok (DF32 l) /\ zlen l = W * H * nc).
  { unfold db_resize. replace (W * H * nc >=? 2 ^ 63) with false by lia.
    destruct (pb_data (im_block out)) as [l|l|l|l]; eexists; (split; [reflexivity|]);
      first [ rewrite vec_resize_len; lia | rewrite zlen_repeat; lia ]. }
  destruct EDR as (l & EL & LL). rewrite EL. cbn [bind pb_size pb_data slice_f32 bs_nc].
  rewrite i32_as_usize_ok by (unfold two31; lia).
  destruct (rows_ok p mode ima imb mix w nc FA FB INA INB) with (out := l) as (st & ES & LS & RS);
    [ unfold two31; lia | split; assumption | exact KM | exact NCB | exact LL |].
  rewrite ES. cbn [bind]. eexists. split; [reflexivity|]. unfold merged.
  cbn [im_data im_display im_block pb_size bs_nc pb_data].
  split; [rewrite EWC; apply combine_least|]. split; [reflexivity|]. split.
  { unfold float_image. cbn [im_data im_block pb_size bs_nc pb_data db_type].
    split; [|split; [|split; [reflexivity|exact NCB]]].
    - unfold wf_block. cbn [pb_size pb_data bs_w bs_h bs_nc db_len]. lia.
    - unfold placed. cbn [pb_size bs_w bs_h]. split; reflexivity. }
  split; [reflexivity|].
  intros x y c Hxy Hc. unfold pixel_val. cbn [pb_data elems pb_size bs_nc].
  rewrite (at_z_map (A:=f32)), (RS x y c Hxy Hc). reflexivity.
Qed.

(* ------------------------------------------------------------------ *)
(** Exact float facts. *)

Lemma f32_mul_one : forall x, f32_ok x -> f32_mul x (f32_of_Z 1) = x.
Proof.
  intros x OK. change (f32_of_Z 1) with (S754_finite false 8388608 (-23)).
  unfold f32_ok in OK.
  destruct x as [s|s| |s m e]; try (destruct s; reflexivity); [reflexivity|].
  unfold f32_mul, SFmul. rewrite xorb_false_r.
  cbn [valid_binary] in OK. unfold bounded in OK. apply andb_prop in OK. destruct OK as (C & B).
  unfold canonical_mantissa in C. apply Zeq_bool_eq in C.
  rewrite Pos.mul_comm. unfold binary_round_aux.
  assert (E1 : shr_fexp prec32 emax32 (Zpos (8388608 * m)) (e + -23) loc_Exact =
    ({| shr_m := Zpos m; shr_r := false; shr_s := false |}, e)).
  { unfold shr_fexp. cbn [Pos.mul Zdigits2 digits2_pos].
    replace (fexp prec32 emax32 _ - (e + -23)) with 23.
    - cbn [shr iter_pos shr_record_of_loc shr_1 shr_m shr_r shr_s orb]. f_equal. lia.
    - match goal with |- 23 = fexp _ _ ?d - _ => replace d with (Zpos (digits2_pos m) + e) by lia end.
      lia. }
  rewrite E1. cbn [shr_m loc_of_shr_record round_nearest_even].
  assert (E2 : shr_fexp prec32 emax32 (Zpos m) e loc_Exact =
    ({| shr_m := Zpos m; shr_r := false; shr_s := false |}, e)).
  { unfold shr_fexp. cbn [Zdigits2]. rewrite C. replace (e - e) with 0 by lia. reflexivity. }
  rewrite E2. cbn [shr_m]. rewrite B. reflexivity.
Qed.

Lemma same_refl : forall x, same_number x x.
Proof. intros. left. reflexivity. Qed.

Lemma add_zero_l : forall s x, x <> S754_nan -> same_number (f32_add (S754_zero s) x) x.
Proof.
  intros s [t|t| |t m e] H; unfold f32_add, SFadd.
  - right. exists (if eqb s t then s else false), t. destruct s, t; split; reflexivity.
  - left. reflexivity.
  - contradiction.
  - left. reflexivity.
Qed.

Lemma add_zero_r : forall s x, x <> S754_nan -> same_number (f32_add x (S754_zero s)) x.
Proof.
  intros s [t|t| |t m e] H; unfold f32_add, SFadd.
  - right. exists (if eqb t s then t else false), t. destruct s, t; split; reflexivity.
  - left. reflexivity.
  - contradiction.
  - left. reflexivity.
Qed.

Lemma mul_zero_r : forall s x, f32_finite x -> exists t, f32_mul x (S754_zero s) = S754_zero t.
Proof. intros s [t|t| |t m e] H; try contradiction; eexists; reflexivity. Qed.

Lemma mul_zero_l : forall s x, f32_finite x -> exists t, f32_mul (S754_zero s) x = S754_zero t.
Proof. intros s [t|t| |t m e] H; try contradiction; eexists; reflexivity. Qed.

Lemma channel_outside : forall im x y c, ~ in_box (im_data im) x y -> channel_at im x y c = S754_zero false.
Proof.
  intros im x y c H. unfold channel_at.
  replace (in_boxb (im_data im) x y) with false; [reflexivity|].
  symmetry. unfold in_boxb, in_box in *. apply not_true_is_false. intros E. apply H. lia.
Qed.

(** Porter-Duff consequences of the formula. *)
Lemma over_outside : forall va vb,
  va = S754_zero false -> f32_ok vb -> vb <> S754_nan ->
  same_number (formula MOver (f32_of_Z 1) (S754_zero false) va vb) vb.
Proof.
  intros va vb -> OK NN. unfold formula.
  change (f32_mul (f32_sub (f32_of_Z 1) (S754_zero false)) (f32_of_Z 1)) with (f32_of_Z 1).
  rewrite f32_mul_one by exact OK. apply add_zero_l. exact NN.
Qed.

Lemma over_opaque : forall mix va vb,
  f32_finite mix -> f32_finite vb -> va <> S754_nan ->
  same_number (formula MOver mix (f32_of_Z 1) va vb) va.
Proof.
  intros mix va vb FM FV NN. unfold formula.
  change (f32_sub (f32_of_Z 1) (f32_of_Z 1)) with (S754_zero false).
  destruct (mul_zero_l false mix FM) as (t & ->). destruct (mul_zero_r t vb FV) as (u & ->).
  apply add_zero_r. exact NN.
Qed.

Lemma add_outside_b : forall mix aa va s,
  f32_finite mix -> va <> S754_nan -> same_number (formula MAdd mix aa va (S754_zero s)) va.
Proof.
  intros mix aa va s FM NN. unfold formula. destruct (mul_zero_l s mix FM) as (t & ->).
  apply add_zero_r. exact NN.
Qed.

Lemma over_outside_b : forall mix aa va s,
  f32_finite mix -> f32_finite (f32_mul (f32_sub (f32_of_Z 1) aa) mix) ->
  va <> S754_nan -> same_number (formula MOver mix aa va (S754_zero s)) va.
Proof.
  intros mix aa va s FM FF NN. unfold formula. destruct (mul_zero_l s _ FF) as (t & ->).
  apply add_zero_r. exact NN.
Qed.

Lemma multiply_outside_a : forall mix aa vb s,
  f32_finite (f32_mul vb mix) -> exists t, formula MMultiply mix aa (S754_zero s) vb = S754_zero t.
Proof. intros. apply mul_zero_l. assumption. Qed.

Lemma multiply_outside_b : forall mix aa va s,
  f32_finite mix -> f32_finite va -> exists t, formula MMultiply mix aa va (S754_zero s) = S754_zero t.
Proof.
  intros. unfold formula. destruct (mul_zero_l s mix H) as (t & ->). apply mul_zero_r. assumption.
Qed.

Lemma merge_uninit : forall p ima imb mix out, merge p MUninitialized ima imb mix out = Ok None.
Proof. reflexivity. Qed.

Lemma merge_wrong_type : forall p mode ima imb mix out,
  mode <> MUninitialized ->
  db_type (pb_data (im_block ima)) <> Float32 \/ db_type (pb_data (im_block imb)) <> Float32 ->
  merge p mode ima imb mix out = Panic.
Proof.
  intros p mode ima imb mix out NM [H|H].
  - destruct mode; try contradiction; unfold merge;
      destruct (db_type (pb_data (im_block ima))); try contradiction; reflexivity.
  - destruct mode; try contradiction; unfold merge;
      destruct (db_type (pb_data (im_block ima))); try reflexivity; cbn [datatype_eqb negb];
      destruct (db_type (pb_data (im_block imb))); try contradiction; reflexivity.
Qed.

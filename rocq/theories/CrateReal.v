(** How far a written sample is from the sRGB curve. *)
From Coq Require Import Reals Lra Floats.SpecFloat Psatz.
From Flocq Require Import Core.Core IEEE754.BinarySingleNaN.
From Verif Require Import Machine Loops FloatModel FloatReal GeomReal RemapReal LineReal AttrModel MergeSpec BakeSpec BakeProofs UndoReal LineProofs UndoPower BBoxModel PixelModel PixelSpec MergeModel StreamModel NodeModel CrateModel CrateSpec CrateProofs.
Local Open Scope R_scope.

(** A sample for the level [Y] of 0 to 255: rounded down, but for a thousandth. *)
Definition sample_of_level (t : Z) (Y : R) : Prop :=
  (0 <= t <= 255)%Z /\ IZR t <= Rmax 0 Y + / 1000 /\ Rmin 255 Y - / 1000 < IZR t + 1.

(** The library's powers of 2.4 and of 1 / 2.4 undo each other, up to a
    thousandth, from the darkest sample that needs them to white. *)
Definition powers_agree (pow : f32 -> f32 -> f32) : Prop :=
  forall a e e', plain_value a -> 93 / 1000 <= R32 a <= 1 -> about e 24 10 -> about e' 10 24 ->
    plain_value (pow a e) /\ 32 / 10000 <= R32 (pow a e) /\
    plain_value (pow (pow a e) e') /\ Rabs (R32 (pow (pow a e) e') - R32 a) <= / 1000.

Lemma trunc_bounds m e : IZR (mag_trunc m e) <= R32 (S754_finite false m e) < IZR (mag_trunc m e) + 1.
Proof.
  unfold R32, SF2R, F2R, mag_trunc. cbn [Fnum Fexp cond_Zopp]. destruct (Z.leb_spec 0 e) as [E|E].
  - rewrite Z.shiftl_mul_pow2 by exact E. rewrite mult_IZR. rewrite (IZR_Zpower radix2) by exact E. lra.
  - rewrite Z.shiftr_div_pow2 by lia. set (k := (2 ^ (- e))%Z).
    assert (K : (0 < k)%Z) by (apply Z.pow_pos_nonneg; lia).
    assert (B : bpow radix2 e = / IZR k).
    { replace e with (- (- e))%Z by lia. rewrite bpow_opp. unfold k. now rewrite (IZR_Zpower radix2) by lia. }
    rewrite B. assert (KR : 0 < IZR k) by (apply IZR_lt; exact K).
    pose proof (Z.div_mod (Z.pos m) k ltac:(lia)) as DM. pose proof (Z.mod_pos_bound (Z.pos m) k K) as MB.
    set (q := (Z.pos m / k)%Z) in *. set (r := (Z.pos m mod k)%Z) in *.
    rewrite DM, plus_IZR, mult_IZR. destruct MB as [M1 M2]. apply IZR_le in M1. apply IZR_lt in M2.
    replace ((IZR k * IZR q + IZR r) * / IZR k) with (IZR q + IZR r / IZR k) by (field; lra).
    assert (0 <= IZR r / IZR k) by (apply Rmult_le_pos; [exact M1|left; now apply Rinv_0_lt_compat]).
    assert (IZR r / IZR k < 1) by (apply (Rmult_lt_reg_r (IZR k)); [exact KR|]; unfold Rdiv; rewrite Rmult_assoc, Rinv_l by lra; lra).
    lra.
Qed.

Lemma as_u8_real v : fin32 v -> let t := f32_as_u8 v in
  (0 <= t <= 255)%Z /\ IZR t <= Rmax 0 (R32 v) /\ Rmin 255 (R32 v) < IZR t + 1.
Proof.
  intros F t. subst t. unfold f32_as_u8. destruct v as [s|s| |s m e]; try discriminate.
  - cbn [f_as_int]. replace (R32 (S754_zero s)) with 0 by reflexivity.
    split; [lia|]. split; [apply Rmax_l|]. eapply Rle_lt_trans; [apply Rmin_r|]. lra.
  - cbn [f_as_int]. pose proof (trunc_bounds m e) as [T1 T2].
    assert (P : (0 <= mag_trunc m e)%Z).
    { unfold mag_trunc. destruct (0 <=? e)%Z; [apply Z.shiftl_nonneg|apply Z.shiftr_nonneg]; lia. }
    destruct s; cbn [cond_Zopp].
    + rewrite Z.max_l by lia. split; [lia|]. split; [apply Rmax_l|]. eapply Rle_lt_trans; [apply Rmin_r|].
      replace (R32 (S754_finite true m e)) with (- R32 (S754_finite false m e)).
      * apply IZR_le in P. lra.
      * unfold R32, SF2R, F2R. cbn [Fnum Fexp cond_Zopp]. change (Z.neg m) with (- Z.pos m)%Z. rewrite opp_IZR. ring.
    + rewrite Z.max_r by lia. split; [lia|]. destruct (Z.min_spec 255 (mag_trunc m e)) as [[A ->]|[A ->]].
      * split; [|eapply Rle_lt_trans; [apply Rmin_l|]; lra]. eapply Rle_trans; [|apply Rmax_r]. apply IZR_lt in A. lra.
      * split; [eapply Rle_trans; [exact T1|apply Rmax_r]|]. eapply Rle_lt_trans; [apply Rmin_r|]. exact T2.
Qed.

Lemma sample_close v Y : fin32 v -> Rabs (R32 v - Y) <= / 1000 -> sample_of_level (f32_as_u8 v) Y.
Proof.
  intros F D. destruct (as_u8_real v F) as (T & A & B). split; [exact T|]. apply Rabs_le_inv in D. split.
  - eapply Rle_trans; [exact A|]. unfold Rmax. destruct (Rle_dec 0 (R32 v)), (Rle_dec 0 Y); lra.
  - eapply Rle_lt_trans; [|exact B]. unfold Rmin. destruct (Rle_dec 255 (R32 v)), (Rle_dec 255 Y); lra.
Qed.

Lemma lit_reals :
  (valid32 lit_1292 /\ fin32 lit_1292 /\ Rabs (R32 lit_1292 - 1292 / 100) <= / 1000000) /\
  (valid32 lit_055 /\ fin32 lit_055 /\ Rabs (R32 lit_055 - 55 / 1000) <= / 100000000) /\
  (let o := f32_add f32_one lit_055 in valid32 o /\ fin32 o /\ Rabs (R32 o - 1055 / 1000) <= / 5000000) /\
  (let d := f32_of_Z 255 in valid32 d /\ fin32 d /\ R32 d = 255).
Proof.
  split; [|split; [|split]]; cbv zeta.
  - split; [vm_compute; reflexivity|]. split; [vm_compute; reflexivity|].
    change lit_1292 with (S754_finite false 13547602 (-20)). unfold R32, SF2R, F2R. cbn [Fnum Fexp cond_Zopp].
    change (bpow radix2 (-20)) with (/ 1048576). apply Rabs_le. lra.
  - split; [vm_compute; reflexivity|]. split; [vm_compute; reflexivity|].
    change lit_055 with (S754_finite false 14763950 (-28)). unfold R32, SF2R, F2R. cbn [Fnum Fexp cond_Zopp].
    change (bpow radix2 (-28)) with (/ 268435456). apply Rabs_le. lra.
  - split; [vm_compute; reflexivity|]. split; [vm_compute; reflexivity|].
    set (o := f32_add f32_one lit_055). vm_compute in o. subst o. unfold R32, SF2R, F2R. cbn [Fnum Fexp cond_Zopp].
    change (bpow radix2 (-23)) with (/ 8388608). apply Rabs_le. lra.
  - destruct (small_real 255) as (V & F & E); [lia|]. repeat split; assumption.
Qed.

(** The two halves of the curve. *)
Lemma dark_level pow x : valid32 x -> fin32 x -> 0 <= R32 x <= 1 -> f32_le x lit_0031308 = true ->
  sample_of_level (byte_of pow x) (255 * (1292 / 100 * R32 x)).
Proof.
  intros V F X L. unfold byte_of, linear_to_srgb. rewrite L.
  destruct lit_reals as ((V1 & F1 & D1) & _ & _ & (V5 & F5 & E5)).
  assert (S1 : stands x (R32 x) 0 1 0 1) by (repeat split; try assumption; [rewrite Rminus_diag_eq by reflexivity; rewrite Rabs_R0; lra|rewrite Rabs_pos_eq; lra|lra]).
  apply Rabs_le_inv in D1.
  assert (S2 : stands lit_1292 (R32 lit_1292) 0 13 0 13) by (repeat split; try assumption; [rewrite Rminus_diag_eq by reflexivity; rewrite Rabs_R0; lra|rewrite Rabs_pos_eq; lra|lra]).
  assert (S5 : stands (f32_of_Z 255) 255 0 255 0 255) by (repeat split; try assumption; [rewrite E5; rewrite Rminus_diag_eq by reflexivity; rewrite Rabs_R0; lra|rewrite Rabs_pos_eq; lra|lra]).
  pose proof big90 as G. assert (Hg : 0 <= huge) by (rewrite huge_big; lra). pose proof huge_big as HB.
  pose proof (stands_mul _ _ _ _ _ _ _ _ _ _ _ _ S1 S2 ltac:(lra) ltac:(lra) ltac:(lra) ltac:(lra) ltac:(lra) ltac:(lra) ltac:(lra) ltac:(lra) ltac:(lra) ltac:(lra)) as P1.
  pose proof (stands_mul _ _ _ _ _ _ _ _ _ _ _ _ P1 S5 ltac:(lra) ltac:(lra) ltac:(lra) ltac:(lra) ltac:(lra) ltac:(lra) ltac:(lra) ltac:(lra) ltac:(lra) ltac:(lra)) as P2.
  destruct P2 as (_ & F2 & D2 & _). apply (sample_close _ _ F2).
  pose proof eps_small as EP. pose proof eta_small as (ET & ET2). rewrite HB in ET2.
  assert (Rabs (R32 x * R32 lit_1292 * 255 - 255 * (1292 / 100 * R32 x)) <= 255 * / 1000000).
  { replace (R32 x * R32 lit_1292 * 255 - 255 * (1292 / 100 * R32 x)) with (255 * R32 x * (R32 lit_1292 - 1292 / 100)) by ring.
    apply Rabs_le. split; nra. }
  eapply Rle_trans; [|]. 
  replace (R32 (f32_mul (f32_mul x lit_1292) (f32_of_Z 255)) - 255 * (1292 / 100 * R32 x))
    with ((R32 (f32_mul (f32_mul x lit_1292) (f32_of_Z 255)) - R32 x * R32 lit_1292 * 255) + (R32 x * R32 lit_1292 * 255 - 255 * (1292 / 100 * R32 x))) by ring.
  apply Rabs_triang. lra.
Qed.

Lemma bright_level pow x : let w := pow x (f32_div f32_one lit_24) in
  f32_le x lit_0031308 = false -> valid32 w -> fin32 w -> 0 <= R32 w <= 2 ->
  sample_of_level (byte_of pow x) (255 * (1055 / 1000 * R32 w - 55 / 1000)).
Proof.
  intros w L V F X. unfold byte_of, linear_to_srgb. rewrite L. fold w.
  destruct lit_reals as (_ & (V1 & F1 & D1) & (V2 & F2 & D2) & (V5 & F5 & E5)). cbv zeta in *.
  apply Rabs_le_inv in D1. apply Rabs_le_inv in D2.
  assert (Sw : stands w (R32 w) 0 2 0 2) by (repeat split; try assumption; [rewrite Rminus_diag_eq by reflexivity; rewrite Rabs_R0; lra|rewrite Rabs_pos_eq; lra|lra]).
  set (o := f32_add f32_one lit_055) in *.
  assert (So : stands o (R32 o) 0 2 0 2) by (repeat split; try assumption; [rewrite Rminus_diag_eq by reflexivity; rewrite Rabs_R0; lra|rewrite Rabs_pos_eq; lra|lra]).
  assert (Sl : stands lit_055 (R32 lit_055) 0 1 0 1) by (repeat split; try assumption; [rewrite Rminus_diag_eq by reflexivity; rewrite Rabs_R0; lra|rewrite Rabs_pos_eq; lra|lra]).
  assert (S5 : stands (f32_of_Z 255) 255 0 255 0 255) by (repeat split; try assumption; [rewrite E5; rewrite Rminus_diag_eq by reflexivity; rewrite Rabs_R0; lra|rewrite Rabs_pos_eq; lra|lra]).
  pose proof big90 as G. pose proof big98 as G98. assert (Hg : 0 <= huge) by (rewrite huge_big; lra). pose proof huge_big as HB.
  pose proof (stands_mul _ _ _ _ _ _ _ _ _ _ _ _ So Sw ltac:(lra) ltac:(lra) ltac:(lra) ltac:(lra) ltac:(lra) ltac:(lra) ltac:(lra) ltac:(lra) ltac:(lra) ltac:(lra)) as P1.
  pose proof (stands_sub _ _ _ _ _ _ _ _ _ _ _ _ P1 Sl ltac:(lra) ltac:(lra) ltac:(lra) ltac:(lra) 2 ltac:(lra) ltac:(lra) ltac:(lra) ltac:(lra)) as P2.
  pose proof (stands_mul _ _ _ _ _ _ _ _ _ _ _ _ P2 S5 ltac:(lra) ltac:(lra) ltac:(lra) ltac:(lra) ltac:(lra) ltac:(lra) ltac:(lra) ltac:(lra) ltac:(lra) ltac:(lra)) as P3.
  destruct P3 as (_ & F3 & D3 & _). apply (sample_close _ _ F3).
  pose proof eps_small as EP. pose proof eta_small as (ET & ET2). rewrite HB in ET2. unfold eps32 in D3.
  set (U := (R32 o * R32 w - R32 lit_055) * 255) in *. set (Y := 255 * (1055 / 1000 * R32 w - 55 / 1000)).
  assert (Rabs (U - Y) <= / 5000).
  { replace (U - Y) with (255 * ((R32 o - 1055 / 1000) * R32 w - (R32 lit_055 - 55 / 1000))) by (unfold U, Y; ring).
    apply Rabs_le. split; nra. }
  eapply Rle_trans; [|]. 
  replace (R32 (f32_mul (f32_sub (f32_mul o w) lit_055) (f32_of_Z 255)) - Y)
    with ((R32 (f32_mul (f32_sub (f32_mul o w) lit_055) (f32_of_Z 255)) - U) + (U - Y)) by ring.
  apply Rabs_triang. lra.
Qed.

(** There and back. *)
Definition base_b (s : Z) : bool :=
  let a := bright_base (scaled s) in
  valid_binary prec32 emax32 a && (93 * sf_den a <=? 1000 * sf_num a)%Z && (sf_num a <=? sf_den a)%Z && (0 <? sf_den a)%Z.
Lemma base_checked : forallb base_b (zrange 11 256) = true.
Proof. vm_compute. reflexivity. Qed.
Lemma inverse_exponent : about_b (f32_div f32_one lit_24) 10 24 = true.
Proof. vm_compute. reflexivity. Qed.
Lemma lit_dark : plain_value lit_0031308 /\ R32 lit_0031308 < 32 / 10000.
Proof.
  split; [split; vm_compute; reflexivity|].
  change lit_0031308 with (S754_finite false 13446684 (-32)). unfold R32, SF2R, F2R. cbn [Fnum Fexp cond_Zopp].
  change (bpow radix2 (-32)) with (/ 4294967296). lra.
Qed.

Lemma sample_back pow s : powers_agree pow -> (0 <= s <= 255)%Z ->
  let t := byte_of pow (srgb_to_linear pow (scaled s)) in (t = s \/ t = s - 1)%Z.
Proof.
  intros PA H. cbv zeta. destruct (Z_le_gt_dec s 10) as [D|D]; [left; apply dark; lia|].
  pose proof light_checked as L. rewrite forallb_forall in L. specialize (L s). rewrite zrange_in in L. specialize (L ltac:(lia)).
  unfold light_b in L. cbv zeta in L. replace (s <=? 10)%Z with false in L by (symmetry; apply Z.leb_gt; lia).
  apply andb_prop in L. destruct L as [L1 L2]. apply Bool.negb_true_iff in L1. apply about_of in L2.
  pose proof base_checked as B. rewrite forallb_forall in B. specialize (B s). rewrite zrange_in in B. specialize (B ltac:(lia)).
  unfold base_b in B. cbv zeta in B. unfold srgb_to_linear. rewrite L1. fold (bright_base (scaled s)).
  set (a := bright_base (scaled s)) in *. clearbody a.
  apply andb_prop in B. destruct B as [B B4]. apply andb_prop in B. destruct B as [B B3]. apply andb_prop in B. destruct B as [B1 B2].
  apply Z.leb_le in B2, B3. apply Z.ltb_lt in B4.
  destruct L2 as [FA L2]. assert (FF : fin32 a) by (destruct a; try discriminate; reflexivity).
  pose proof (num_den a FF) as RA.
  apply IZR_le in B2, B3, L2. apply IZR_lt in B4. rewrite !mult_IZR in B2. rewrite mult_IZR, abs_IZR, minus_IZR, !mult_IZR, plus_IZR, !mult_IZR in L2.
  change (IZR (2 ^ 22)) with 4194304 in L2. replace (255 * 55) with 14025 in L2 by ring. replace (255 * 1055) with 269025 in L2 by ring.
  set (n := IZR (sf_num a)) in *. set (d := IZR (sf_den a)) in *.
  assert (RN' : n = R32 a * d) by (rewrite RA; field; lra).
  assert (A1 : 93 / 1000 <= R32 a) by (apply (Rmult_le_reg_r d); [exact B4|]; lra).
  assert (A2 : R32 a <= 1) by (apply (Rmult_le_reg_r d); [exact B4|]; lra).
  assert (A3 : Rabs (R32 a * 269025 - (1000 * IZR s + 14025)) * 4194304 <= 1000 * IZR s + 14025).
  { apply (Rmult_le_reg_r d); [exact B4|]. eapply Rle_trans; [|exact L2]. right.
    rewrite RN'. replace (R32 a * d * 269025 - (1000 * IZR s + 14025) * d) with ((R32 a * 269025 - (1000 * IZR s + 14025)) * d) by ring.
    rewrite Rabs_mult, (Rabs_pos_eq d) by lra. ring. }
  assert (PV : plain_value a) by (split; [exact B1|destruct a; try discriminate; reflexivity]).
  destruct (PA a lit_24 (f32_div f32_one lit_24) PV (conj A1 A2) (about_of _ _ _ exponent) (about_of _ _ _ inverse_exponent)) as (P1 & Q1 & P2 & Q2).
  destruct lit_dark as (PL & QL).
  assert (LE : f32_le (pow a lit_24) lit_0031308 = false).
  { rewrite (le_real _ _ P1 PL). apply Rle_bool_false. lra. }
  apply Rabs_le_inv in Q2.
  assert (WF : valid32 (pow (pow a lit_24) (f32_div f32_one lit_24)) /\ fin32 (pow (pow a lit_24) (f32_div f32_one lit_24))).
  { destruct P2 as [X Y]. split; [exact X|now apply fin_iff]. }
  pose proof (bright_level pow (pow a lit_24) LE (proj1 WF) (proj2 WF) ltac:(lra)) as (T & T1 & T2).
  set (t := byte_of pow (pow a lit_24)) in *. set (w := R32 (pow (pow a lit_24) (f32_div f32_one lit_24))) in *. clearbody t w.
  assert (S0 : 11 <= IZR s <= 255) by (split; apply IZR_le; lia).
  assert (A4 : Rabs (R32 a * 269025 - (1000 * IZR s + 14025)) <= 1) by lra. apply Rabs_le_inv in A4.
  assert (Y : IZR s - 3 / 10 <= 255 * (1055 / 1000 * w - 55 / 1000) <= IZR s + 3 / 10) by lra.
  set (y := 255 * (1055 / 1000 * w - 55 / 1000)) in *. clearbody y.
  assert (U1 : IZR t < IZR (s + 1)).
  { rewrite plus_IZR. eapply Rle_lt_trans; [exact T1|]. rewrite Rmax_right by lra. lra. }
  assert (U2 : IZR (s - 2) < IZR t).
  { rewrite minus_IZR. assert (IZR s - 3 / 10 - / 1000 < IZR t + 1); [|lra]. eapply Rle_lt_trans; [|exact T2].
    unfold Rmin. destruct (Rle_dec 255 y); lra. }
  apply lt_IZR in U1, U2. lia.
Qed.

(** ** Pictures *)
Lemma alpha_curved : forall p pow, exists pb win, 
  read_with_crate p pow (Some (DynImage 1 1 Rgba8 [0; 0; 0; 5]%Z)) = Ok (Shared pb win win spec_new) /\
  exists v, pixel_val pb win 0 0 3 = Some (EF v) /\ ~ about v 5 255.
Proof.
  intros p pow. exists (PB (BS 1 1 4) (DF32 (map (fun x => srgb_to_linear pow (scaled x)) [0; 0; 0; 5]%Z))), (BBox 0 0 1 1).
  split; [destruct p; reflexivity|]. exists (srgb_to_linear pow (scaled 5)). split; [reflexivity|].
  replace (srgb_to_linear pow (scaled 5)) with (f32_mul (scaled 5) (f32_div f32_one lit_1292)) by (unfold srgb_to_linear; vm_compute; reflexivity).
  intros [_ A]. apply Z.leb_le in A. vm_compute in A. discriminate.
Qed.

Lemma written_levels : forall pow save img l, wf_block (sh_block img) ->
  let b := pb_size (sh_block img) in (bs_w b < two31)%Z -> (bs_h b < two31)%Z ->
  pb_data (sh_block img) = DF32 l ->
  exists samples, write_with_crate pow save img =
    Ok (if ((bs_nc b =? 3) || (bs_nc b =? 4))%Z then save (ImageBuffer (bs_w b) (bs_h b) (bs_nc b) samples) else false) /\
  Forall2 (fun x t =>
    (valid32 x -> fin32 x -> (0 <= R32 x <= 1)%R -> f32_le x lit_0031308 = true ->
      sample_of_level t (255 * (1292 / 100 * R32 x))) /\
    (let w := pow x (f32_div f32_one lit_24) in
     f32_le x lit_0031308 = false -> valid32 w -> fin32 w -> (0 <= R32 w <= 2)%R ->
      sample_of_level t (255 * (1055 / 1000 * R32 w - 55 / 1000)))) l samples.
Proof.
  intros pow save img l WF b BW BH E. exists (map (byte_of pow) l). split; [exact (written pow save img l WF BW BH E)|].
  clear. induction l as [|x l IH]; [constructor|]. cbn [map]. constructor; [|exact IH]. split.
  - apply dark_level.
  - apply bright_level.
Qed.

Lemma back_again : forall p pow img save, whole_picture img ->
  exists samples, (let* sh := read_with_crate p pow (Some img) in write_with_crate pow save sh) = Ok (save (ImageBuffer (di_w img) (di_h img) (channels (di_kind img)) samples)) /\
  Forall2 (fun s t => ((s <= 10)%Z -> t = s) /\ (powers_agree pow -> t = s \/ t = (s - 1)%Z)) (di_samples img) samples.
Proof.
  intros p pow img save WP. rewrite (read_exact p pow img WP). cbn [bind].
  exists (map (fun s => byte_of pow (srgb_to_linear pow (scaled s))) (di_samples img)).
  destruct WP as (K & W & H & F & L & S). split.
  - rewrite (written pow save _ (map (fun x => srgb_to_linear pow (scaled x)) (di_samples img))); cbn [sh_block pb_size pb_data bs_w bs_h bs_nc].
    + rewrite map_map. destruct (di_kind img); [reflexivity|reflexivity|congruence].
    + unfold wf_block. cbn [pb_size pb_data bs_w bs_h bs_nc]. unfold db_len. rewrite PixelProofs.zlen_map.
      assert (0 <= channels (di_kind img))%Z by (destruct (di_kind img); cbn [channels]; lia). lia.
    + lia.
    + lia.
    + reflexivity.
  - revert S. clear. induction (di_samples img) as [|s l IH]; intro S; [constructor|]. cbn [map].
    inversion S as [|? ? S1 S2]; subst. constructor; [|exact (IH S2)]. split.
    + intro D. apply dark. lia.
    + intro PA. exact (sample_back pow s PA S1).
Qed.

Lemma white_lost : forall p pow save, (forall e, pow f32_one e = f32_one) ->
  (let* sh := read_with_crate p pow (Some (DynImage 1 1 Rgb8 [255; 255; 255]%Z)) in write_with_crate pow save sh) = Ok (save (ImageBuffer 1 1 3 [254; 254; 254]%Z)).
Proof.
  intros p pow save P.
  assert (WP : whole_picture (DynImage 1 1 Rgb8 [255; 255; 255]%Z)).
  { unfold whole_picture, count_fits. cbn. unfold two31. repeat split; try lia; try discriminate. repeat constructor; lia. }
  rewrite (read_exact p pow _ WP). cbn [bind].
  rewrite (written pow save _ (map (fun x => srgb_to_linear pow (scaled x)) [255; 255; 255]%Z)); try reflexivity.
  - cbn [sh_block pb_size bs_w bs_h bs_nc map channels di_kind di_w di_h]. rewrite (white pow P). reflexivity.
  - unfold wf_block. cbn. lia.
Qed.

Lemma example_met : whole_picture (DynImage 2 1 Rgba8 [0; 1; 2; 3; 10; 11; 128; 255]%Z) /\
  powers_agree (fun a _ => a) /\
  (let* sh := read_with_crate Debug (fun a _ => a) (Some (DynImage 2 1 Rgba8 [0; 1; 2; 3; 10; 11; 128; 255]%Z)) in
   write_with_crate (fun a _ => a) (fun b => match ib_samples b with [0; 1; 2; 3; 10; 11; 128; 254]%Z => true | _ => false end) sh) = Ok true.
Proof.
  split; [|split].
  - unfold whole_picture, count_fits. cbn. unfold two31. repeat split; try lia; try discriminate. repeat constructor; lia.
  - intros a e e' P A _ _. split; [exact P|]. split; [lra|]. split; [exact P|]. rewrite Rminus_diag_eq by reflexivity. rewrite Rabs_R0. lra.
  - vm_compute. reflexivity.
Qed.

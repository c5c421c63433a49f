(** Stretching a pixel centre over the pixels of the same picture finds the pixel
    again (through the real numbers). *)
From Coq Require Import Reals Floats.SpecFloat Psatz.
From Flocq Require Import Core.Core IEEE754.BinarySingleNaN.
Require Import Flocq.Prop.Relative.
From Verif Require Import Machine FloatModel BBoxModel PixelModel PixelSpec StreamModel DeformModel FloatReal RemapSpec.

Local Instance prec32_pos' : FLX.Prec_gt_0 prec32 := eq_refl _.
Notation fexp32 := (SpecFloat.fexp prec32 emax32).

(** ** Fractions of [PixelSpec] are the real values *)
Lemma num_den x : fin32 x -> R32 x = (IZR (sf_num x) / IZR (sf_den x))%R.
Proof.
  destruct x as [s|s| |s m e]; intro F; try discriminate; unfold R32; cbn [SF2R sf_num sf_den].
  - unfold Rdiv. ring.
  - unfold F2R. cbn [Fnum Fexp].
    assert (Hm : (IZR (cond_Zopp s (Z.pos m)) = IZR (if s then -1 else 1) * IZR (Z.pos m))%R).
    { rewrite <- mult_IZR. f_equal. destruct s; cbn [cond_Zopp]; lia. }
    rewrite Hm, !mult_IZR. destruct (Z.leb_spec 0 e).
    + rewrite Z.max_l by lia. rewrite (Z.max_r (- e) 0) by lia. rewrite Z.pow_0_r.
      change 2%Z with (radix_val radix2). rewrite IZR_Zpower by lia. field.
    + rewrite Z.max_r by lia. rewrite (Z.max_l (- e) 0) by lia. rewrite Z.pow_0_r.
      change 2%Z with (radix_val radix2). rewrite IZR_Zpower by lia. rewrite bpow_opp. field. apply Rgt_not_eq, bpow_gt_0.
Qed.

Lemma den_pos x : (0 < sf_den x)%Z.
Proof. destruct x; cbn [sf_den]; lia. Qed.

Lemma abs_div a b : (0 < b)%R -> Rabs (a / b) = (Rabs a / b)%R.
Proof.
  intro H. unfold Rdiv. rewrite Rabs_mult. f_equal. apply Rabs_pos_eq. left. now apply Rinv_0_lt_compat.
Qed.

Lemma rounds_real x r : fin32 x -> rounds_to x r ->
  (Rabs (R32 x - IZR r) <= / 2)%R /\ (Rabs (R32 x - IZR r) = / 2 -> Rabs (R32 x) < Rabs (IZR r))%R.
Proof.
  intros F (B & T). rewrite (num_den x F). pose proof (IZR_lt _ _ (den_pos x)) as D.
  set (n := sf_num x) in *. set (d := sf_den x) in *.
  assert (E : (Rabs (IZR n / IZR d - IZR r) = IZR (Z.abs (n - r * d)) / IZR d)%R).
  { replace (IZR n / IZR d - IZR r)%R with (IZR (n - r * d) / IZR d)%R
      by (rewrite minus_IZR, mult_IZR; field; lra).
    rewrite abs_div by lra. now rewrite <- abs_IZR. }
  rewrite E. apply IZR_le in B. rewrite mult_IZR in B. split.
  - apply Rmult_le_reg_r with (IZR d); [lra|]. unfold Rdiv. rewrite Rmult_assoc, Rinv_l by lra. lra.
  - intro H. assert (H' : (2 * IZR (Z.abs (n - r * d)) = IZR d)%R).
    { replace (IZR (Z.abs (n - r * d))) with (IZR (Z.abs (n - r * d)) / IZR d * IZR d)%R by (field; lra). rewrite H. field. }
    rewrite <- mult_IZR in H'. apply eq_IZR in H'. specialize (T H'). apply IZR_lt in T. rewrite mult_IZR in T.
    rewrite abs_div by lra. rewrite <- !abs_IZR.
    apply Rmult_lt_reg_r with (IZR d); [lra|]. unfold Rdiv. rewrite Rmult_assoc, Rinv_l by lra. lra.
Qed.

Lemma pinned x r k : fin32 x -> rounds_to x r -> (0 <= k)%Z ->
  (0 <= R32 x)%R -> (IZR k - / 2 <= R32 x < IZR k + / 2)%R -> r = k.
Proof.
  intros F P K0 X0 (L & U). destruct (rounds_real x r F P) as (B & T). apply Rabs_le_inv in B.
  assert (r <= k)%Z.
  { apply Z.lt_succ_r. apply lt_IZR. rewrite succ_IZR. lra. }
  assert (k - 1 <= r)%Z.
  { apply le_IZR. rewrite minus_IZR. lra. }
  destruct (Z.eq_dec r k) as [|N]; [assumption|]. assert (r = k - 1)%Z by lia. subst r. exfalso.
  rewrite minus_IZR in *. assert (E : R32 x = (IZR k - / 2)%R) by lra.
  assert (1 <= k)%Z.
  { destruct (Z.eq_dec k 0) as [->|]; [|lia]. lra. }
  assert (1 <= IZR k)%R by now apply IZR_le.
  rewrite E in T. rewrite !Rabs_pos_eq in T by lra. lra.
Qed.

(** ** Rounding *)
Lemma RN_rel x : (bpow radix2 (-126) <= Rabs x)%R -> (Rabs (RN x - x) <= eps32 * Rabs x)%R.
Proof.
  intro H. pose proof (relative_error_N_FLT radix2 (-149) 24 ltac:(reflexivity) (fun z => negb (Z.even z)) x) as Q.
  unfold RN. change fexp32 with (FLT_exp (-149) 24). eapply Rle_trans; [apply Q; exact H|].
  change (- (24) + 1)%Z with (-23)%Z. change (bpow radix2 (-23)) with (/ IZR (2 ^ 23))%R.
  unfold eps32. change (2 ^ 23)%Z with 8388608%Z. apply Rmult_le_compat_r; [apply Rabs_pos|lra].
Qed.

(** Below one the error is half as large. *)
Lemma RN_below_one x : (Rabs x < 1)%R -> (Rabs (RN x - x) <= eps32 / 2)%R.
Proof.
  intro H. unfold RN. eapply Rle_trans; [apply error_le_half_ulp; apply _|].
  assert (U : (ulp radix2 fexp32 x <= bpow radix2 (-24))%R).
  { destruct (Req_dec x 0) as [->|N].
    - change fexp32 with (FLT_exp (-149) 24). rewrite (ulp_FLT_small radix2 (-149) 24); [apply bpow_le; lia|].
      rewrite Rabs_R0. apply bpow_gt_0.
    - rewrite ulp_neq_0 by exact N. apply bpow_le. unfold cexp.
      assert (M : (mag radix2 x <= 0)%Z) by (apply mag_le_bpow; [exact N|exact H]).
      change (fexp32 (mag radix2 x)) with (Z.max (mag radix2 x - 24) (-149)). lia. }
  change (bpow radix2 (-24)) with (/ IZR (2 ^ 24))%R in U. change (2 ^ 24)%Z with 16777216%Z in U.
  unfold eps32. lra.
Qed.

(** A value just below a representable one is rounded up to it. *)
Lemma RN_up g y : generic_format radix2 fexp32 g -> (bpow radix2 (-126) <= g)%R ->
  (g * (1 - eps32 / 2) < y)%R -> (g <= RN y)%R.
Proof.
  intros G B Y. unfold RN. apply round_N_ge_midp; [apply _|exact G|].
  assert (P0 : (0 < g)%R) by (eapply Rlt_le_trans; [|exact B]; apply bpow_gt_0).
  assert (Q : (pred radix2 fexp32 g <= g * (1 - eps32))%R).
  { rewrite pred_eq_pos by lra. unfold pred_pos.
    destruct (Req_bool_spec g (bpow radix2 (mag radix2 g - 1))) as [E|E].
    - set (e := (mag radix2 g - 1)%Z) in *.
      assert (e >= -126)%Z. { apply Z.le_ge. apply (le_bpow radix2). rewrite <- E. exact B. }
      change (fexp32 e) with (Z.max (e - 24) (-149)).
      assert (bpow radix2 (e - 24) <= bpow radix2 (Z.max (e - 24) (-149)))%R by (apply bpow_le; lia).
      unfold Z.sub in H0 at 1. rewrite bpow_plus in H0. change (- (24))%Z with (-24)%Z in H0. rewrite <- E in H0.
      change (bpow radix2 (-24)) with (/ IZR (2 ^ 24))%R in H0. change (2 ^ 24)%Z with 16777216%Z in H0.
      unfold eps32. lra.
    - rewrite ulp_neq_0 by lra. unfold cexp.
      change (fexp32 (mag radix2 g)) with (Z.max (mag radix2 g - 24) (-149)).
      assert (bpow radix2 (mag radix2 g - 24) <= bpow radix2 (Z.max (mag radix2 g - 24) (-149)))%R by (apply bpow_le; lia).
      assert (g < bpow radix2 (mag radix2 g))%R.
      { pose proof (bpow_mag_gt radix2 g) as M. rewrite Rabs_pos_eq in M by lra. exact M. }
      unfold Z.sub in H at 1. rewrite bpow_plus in H. change (- (24))%Z with (-24)%Z in H.
      change (bpow radix2 (-24)) with (/ IZR (2 ^ 24))%R in H. change (2 ^ 24)%Z with 16777216%Z in H.
      unfold eps32. lra. }
  lra.
Qed.

(** ** Centres *)
Definition half32 : f32 := S754_finite false 8388608 (-24).
Lemma half_real : R32 half32 = (/ 2)%R.
Proof.
  unfold R32, half32, SF2R, F2R. cbn [Fnum Fexp cond_Zopp]. change (bpow radix2 (-24)) with (/ IZR (2 ^ 24))%R.
  change (2 ^ 24)%Z with 16777216%Z. lra.
Qed.

Lemma generic_half k : (Z.abs k < 2 ^ 22)%Z -> generic_format radix2 fexp32 (IZR k + / 2).
Proof.
  intro H. change fexp32 with (FLT_exp (-149) 24). apply generic_format_FLT.
  exists (Float radix2 (2 * k + 1) (-1)); cbn [Fnum Fexp]; [|change (radix2 : Z) with 2%Z; lia|lia].
  unfold F2R. cbn [Fnum Fexp]. rewrite plus_IZR, mult_IZR. change (bpow radix2 (-1)) with (/ 2)%R. field.
Qed.

Lemma half_range k : (Z.abs k < 2 ^ 22)%Z -> in_range32 (IZR k + / 2).
Proof.
  intro H. apply (in_range_le _ (Z.abs k + 1)); [lia|]. rewrite plus_IZR, abs_IZR.
  eapply Rle_trans; [apply Rabs_triang|]. apply Rplus_le_compat_l. rewrite Rabs_pos_eq; lra.
Qed.

Lemma centre_real k : (Z.abs k < 2 ^ 22)%Z ->
  valid32 (centre k) /\ fin32 (centre k) /\ R32 (centre k) = (IZR k + / 2)%R.
Proof.
  intro H. destruct (small_real k ltac:(lia)) as (V & F & E). unfold centre. fold half32.
  destruct (add_real (f32_of_Z k) half32) as (F' & E'); auto; try reflexivity.
  - rewrite E, half_real. now apply half_range.
  - split; [now apply add_valid|]. split; [exact F'|]. rewrite E', E, half_real.
    apply round_generic; [apply _|]. now apply generic_half.
Qed.

(** ** The stretch *)
Lemma stretch_real w k : (1 <= w <= 2 ^ 22)%Z -> (0 <= k < w)%Z ->
  fin32 (stretched 0 w 0 (w - 1) (centre k)) /\
  (0 <= R32 (stretched 0 w 0 (w - 1) (centre k)))%R /\
  (IZR k - / 2 <= R32 (stretched 0 w 0 (w - 1) (centre k)) < IZR k + / 2)%R.
Proof.
  intros Hw Hk.
  destruct (centre_real k ltac:(lia)) as (Vc & Fc & Ec).
  destruct (small_real w ltac:(lia)) as (Vw & Fw & Ew).
  destruct (small_real (w - 1) ltac:(lia)) as (Vl & Fl & El).
  destruct (small_real 0 ltac:(lia)) as (V0 & F0 & E0). destruct (small_real 1 ltac:(lia)) as (V1 & F1 & E1).
  assert (W1 : (1 <= IZR w)%R) by (apply IZR_le; lia).
  assert (W2 : (IZR w <= 4194304)%R) by (apply IZR_le; lia).
  assert (K0 : (0 <= IZR k)%R) by (apply IZR_le; lia).
  assert (K1 : (IZR k + 1 <= IZR w)%R) by (rewrite <- plus_IZR; apply IZR_le; lia).
  set (v := (IZR k + / 2)%R) in *.
  assert (EP : eps32 = (/ 16777216)%R) by reflexivity.
  assert (ET : (0 < eta32 <= / 1073741824)%R).
  { split; [apply bpow_gt_0|]. apply Rle_trans with (bpow radix2 (-30)); [apply bpow_le; lia|].
    change (bpow radix2 (-30)) with (/ IZR (2 ^ 30))%R. change (2 ^ 30)%Z with 1073741824%Z. lra. }
  unfold stretched, remap, inverse_lerp, lerp.
  (* c - 0 and w - 0 *)
  destruct (sub_real (centre k) (f32_of_Z 0)) as (Fs & Es); auto.
  { rewrite Ec, E0, Rminus_0_r. apply half_range. lia. }
  assert (Vs : valid32 (f32_sub (centre k) (f32_of_Z 0))) by now apply sub_valid.
  rewrite Ec, E0, Rminus_0_r in Es. unfold v in Es at 1.
  replace (RN (IZR k + / 2)) with v in Es by (symmetry; apply round_generic; [apply _|apply generic_half; lia]).
  destruct (sub_real (f32_of_Z w) (f32_of_Z 0)) as (Fd & Ed); auto.
  { rewrite Ew, E0, Rminus_0_r. apply (in_range_le _ w); [lia|]. rewrite Rabs_pos_eq; lra. }
  assert (Vd : valid32 (f32_sub (f32_of_Z w) (f32_of_Z 0))) by now apply sub_valid.
  rewrite Ew, E0, Rminus_0_r, RN_Z in Ed by lia.
  set (s := f32_sub (centre k) (f32_of_Z 0)) in *. set (d := f32_sub (f32_of_Z w) (f32_of_Z 0)) in *. clearbody s d.
  (* mix *)
  set (t := (v / IZR w)%R).
  assert (T : (/ 8388608 <= t < 1)%R).
  { unfold t, v. split; apply Rmult_lt_reg_r with (IZR w) || apply Rmult_le_reg_r with (IZR w); try lra;
    unfold Rdiv; rewrite Rmult_assoc, Rinv_l by lra; lra. }
  destruct (div_real s d) as (Fm & Em); auto.
  { rewrite Ed. lra. }
  { rewrite Es, Ed. fold t. apply (in_range_le _ 1); [lia|]. rewrite Rabs_pos_eq; lra. }
  assert (Vm : valid32 (f32_div s d)) by now apply div_valid.
  rewrite Es, Ed in Em. fold t in Em.
  set (mix := f32_div s d) in *. clearbody mix.
  assert (M1 : (Rabs (R32 mix - t) <= eps32 / 2)%R) by (rewrite Em; apply RN_below_one; rewrite Rabs_pos_eq; lra).
  assert (M2 : (Rabs (R32 mix - t) <= eps32 * t)%R).
  { rewrite Em. rewrite <- (Rabs_pos_eq t) at 3 by lra. apply RN_rel. rewrite Rabs_pos_eq by lra.
    apply Rle_trans with (/ 8388608)%R; [|lra]. apply Rle_trans with (bpow radix2 (-23)); [apply bpow_le; lia|].
    change (bpow radix2 (-23)) with (/ IZR (2 ^ 23))%R. change (2 ^ 23)%Z with 8388608%Z. lra. }
  apply Rabs_le_inv in M1, M2.
  assert (MB : (0 <= R32 mix <= 2)%R) by (rewrite EP in *; lra).
  (* (1 - mix) * 0 *)
  destruct (sub_real f32_one mix) as (Fo & Eo); auto.
  { change (R32 f32_one) with (R32 (f32_of_Z 1)). rewrite E1. apply (in_range_le _ 2); [lia|]. apply Rabs_le. lra. }
  assert (Vo : valid32 (f32_sub f32_one mix)) by now apply sub_valid.
  destruct (mul_real (f32_sub f32_one mix) (f32_of_Z 0)) as (Fz & Ez); auto.
  { rewrite E0, Rmult_0_r. apply (in_range_le _ 1); [lia|]. rewrite Rabs_R0. lra. }
  rewrite E0, Rmult_0_r, RN_0 in Ez.
  assert (Vz : valid32 (f32_mul (f32_sub f32_one mix) (f32_of_Z 0))) by now apply mul_valid.
  set (z := f32_mul (f32_sub f32_one mix) (f32_of_Z 0)) in *. clearbody z.
  (* mix * (w - 1) *)
  assert (L0 : (0 <= IZR (w - 1))%R) by (apply IZR_le; lia).
  set (y := (R32 mix * IZR (w - 1))%R).
  assert (Y0 : (0 <= y)%R) by (apply Rmult_le_pos; lra).
  assert (EL : IZR (w - 1) = (IZR w - 1)%R) by apply minus_IZR.
  assert (TW : (t * IZR w = v)%R) by (unfold t; field; lra).
  assert (YU : (y <= v * (1 - 3 * eps32))%R).
  { assert (S : (y <= t * (1 + eps32) * (IZR w - 1))%R) by (unfold y; rewrite EL; apply Rmult_le_compat_r; lra).
    assert (S2 : (t * (1 + eps32) * (IZR w - 1) = (1 + eps32) * (v - t))%R) by (rewrite <- TW; ring).
    assert (S3 : (v * (4 * eps32) <= t)%R).
    { rewrite <- TW. rewrite Rmult_assoc. rewrite <- (Rmult_1_r t) at 2. apply Rmult_le_compat_l; [lra|].
      rewrite EP. lra. }
    assert (S4 : ((1 + eps32) * (v - t) <= (1 + eps32) * (v - v * (4 * eps32)))%R)
      by (apply Rmult_le_compat_l; [rewrite EP; lra|lra]).
    assert (S5 : ((1 + eps32) * (v - v * (4 * eps32)) <= v * (1 - 3 * eps32))%R).
    { rewrite EP. unfold v. lra. }
    lra. }
  assert (VB : (/ 2 <= v <= IZR w)%R) by (unfold v; lra).
  assert (YB : (y <= 4194304)%R).
  { assert (v * (1 - 3 * eps32) <= v * 1)%R by (apply Rmult_le_compat_l; [lra|rewrite EP; lra]). lra. }
  destruct (mul_real mix (f32_of_Z (w - 1))) as (Fy & Ey); auto.
  { rewrite El. fold y. apply (in_range_le _ 4194304); [lia|]. rewrite Rabs_pos_eq; lra. }
  assert (Vy : valid32 (f32_mul mix (f32_of_Z (w - 1)))) by now apply mul_valid.
  rewrite El in Ey. fold y in Ey.
  set (r := f32_mul mix (f32_of_Z (w - 1))) in *. clearbody r.
  (* the sum with zero *)
  assert (RB : (0 <= R32 r <= 4194304)%R).
  { rewrite Ey. split; [rewrite <- RN_0; now apply RN_mono|].
    rewrite <- (RN_Z 4194304) by lia. now apply RN_mono. }
  destruct (add_real z r) as (Fa & Ea); auto.
  { rewrite Ez, Rplus_0_l. apply (in_range_le _ 4194304); [lia|]. rewrite Rabs_pos_eq; lra. }
  rewrite Ez, Rplus_0_l, RN_valid in Ea by exact Vy.
  split; [exact Fa|]. rewrite Ea, Ey. split; [rewrite <- Ey; lra|]. split.
  - destruct (Z.eq_dec k 0) as [->|Kn]; [rewrite <- Ey; lra|].
    assert (K2 : (1 <= IZR k)%R) by (apply IZR_le; lia).
    apply RN_up.
    + replace (IZR k - / 2)%R with (IZR (k - 1) + / 2)%R by (rewrite minus_IZR; lra). apply generic_half. lia.
    + apply Rle_trans with (bpow radix2 (-1)); [apply bpow_le; lia|]. change (bpow radix2 (-1)) with (/ 2)%R. lra.
    + assert (S : ((t - eps32 / 2) * (IZR w - 1) <= y)%R) by (unfold y; rewrite EL; apply Rmult_le_compat_r; lra).
      replace ((t - eps32 / 2) * (IZR w - 1))%R with (v - t - eps32 / 2 * (IZR w - 1))%R in S by (rewrite <- TW; ring).
      eapply Rlt_le_trans; [|exact S]. replace (IZR k - / 2)%R with (v - 1)%R by (unfold v; lra).
      assert (D : (0 < (IZR w - v) * (/ IZR w - eps32 / 2))%R).
      { apply Rmult_lt_0_compat; [unfold v; lra|]. assert (/ 4194304 <= / IZR w)%R by (apply Rinv_le; lra). rewrite EP. lra. }
      replace ((IZR w - v) * (/ IZR w - eps32 / 2))%R with (1 - t - eps32 / 2 * (IZR w - v))%R in D by (unfold t; field; lra).
      lra.
  - pose proof (RN_err y) as Q. rewrite (Rabs_pos_eq y) in Q by exact Y0. apply Rabs_le_inv in Q.
    assert (S : (eps32 * y <= eps32 * (v * (1 - 3 * eps32)))%R) by (apply Rmult_le_compat_l; [rewrite EP; lra|exact YU]).
    fold v. assert (S2 : (v * (1 - 3 * eps32) + eps32 * (v * (1 - 3 * eps32)) <= v * (1 - 2 * eps32))%R).
    { replace (v * (1 - 3 * eps32) + eps32 * (v * (1 - 3 * eps32)))%R with (v * ((1 - 3 * eps32) * (1 + eps32)))%R by ring.
      apply Rmult_le_compat_l; [lra|]. rewrite EP. lra. }
    assert (S3 : (v * (1 - 2 * eps32) + eta32 < v)%R).
    { assert (/ 2 * (2 * eps32) <= v * (2 * eps32))%R by (apply Rmult_le_compat_r; [rewrite EP; lra|lra]). rewrite EP in *. lra. }
    lra.
Qed.

Lemma own_pixel w k k' : (1 <= w <= 2 ^ 22)%Z -> (0 <= k < w)%Z ->
  picked (stretched 0 w 0 (w - 1) (centre k)) w k' -> k' = k.
Proof.
  intros Hw Hk P. destruct (stretch_real w k Hw Hk) as (F & X0 & B).
  set (x := stretched 0 w 0 (w - 1) (centre k)) in *. clearbody x.
  assert (E : exists r, rounds_to x r /\ k' = Z.max 0 (Z.min (w - 1) r)) by (destruct x; try discriminate; exact P).
  destruct E as (r & R & ->). rewrite (pinned x r k F R); try lia; assumption.
Qed.

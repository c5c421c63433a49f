(** How close the cache capacity is to the whole memory. *)
From Coq Require Import Reals Floats.SpecFloat Psatz.
From Flocq Require Import Core.Core IEEE754.BinarySingleNaN.
From Verif Require Import Machine FloatModel ConfigModel ConfigProofs MergeSpec MergeProofs FloatReal RemapReal.
Local Open Scope Z_scope.

Lemma digits_lt m k : Zpos (digits2_pos m) <= k -> Zpos m < 2 ^ k.
Proof.
  intro H. change (Zpos m) with (Z.abs (Zpos m)). change 2 with (radix_val radix2).
  apply (Zpower_gt_Zdigits radix2). rewrite <- Digits.Zpos_digits2_pos. exact H.
Qed.

Lemma mantissa_small m e : valid32 (S754_finite false m e) -> Zpos m < 2 ^ 24.
Proof.
  intro V. cbn [valid_binary] in V. unfold bounded in V. apply andb_prop in V. destruct V as (C & _).
  unfold canonical_mantissa in C. apply Zeq_bool_eq in C. apply digits_lt.
  unfold SpecFloat.fexp, SpecFloat.emin, prec32, emax32 in C. lia.
Qed.

Lemma big_whole m e : valid32 (S754_finite false m e) ->
  (IZR (2 ^ 24) <= R32 (S754_finite false m e))%R -> 0 <= e.
Proof.
  intros V L. pose proof (mantissa_small m e V) as M.
  destruct (Z_lt_le_dec e 0) as [N|]; [exfalso|assumption].
  assert (R32 (S754_finite false m e) < IZR (2 ^ 24))%R; [|lra].
  unfold R32, SF2R, F2R. cbn [Fnum Fexp cond_Zopp].
  apply Rle_lt_trans with (IZR (Zpos m) * 1)%R.
  - apply Rmult_le_compat_l; [apply IZR_le; lia|]. change 1%R with (bpow radix2 0). apply bpow_le. lia.
  - rewrite Rmult_1_r. apply IZR_lt. exact M.
Qed.

Lemma trunc_exact m e k : R32 (S754_finite false m e) = IZR k -> mag_trunc m e = k.
Proof.
  unfold R32, SF2R, F2R, mag_trunc. cbn [Fnum Fexp cond_Zopp]. intro H.
  destruct (Z.leb_spec 0 e) as [P|N].
  - rewrite Z.shiftl_mul_pow2 by lia. apply eq_IZR. rewrite <- H, mult_IZR.
    change 2 with (radix_val radix2). rewrite IZR_Zpower by lia. reflexivity.
  - rewrite Z.shiftr_div_pow2 by lia.
    assert (Zpos m = k * 2 ^ (- e)) as ->; [|apply Z.div_mul; lia].
    apply eq_IZR. rewrite mult_IZR. change 2 with (radix_val radix2). rewrite IZR_Zpower by lia.
    rewrite <- H, Rmult_assoc, <- bpow_plus. replace (e + - e) with 0 by lia. cbn [bpow]. lra.
Qed.

Lemma as_u64_whole x k : fin32 x -> R32 x = IZR k -> 0 <= k -> f32_as_u64 x = Z.min (two64 - 1) k.
Proof.
  intros F H K. unfold f32_as_u64. destruct x as [s|s| |s m e]; try discriminate.
  - unfold R32, SF2R in H. change 0%R with (IZR 0) in H. apply eq_IZR in H. subst k. reflexivity.
  - destruct s.
    + exfalso. unfold R32, SF2R in H. apply IZR_le in K. rewrite <- H in K.
      pose proof (F2R_lt_0 radix2 (Float radix2 (cond_Zopp true (Zpos m)) e) eq_refl). lra.
    + cbn [f_as_int cond_Zopp]. rewrite (trunc_exact m e k H). unfold two64. lia.
Qed.

Lemma rounded_whole z : 0 <= z < two64 -> exists k,
  valid32 (f32_of_Z z) /\ fin32 (f32_of_Z z) /\ R32 (f32_of_Z z) = IZR k /\ 0 <= k /\
  Z.abs (k - z) * 2 ^ 24 <= z.
Proof.
  intros B. destruct (Z_le_gt_dec z (2 ^ 24)) as [S|G].
  - exists z. destruct (small_real z) as (V & F & E); [lia|]. repeat split; try assumption; try lia.
  - assert (Z64 : (Rabs (IZR z) <= bpow radix2 64)%R).
    { rewrite Rabs_pos_eq by (apply IZR_le; lia). change (bpow radix2 64) with (IZR two64). apply IZR_le. lia. }
    destruct (of_Z_real z) as (V & F & E); [apply (in_range_bpow _ 64); [lia|lia|exact Z64]|].
    assert (L : (IZR (2 ^ 24) <= R32 (f32_of_Z z))%R).
    { rewrite E, <- (RN_Z (2 ^ 24)) by lia. apply RN_mono, IZR_le. lia. }
    remember (f32_of_Z z) as x eqn:X. destruct x as [s|s| |s m e]; try discriminate F.
    + exfalso. change (R32 (S754_zero s)) with 0%R in L. change 0%R with (IZR 0) in L. apply le_IZR in L. lia.
    + destruct s.
      { exfalso. pose proof (F2R_lt_0 radix2 (Float radix2 (cond_Zopp true (Zpos m)) e) eq_refl) as N.
        change (R32 (S754_finite true m e)) with (F2R (Float radix2 (cond_Zopp true (Zpos m)) e)) in L.
        change 0%R with (IZR 0) in N. assert (IZR (2 ^ 24) < IZR 0)%R as Q by lra. apply lt_IZR in Q. lia. }
      pose proof (big_whole m e V L) as P.
      assert (W : R32 (S754_finite false m e) = IZR (Zpos m * 2 ^ e)).
      { unfold R32, SF2R, F2R. cbn [Fnum Fexp cond_Zopp]. rewrite mult_IZR.
        change 2 with (radix_val radix2). rewrite IZR_Zpower by lia. reflexivity. }
      exists (Zpos m * 2 ^ e). split; [exact V|]. split; [exact F|]. split; [exact W|].
      split; [lia|].
      assert (Q : (Rabs (RN (IZR z) - IZR z) <= eps32 * Rabs (IZR z))%R).
      { apply RN_rel. rewrite Rabs_pos_eq by (apply IZR_le; lia). apply Rle_trans with (bpow radix2 0).
        - apply bpow_le. lia.
        - change (bpow radix2 0) with (IZR 1). apply IZR_le. lia. }
      rewrite <- E, W, <- minus_IZR, <- !abs_IZR in Q. unfold eps32 in Q.
      apply le_IZR. rewrite mult_IZR. change (2 ^ 24) with 16777216.
      rewrite (Z.abs_eq z) in Q by lia. lra.
Qed.

(** The capacity is the whole memory up to the rounding to single precision. *)
Lemma capacity_close ram p : 0 <= ram < two64 ->
  Z.abs (ram_capacity_bytes ram p - ram) * 2 ^ 24 <= ram.
Proof.
  intros B. unfold ram_capacity_bytes. rewrite percent_one.
  destruct (rounded_whole ram B) as (k & V & F & E & K & C).
  change f32_one with (f32_of_Z 1). rewrite f32_mul_one by exact V.
  rewrite (as_u64_whole _ k F E K). lia.
Qed.

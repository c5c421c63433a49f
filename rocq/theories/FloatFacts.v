(** Exact facts about f32 values that are small integers. *)
From Coq Require Import Floats.SpecFloat.
From Verif Require Import Machine FloatModel BBoxModel PixelModel DeformModel.

Lemma digits2_shift k m : digits2_pos (shift_pos k m) = (digits2_pos m + k)%positive.
Proof.
  unfold shift_pos. induction k as [|k IH] using Pos.peano_ind.
  - cbn. now rewrite Pos.add_1_r.
  - rewrite Pos.iter_succ. cbn [digits2_pos]. rewrite IH. lia.
Qed.
Lemma shift_pos_Z k m : Zpos (shift_pos k m) = Zpos m * 2 ^ Zpos k.
Proof.
  unfold shift_pos. induction k as [|k IH] using Pos.peano_ind.
  - cbn. lia.
  - rewrite Pos.iter_succ. rewrite Pos2Z.inj_succ, Z.pow_succ_r by lia. rewrite Pos2Z.inj_xO, IH. lia.
Qed.
Lemma digits2_bounds m : 2 ^ (Zpos (digits2_pos m) - 1) <= Zpos m < 2 ^ Zpos (digits2_pos m).
Proof.
  induction m as [m IH|m IH|]; cbn [digits2_pos].
  - rewrite Pos2Z.inj_succ. replace (Z.succ (Zpos (digits2_pos m)) - 1) with (Z.succ (Zpos (digits2_pos m) - 1)) by lia.
    rewrite !Z.pow_succ_r by lia. lia.
  - rewrite Pos2Z.inj_succ. replace (Z.succ (Zpos (digits2_pos m)) - 1) with (Z.succ (Zpos (digits2_pos m) - 1)) by lia.
    rewrite !Z.pow_succ_r by lia. lia.
  - cbn. lia.
Qed.
Lemma digits2_le m k : Zpos m < 2 ^ k -> Zpos (digits2_pos m) <= k.
Proof.
  intro H. pose proof (digits2_bounds m) as [B _].
  destruct (Z_le_gt_dec (Zpos (digits2_pos m)) k) as [L|G]; [exact L|].
  assert (2 ^ k <= 2 ^ (Zpos (digits2_pos m) - 1)) by (apply Z.pow_le_mono_r; lia). lia.
Qed.

(** Rounding an integer of at most 24 bits: the same number, 24 bits long. *)
Lemma round_small s m : Zpos m < 2 ^ 24 ->
  exists k, binary_round prec32 emax32 s m 0 =
            match k with 0 => S754_finite s m 0 | Zpos q => S754_finite s (shift_pos q m) (- Zpos q) | Zneg _ => S754_nan end
            /\ k = 24 - Zpos (digits2_pos m) /\ 0 <= k.
Proof.
  intro H. apply digits2_le in H. exists (24 - Zpos (digits2_pos m)).
  split; [|split; [reflexivity|lia]].
  unfold binary_round.
  assert (FE : fexp prec32 emax32 (Zpos (digits2_pos m) + 0) = Zpos (digits2_pos m) - 24).
  { unfold fexp, emin, prec32, emax32. lia. }
  rewrite FE. unfold shl_align. rewrite Z.sub_0_r.
  assert (AUX : forall mz ez, Zpos (digits2_pos mz) + ez = Zpos (digits2_pos m) -> Zpos (digits2_pos mz) = 24 ->
    binary_round_aux prec32 emax32 s (Zpos mz) ez loc_Exact = S754_finite s mz ez).
  { intros mz ez E1 E2. unfold binary_round_aux.
    assert (R : shr_fexp prec32 emax32 (Zpos mz) ez loc_Exact =
      ({| shr_m := Zpos mz; shr_r := false; shr_s := false |}, ez)).
    { unfold shr_fexp. cbn [Zdigits2]. replace (fexp prec32 emax32 (Zpos (digits2_pos mz) + ez) - ez) with 0.
      - reflexivity.
      - unfold fexp, emin, prec32, emax32. lia. }
    rewrite R. cbn [shr_m shr_r shr_s loc_of_shr_record round_nearest_even]. rewrite R. cbn [shr_m].
    replace (Zle_bool ez (emax32 - prec32)) with true; [reflexivity|].
    symmetry. apply Zle_imp_le_bool. unfold emax32, prec32. lia. }
  destruct (Zpos (digits2_pos m) - 24) as [|q|q] eqn:E.
  - replace (24 - Zpos (digits2_pos m)) with 0 by lia. apply AUX; lia.
  - lia.
  - replace (24 - Zpos (digits2_pos m)) with (Zpos q) by lia. apply AUX; rewrite digits2_shift; lia.
Qed.

Definition small (z : Z) : Prop := - 2 ^ 24 < z < 2 ^ 24.

Lemma f32_of_small z : small z -> z <> 0 ->
  exists s m e, f32_of_Z z = S754_finite s m e /\ e <= 0 /\ cond_Zopp s (Zpos m) = z * 2 ^ (- e).
Proof.
  intros S NZ. unfold f32_of_Z, binary_normalize. unfold small in S.
  destruct z as [|m|m]; [contradiction| |].
  - destruct (round_small false m) as (k & E & K & K0); [lia|]. rewrite E. destruct k as [|q|q]; [| |lia].
    + exists false, m, 0. split; [reflexivity|]. cbn [cond_Zopp]. split; lia.
    + exists false, (shift_pos q m), (- Zpos q). split; [reflexivity|]. split; [lia|]. cbn [cond_Zopp].
      rewrite shift_pos_Z. reflexivity.
  - destruct (round_small true m) as (k & E & K & K0); [lia|]. rewrite E. destruct k as [|q|q]; [| |lia].
    + exists true, m, 0. split; [reflexivity|]. cbn [cond_Zopp]. split; lia.
    + exists true, (shift_pos q m), (- Zpos q). split; [reflexivity|]. split; [lia|]. cbn [cond_Zopp].
      rewrite shift_pos_Z. change (Z.neg m) with (- Zpos m). change (- - Zpos q) with (Zpos q). ring.
Qed.

Lemma floor_shift_exact z e : e <= 0 -> floor_shift (z * 2 ^ (- e)) e = z.
Proof.
  intro H. unfold floor_shift. destruct (0 <=? e) eqn:E.
  - assert (e = 0) as -> by lia. rewrite Z.mul_1_r. apply Z.shiftl_0_r.
  - rewrite Z.shiftr_div_pow2 by lia. apply Z.div_mul. apply Z.pow_nonzero; lia.
Qed.
Lemma sat_small z : small z -> sat_i32 z = z.
Proof. unfold small, sat_i32, two31. lia. Qed.

(** Converting a small integer to f32 and back loses nothing. *)
Lemma floor_of_Z z : small z -> f32_floor_as_i32 (f32_of_Z z) = z.
Proof.
  intro S. destruct (Z.eq_dec z 0) as [->|NZ]; [reflexivity|].
  destruct (f32_of_small z S NZ) as (s & m & e & E & L & V). rewrite E. cbn [f32_floor_as_i32].
  rewrite V, floor_shift_exact by exact L. now apply sat_small.
Qed.
Lemma ceil_of_Z z : small z -> f32_ceil_as_i32 (f32_of_Z z) = z.
Proof.
  intro S. destruct (Z.eq_dec z 0) as [->|NZ]; [reflexivity|].
  destruct (f32_of_small z S NZ) as (s & m & e & E & L & V). rewrite E. cbn [f32_ceil_as_i32].
  rewrite V, <- Z.mul_opp_l, floor_shift_exact by exact L. rewrite Z.opp_involutive. now apply sat_small.
Qed.

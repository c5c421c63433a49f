(** C112: the numbers of the cache report as real numbers (through Flocq; adds
    the axioms of Coq's real numbers). *)
From Coq Require Import Reals Floats.SpecFloat Psatz.
From Flocq Require Import Core.Core IEEE754.BinarySingleNaN.
Require Import Flocq.Prop.Relative.
From Verif Require Import Machine FrameModel FrameSpec ReportModel FloatReal.

Local Instance prec64_pos : FLX.Prec_gt_0 53 := eq_refl _.
Local Instance prec64_emax : Prec_lt_emax 53 1024 := eq_refl _.
Local Notation bf := (binary_float 53 1024).
Local Notation valid64 x := (SpecFloat.valid_binary 53 1024 x = true).
Local Notation fin64 x := (is_finite_SF x = true).
Definition R64 (x : spec_float) : R := SF2R radix2 x.
Definition RN64 (x : R) : R := round radix2 (SpecFloat.fexp 53 1024) ZnearestE x.
Local Notation in_range64 x := (Rabs (RN64 x) < bpow radix2 1024)%R.

Lemma round_aux_equiv64 sx mx ex lx :
  SpecFloat.binary_round_aux 53 1024 sx mx ex lx = BinarySingleNaN.binary_round_aux 53 1024 mode_NE sx mx ex lx.
Proof.
  unfold SpecFloat.binary_round_aux, BinarySingleNaN.binary_round_aux.
  set (mrse' := shr_fexp _ _ _). case mrse'; intros mrs' e'. cbn beta iota zeta. now rewrite (rne_equiv sx).
Qed.
Lemma round_equiv64 s m e : SpecFloat.binary_round 53 1024 s m e = BinarySingleNaN.binary_round 53 1024 mode_NE s m e.
Proof.
  unfold SpecFloat.binary_round, BinarySingleNaN.binary_round, shl_align_fexp.
  set (mez := shl_align _ _ _); case mez as [mz ez]. apply round_aux_equiv64.
Qed.
Lemma normalize_equiv64 m e sz :
  SpecFloat.binary_normalize 53 1024 m e sz = B2SF (BinarySingleNaN.binary_normalize 53 1024 prec64_pos prec64_emax mode_NE m e sz).
Proof.
  case m as [|q|q]; [reflexivity| |];
    unfold SpecFloat.binary_normalize, BinarySingleNaN.binary_normalize; rewrite B2SF_SF2B; apply round_equiv64.
Qed.
Lemma mul_equiv64 (x y : bf) : SFmul 53 1024 (B2SF x) (B2SF y) = B2SF (Bmult mode_NE x y).
Proof.
  destruct x as [sx|sx| |sx mx ex Bx], y as [sy|sy| |sy my ey By]; try reflexivity.
  cbn [B2SF SFmul Bmult]. rewrite B2SF_SF2B. apply round_aux_equiv64.
Qed.
Lemma div_equiv64 (x y : bf) : SFdiv 53 1024 (B2SF x) (B2SF y) = B2SF (Bdiv mode_NE x y).
Proof.
  destruct x as [sx|sx| |sx mx ex Bx], y as [sy|sy| |sy my ey By]; try reflexivity; cbn [B2SF SFdiv Bdiv].
  rewrite B2SF_SF2B. set (melz := SFdiv_core_binary _ _ _ _ _ _). case melz as [[mz ez] lz]. apply round_aux_equiv64.
Qed.
Lemma to_bf64 (x : spec_float) : valid64 x -> exists b : bf, x = B2SF b /\ R64 x = B2R b /\ is_finite_SF x = is_finite b.
Proof.
  intro V. exists (SF2B x V). split; [symmetry; apply B2SF_SF2B|]. split; [symmetry; apply B2R_SF2B|symmetry; apply is_finite_SF2B].
Qed.
Lemma of_bf64 (b : bf) : valid64 (B2SF b) /\ R64 (B2SF b) = B2R b /\ is_finite_SF (B2SF b) = is_finite b.
Proof. split; [apply valid_binary_B2SF|]. split; [apply SF2R_B2SF|apply is_finite_SF_B2SF]. Qed.

Lemma mul_real64 x y : valid64 x -> valid64 y -> fin64 x -> fin64 y -> in_range64 (R64 x * R64 y) ->
  valid64 (SFmul 53 1024 x y) /\ fin64 (SFmul 53 1024 x y) /\ R64 (SFmul 53 1024 x y) = RN64 (R64 x * R64 y).
Proof.
  intros H K F G O. destruct (to_bf64 x H) as (a & -> & Ra & Fa), (to_bf64 y K) as (b & -> & Rb & Fb).
  rewrite mul_equiv64. destruct (of_bf64 (Bmult mode_NE a b)) as (V & Rc & Fc). split; [exact V|].
  pose proof (Bmult_correct 53 1024 _ _ mode_NE a b) as C.
  rewrite Ra, Rb in *. rewrite Rlt_bool_true in C by exact O. destruct C as (C1 & C2 & _).
  rewrite Fc, C2, Rc, C1. split; [|reflexivity]. now rewrite <- Fa, <- Fb, F, G.
Qed.
Lemma div_real64 x y : valid64 x -> valid64 y -> fin64 x -> R64 y <> 0%R -> in_range64 (R64 x / R64 y) ->
  valid64 (SFdiv 53 1024 x y) /\ fin64 (SFdiv 53 1024 x y) /\ R64 (SFdiv 53 1024 x y) = RN64 (R64 x / R64 y).
Proof.
  intros H K F NZ O. destruct (to_bf64 x H) as (a & -> & Ra & Fa), (to_bf64 y K) as (b & -> & Rb & Fb).
  rewrite div_equiv64. destruct (of_bf64 (Bdiv mode_NE a b)) as (V & Rc & Fc). split; [exact V|].
  pose proof (Bdiv_correct 53 1024 _ _ mode_NE a b) as C.
  rewrite Ra, Rb in *. specialize (C NZ). rewrite Rlt_bool_true in C by exact O. destruct C as (C1 & C2 & _).
  rewrite Fc, C2, Rc, C1. split; [congruence|reflexivity].
Qed.

Global Instance fexp64_valid : Valid_exp (SpecFloat.fexp 53 1024).
Proof. apply (fexp_correct 53 1024). exact prec64_pos. Qed.
Lemma RN64_mono x y : (x <= y)%R -> (RN64 x <= RN64 y)%R.
Proof. apply round_le; apply _. Qed.

Lemma generic64 z e : (Z.abs z < 2 ^ 53)%Z -> (-1074 <= e)%Z -> generic_format radix2 (SpecFloat.fexp 53 1024) (IZR z * bpow radix2 e).
Proof.
  intros H E. change (SpecFloat.fexp 53 1024) with (FLT_exp (-1074) 53).
  apply generic_format_FLT. exists (Float radix2 z e); cbn [Fnum Fexp]; [reflexivity|change (radix2 : Z) with 2%Z; exact H|exact E].
Qed.
Lemma RN64_exact z e : (Z.abs z < 2 ^ 53)%Z -> (-1074 <= e)%Z -> RN64 (IZR z * bpow radix2 e) = (IZR z * bpow radix2 e)%R.
Proof. intros H E. apply round_generic; [apply _|now apply generic64]. Qed.
Lemma in_range_bpow64 x e : (e < 1024)%Z -> (-1074 <= e)%Z -> (Rabs x <= bpow radix2 e)%R -> in_range64 x.
Proof.
  intros H He L. apply Rle_lt_trans with (bpow radix2 e).
  - unfold RN64. apply abs_round_le_generic; [apply _|apply _| |exact L].
    change (SpecFloat.fexp 53 1024) with (FLT_exp (-1074) 53). apply generic_format_FLT_bpow; [reflexivity|exact He].
  - apply bpow_lt. exact H.
Qed.

Lemma bpow53 : bpow radix2 53 = IZR (2 ^ 53).
Proof. change (2 ^ 53)%Z with (Zpower radix2 53). rewrite IZR_Zpower by lia. reflexivity. Qed.
Lemma whole_bound z : (Z.abs z < 2 ^ 53)%Z -> (Rabs (IZR z) <= bpow radix2 53)%R.
Proof. intro H. rewrite <- abs_IZR, bpow53. apply IZR_le. lia. Qed.

Lemma whole64 z : (Z.abs z < 2 ^ 53)%Z -> valid64 (f64_of_Z z) /\ fin64 (f64_of_Z z) /\ R64 (f64_of_Z z) = IZR z.
Proof.
  intro H. unfold f64_of_Z. rewrite normalize_equiv64.
  set (b := BinarySingleNaN.binary_normalize _ _ _ _ _ _ _ _).
  destruct (of_bf64 b) as (V & Rb & Fb). split; [exact V|].
  pose proof (binary_normalize_correct 53 1024 prec64_pos prec64_emax mode_NE z 0 false) as C.
  cbn zeta in C. assert (E : F2R (Float radix2 z 0) = IZR z) by (unfold F2R; cbn; ring).
  rewrite E in C. rewrite Rlt_bool_true in C by exact (in_range_bpow64 _ 53 ltac:(lia) ltac:(lia) (whole_bound z H)).
  fold b in C. destruct C as (C1 & C2 & _). rewrite Fb, Rb. split; [exact C2|]. rewrite C1.
  change (round radix2 (SpecFloat.fexp 53 1024) (round_mode mode_NE) (IZR z)) with (RN64 (IZR z)).
  replace (IZR z) with (IZR z * bpow radix2 0)%R by (cbn; ring). now rewrite (RN64_exact z 0 H).
Qed.

(* ------------------------------ sizes ------------------------------ *)

Lemma fraction_real x a b : (0 < b)%Z -> fin64 x -> R64 x = (IZR a / IZR b)%R -> is_fraction x a b.
Proof.
  intros B F E. split; [exact B|]. assert (NB : (IZR b <> 0)%R) by (apply IZR_neq; lia).
  destruct x as [s|s| |s m e]; try discriminate F.
  - unfold R64 in E. cbn in E. apply eq_IZR. apply (f_equal (fun v => v * IZR b)%R) in E. field_simplify in E; lra.
  - unfold R64, SF2R, F2R in E. cbn [Fnum Fexp] in E.
    assert (P : (IZR (cond_Zopp s (Zpos m)) * bpow radix2 e * IZR b = IZR a)%R) by (rewrite E; field; exact NB).
    assert (BP : (bpow radix2 e * bpow radix2 (Z.max 0 (- e)) = bpow radix2 (Z.max 0 e))%R) by (rewrite <- bpow_plus; f_equal; lia).
    assert (Q : (IZR (cond_Zopp s (Zpos m)) * bpow radix2 (Z.max 0 e) * IZR b = IZR a * bpow radix2 (Z.max 0 (- e)))%R) by (rewrite <- P, <- BP; ring).
    assert (PW : forall k, (0 <= k)%Z -> bpow radix2 k = IZR (2 ^ k)) by (intros k K; change (2 ^ k)%Z with (Zpower radix2 k); now rewrite IZR_Zpower).
    rewrite !PW in Q by lia. rewrite <- !mult_IZR in Q. apply eq_IZR in Q. rewrite <- Q. destruct s; cbn [cond_Zopp]; lia.
Qed.

Theorem gigabytes_exact n : (0 <= n < 2 ^ 53)%Z -> is_fraction (gigabytes n) n (2 ^ 30).
Proof.
  intro H. destruct (whole64 n) as (V & F & E); [lia|]. destruct (whole64 1073741824) as (V' & F' & E'); [lia|].
  assert (Q : (IZR n / IZR 1073741824 = IZR n * bpow radix2 (-30))%R) by reflexivity.
  destruct (div_real64 _ _ V V' F) as (_ & Fd & Ed).
  - rewrite E'. apply IZR_neq. lia.
  - rewrite E, E', Q. apply (in_range_bpow64 _ 53); [lia|lia|]. rewrite Rabs_mult. rewrite (Rabs_pos_eq (bpow radix2 (-30))) by apply bpow_ge_0.
    apply Rle_trans with (Rabs (IZR n) * 1)%R.
    + apply Rmult_le_compat_l; [apply Rabs_pos|]. change 1%R with (bpow radix2 0). apply bpow_le. lia.
    + rewrite Rmult_1_r. apply whole_bound. lia.
  - apply fraction_real; [reflexivity|exact Fd|]. unfold gigabytes. rewrite Ed, E, E', Q, RN64_exact by lia. reflexivity.
Qed.

(* ------------------------------ ratios ------------------------------ *)

Section Ratio.
Variables a b : Z.
Hypothesis HA : (0 <= a < 2 ^ 53)%Z.
Hypothesis HB : (0 < b < 2 ^ 53)%Z.

Lemma b_pos : (0 < IZR b)%R. Proof. apply (IZR_lt 0). lia. Qed.
Lemma b_inv : (0 < / IZR b <= 1)%R.
Proof.
  pose proof b_pos. split; [now apply Rinv_0_lt_compat|]. apply Rle_trans with (/ 1)%R; [|lra]. apply Rinv_le; [lra|]. apply IZR_le. lia.
Qed.
Lemma quotient_bound : (0 <= IZR a / IZR b <= bpow radix2 53)%R.
Proof.
  pose proof b_inv. assert (0 <= IZR a)%R by (apply (IZR_le 0); lia). pose proof (whole_bound a ltac:(lia)) as W. rewrite Rabs_pos_eq in W by assumption.
  unfold Rdiv. split; [apply Rmult_le_pos; lra|]. apply Rle_trans with (IZR a * 1)%R; [apply Rmult_le_compat_l; lra|lra].
Qed.

Lemma ratio_real : valid64 (ratio a b) /\ fin64 (ratio a b) /\ R64 (ratio a b) = RN64 (RN64 (IZR a / IZR b) * 100).
Proof.
  destruct (whole64 a) as (V & F & E); [lia|]. destruct (whole64 b) as (V' & F' & E'); [lia|]. destruct (whole64 100) as (V1 & F1 & E1); [lia|].
  pose proof quotient_bound as QB.
  destruct (div_real64 _ _ V V' F) as (Vd & Fd & Ed).
  - rewrite E'. pose proof b_pos. lra.
  - rewrite E, E'. apply (in_range_bpow64 _ 53); [lia|lia|]. rewrite Rabs_pos_eq; tauto.
  - rewrite E, E' in Ed. assert (QR : (0 <= RN64 (IZR a / IZR b) <= bpow radix2 53)%R).
    { split.
      - replace 0%R with (RN64 0) by (apply round_0; apply _). apply RN64_mono. tauto.
      - replace (bpow radix2 53) with (RN64 (1 * bpow radix2 53)) by (rewrite (RN64_exact 1 53) by lia; ring). apply RN64_mono. lra. }
    destruct (mul_real64 _ _ Vd V1 Fd F1) as (Vm & Fm & Em).
    + rewrite Ed, E1. apply (in_range_bpow64 _ 60); [lia|lia|]. rewrite Rabs_pos_eq by lra.
      apply Rle_trans with (bpow radix2 53 * 128)%R; [nra|]. right. change 128%R with (bpow radix2 7). now rewrite <- bpow_plus.
    + rewrite Ed, E1 in Em. auto.
Qed.

(** Half a unit in the last place on either side of 1. *)
Definition tiny : R := bpow radix2 (-53).
Lemma tiny_b : (tiny < / IZR b)%R.
Proof.
  unfold tiny. change (bpow radix2 (-53)) with (/ IZR (2 ^ 53))%R. apply Rinv_lt_contravar.
  - apply Rmult_lt_0_compat; [exact b_pos|apply (IZR_lt 0); reflexivity].
  - apply IZR_lt. lia.
Qed.
Lemma below_one : RN64 (1 - tiny) = (1 - tiny)%R.
Proof.
  replace (1 - tiny)%R with (IZR (2 ^ 53 - 1) * bpow radix2 (-53))%R; [apply RN64_exact; lia|].
  rewrite minus_IZR. fold tiny. unfold tiny. change (bpow radix2 (-53)) with (/ IZR (2 ^ 53))%R. field. apply IZR_neq. lia.
Qed.
Lemma above_one : RN64 (1 + 2 * tiny) = (1 + 2 * tiny)%R.
Proof.
  replace (1 + 2 * tiny)%R with (IZR (2 ^ 52 + 1) * bpow radix2 (-52))%R; [apply RN64_exact; lia|].
  rewrite plus_IZR. unfold tiny. change (bpow radix2 (-53)) with (/ IZR (2 ^ 53))%R. change (bpow radix2 (-52)) with (/ IZR (2 ^ 52))%R.
  change (2 ^ 53)%Z with (2 * 2 ^ 52)%Z. rewrite mult_IZR. field. apply IZR_neq. lia.
Qed.

Definition one_below : spec_float := S754_finite false 9007199254740991 (-53).
Definition one_above : spec_float := S754_finite false 4503599627370497 (-52).
Lemma one_below_real : R64 one_below = (1 - tiny)%R.
Proof.
  unfold R64, one_below, SF2R, F2R, tiny. cbn [Fnum Fexp cond_Zopp]. change (bpow radix2 (-53)) with (/ 9007199254740992)%R. lra.
Qed.
Lemma one_above_real : R64 one_above = (1 + 2 * tiny)%R.
Proof.
  unfold R64, one_above, SF2R, F2R, tiny. cbn [Fnum Fexp cond_Zopp].
  change (bpow radix2 (-53)) with (/ 9007199254740992)%R. change (bpow radix2 (-52)) with (/ 4503599627370496)%R. lra.
Qed.
Lemma hundred_times x m e : valid64 x -> fin64 x -> (Rabs (R64 x) <= 2)%R -> SFmul 53 1024 x (f64_of_Z 100) = S754_finite false m e ->
  RN64 (R64 x * 100) = (IZR (Zpos m) * bpow radix2 e)%R.
Proof.
  intros V F L E. destruct (whole64 100) as (V1 & F1 & E1); [lia|].
  destruct (mul_real64 _ _ V V1 F F1) as (_ & _ & Em).
  - rewrite E1. apply (in_range_bpow64 _ 8); [lia|lia|]. rewrite Rabs_mult, (Rabs_pos_eq 100) by lra. change (bpow radix2 8) with 256%R. lra.
  - rewrite E1 in Em. rewrite <- Em, E. reflexivity.
Qed.

Lemma less : (a < b)%Z -> (R64 (ratio a b) < 100)%R.
Proof.
  intro L. destruct ratio_real as (_ & _ & ->). pose proof b_pos. pose proof tiny_b as T.
  assert (Q : (RN64 (IZR a / IZR b) <= 1 - tiny)%R).
  { rewrite <- below_one. apply RN64_mono. assert (IZR a <= IZR b - 1)%R by (rewrite <- minus_IZR; apply IZR_le; lia).
    apply Rle_trans with ((IZR b - 1) / IZR b)%R; [apply Rmult_le_compat_r; [pose proof b_inv; lra|assumption]|].
    replace ((IZR b - 1) / IZR b)%R with (1 - / IZR b)%R by (field; lra). lra. }
  apply Rle_lt_trans with (RN64 (R64 one_below * 100)); [apply RN64_mono; rewrite one_below_real; lra|].
  rewrite (hundred_times one_below 7036874417766399 (-46)); [|reflexivity|reflexivity| |vm_compute; reflexivity].
  - change (bpow radix2 (-46)) with (/ 70368744177664)%R. lra.
  - rewrite one_below_real. unfold tiny. change (bpow radix2 (-53)) with (/ 9007199254740992)%R. rewrite Rabs_pos_eq; lra.
Qed.

Lemma more : (b < a)%Z -> (100 < R64 (ratio a b))%R.
Proof.
  intro L. destruct ratio_real as (_ & _ & ->). pose proof b_pos. pose proof tiny_b as T.
  assert (Q : (1 + 2 * tiny <= RN64 (IZR a / IZR b))%R).
  { assert (D : (1 + / IZR b <= IZR a / IZR b)%R).
    { assert (IZR b + 1 <= IZR a)%R by (rewrite <- plus_IZR; apply IZR_le; lia).
      apply Rle_trans with ((IZR b + 1) / IZR b)%R; [right; field; lra|apply Rmult_le_compat_r; [pose proof b_inv; lra|assumption]]. }
    assert (SU : (1 + 2 * tiny)%R = succ radix2 (SpecFloat.fexp 53 1024) 1).
    { rewrite succ_eq_pos by lra. change 1%R with (bpow radix2 0) at 3. rewrite ulp_bpow. unfold tiny.
      change (SpecFloat.fexp 53 1024 (0 + 1)) with (-52)%Z. f_equal. change 2%R with (bpow radix2 1). now rewrite <- bpow_plus. }
    assert (G1 : generic_format radix2 (SpecFloat.fexp 53 1024) 1).
    { replace 1%R with (IZR 1 * bpow radix2 0)%R by (cbn; ring). apply generic64; lia. }
    unfold RN64. apply round_N_ge_midp; [apply _|rewrite SU; apply generic_format_succ; [apply _|exact G1]|].
    rewrite SU at 2. rewrite pred_succ by (try apply _; exact G1). lra. }
  apply Rlt_le_trans with (RN64 (R64 one_above * 100)); [|apply RN64_mono; rewrite one_above_real; lra].
  rewrite (hundred_times one_above 7036874417766402 (-46)); [|reflexivity|reflexivity| |vm_compute; reflexivity].
  - change (bpow radix2 (-46)) with (/ 70368744177664)%R. lra.
  - rewrite one_above_real. unfold tiny. change (bpow radix2 (-53)) with (/ 9007199254740992)%R. rewrite Rabs_pos_eq; lra.
Qed.

Lemma same : a = b -> R64 (ratio a b) = 100%R.
Proof.
  intro E. destruct ratio_real as (_ & _ & ->). pose proof b_pos. rewrite E.
  replace (IZR b / IZR b)%R with (IZR 1 * bpow radix2 0)%R by (cbn; field; lra). rewrite RN64_exact by lia.
  replace (IZR 1 * bpow radix2 0 * 100)%R with (IZR 100 * bpow radix2 0)%R by (cbn; ring). rewrite RN64_exact by lia. cbn. ring.
Qed.

Lemma RN64_low x : (bpow radix2 (-1022) <= x)%R -> (x * (1 - tiny) <= RN64 x)%R.
Proof.
  intro H. assert (P : (0 < x)%R) by (eapply Rlt_le_trans; [apply bpow_gt_0|exact H]).
  pose proof (relative_error_N_FLT radix2 (-1074) 53 ltac:(reflexivity) (fun z => negb (Z.even z)) x) as E.
  change (-1074 + 53 - 1)%Z with (-1022)%Z in E. rewrite (Rabs_pos_eq x) in E by lra. specialize (E H).
  assert (T : (/ 2 * bpow radix2 (- (53) + 1) = tiny)%R).
  { unfold tiny. change (/ 2)%R with (bpow radix2 (-1)). now rewrite <- bpow_plus. }
  rewrite T in E. apply Rabs_le_inv in E.
  change (round radix2 (FLT_exp (-1074) 53) (Znearest (fun z => negb (Z.even z))) x) with (RN64 x) in E. lra.
Qed.

Lemma overstated : (0 < a)%Z -> (b < 2 ^ 52 - 1)%Z -> (100 * (IZR a / IZR (a + b)) < R64 (ratio a b))%R.
Proof.
  intros PA LB. destruct ratio_real as (_ & _ & ->). pose proof b_pos as PB.
  assert (A1 : (1 <= IZR a)%R) by (apply (IZR_le 1); lia).
  assert (TP : (0 < tiny)%R) by apply bpow_gt_0.
  assert (TB : (IZR b < / (2 * tiny) - 1)%R).
  { unfold tiny. change (bpow radix2 (-53)) with (/ 9007199254740992)%R. replace (/ (2 * / 9007199254740992) - 1)%R with (IZR (2 ^ 52 - 1)) by (rewrite minus_IZR; change (2 ^ 52)%Z with 4503599627370496%Z; field).
    now apply IZR_lt. }
  assert (LO : (bpow radix2 (-53) <= IZR a / IZR b)%R).
  { apply Rle_trans with (1 / IZR b)%R; [unfold Rdiv; rewrite Rmult_1_l; left; exact tiny_b|]. apply Rmult_le_compat_r; [pose proof b_inv; lra|exact A1]. }
  assert (N1 : (IZR a / IZR b * (1 - tiny) <= RN64 (IZR a / IZR b))%R).
  { apply RN64_low. eapply Rle_trans; [|exact LO]. apply bpow_le. lia. }
  assert (T1 : (tiny < 1 / 4)%R) by (unfold tiny; change (bpow radix2 (-53)) with (/ 9007199254740992)%R; lra).
  assert (N2 : (IZR a / IZR b * (1 - tiny) * 100 * (1 - tiny) <= RN64 (RN64 (IZR a / IZR b) * 100))%R).
  { apply Rle_trans with (RN64 (IZR a / IZR b) * 100 * (1 - tiny))%R; [nra|]. apply RN64_low.
    apply Rle_trans with (IZR a / IZR b * (1 - tiny) * 100)%R; [|lra].
    apply Rle_trans with (bpow radix2 (-53)); [apply bpow_le; lia|]. assert (0 < bpow radix2 (-53))%R by apply bpow_gt_0. nra. }
  eapply Rlt_le_trans; [|exact N2]. rewrite plus_IZR.
  assert (Q : (1 - 2 * tiny < (1 - tiny) * (1 - tiny))%R) by nra.
  assert (S : (IZR a / (IZR a + IZR b) < IZR a / IZR b * (1 - 2 * tiny))%R).
  { replace (IZR a / (IZR a + IZR b))%R with (IZR a / IZR b * (IZR b / (IZR a + IZR b)))%R by (field; lra).
    apply Rmult_lt_compat_l; [apply Rmult_lt_0_compat; [lra|pose proof b_inv; lra]|].
    apply Rle_lt_trans with (IZR b / (1 + IZR b))%R.
    - apply Rmult_le_compat_l; [lra|]. apply Rinv_le; lra.
    - assert (X : ((1 + IZR b) * (2 * tiny) < 1)%R).
      { apply Rlt_le_trans with (/ (2 * tiny) * (2 * tiny))%R; [apply Rmult_lt_compat_r; lra|right; field; lra]. }
      apply (Rmult_lt_reg_r (1 + IZR b)); [lra|]. replace (IZR b / (1 + IZR b) * (1 + IZR b))%R with (IZR b) by (field; lra). lra. }
  assert (0 < IZR a / IZR b)%R by (apply Rmult_lt_0_compat; [lra|pose proof b_inv; lra]). nra.
Qed.
End Ratio.

Theorem ratio_order a b : (0 <= a < 2 ^ 53)%Z -> (0 < b < 2 ^ 53)%Z ->
  ((R64 (ratio a b) < 100)%R <-> (a < b)%Z) /\ (R64 (ratio a b) = 100%R <-> a = b) /\ ((100 < R64 (ratio a b))%R <-> (b < a)%Z).
Proof.
  intros HA HB. pose proof (less a b HA HB) as L. pose proof (more a b HA HB) as M. pose proof (same a b HA HB) as S.
  destruct (Z.lt_trichotomy a b) as [H|[H|H]].
  - specialize (L H). repeat split; intro; try lia; try lra; auto.
  - specialize (S H). repeat split; intro; try lia; try lra; auto.
  - specialize (M H). repeat split; intro; try lia; try lra; auto.
Qed.

Lemma nothing_over a : (0 < a < 2 ^ 53)%Z -> ratio a 0 = S754_infinity false.
Proof.
  intro H. destruct (whole64 a) as (V & F & E); [lia|]. unfold ratio. change (f64_of_Z 0) with (S754_zero false).
  assert (P : (0 < R64 (f64_of_Z a))%R) by (rewrite E; apply (IZR_lt 0); lia).
  destruct (f64_of_Z a) as [s|s| |s m e]; try discriminate F.
  - unfold R64 in P. cbn in P. lra.
  - destruct s; [|vm_compute; reflexivity]. exfalso. unfold R64, SF2R, F2R in P. cbn [cond_Zopp Fnum Fexp] in P.
    pose proof (bpow_gt_0 radix2 e). assert (IZR (Z.neg m) < 0)%R by (apply IZR_lt; reflexivity). cbn in P. nra.
Qed.

Theorem report_overstated : forall V (c : CacheModel.cache V), (0 < CacheModel.hits c < 2 ^ 53)%Z -> (0 < CacheModel.misses c < 2 ^ 52 - 1)%Z ->
  (100 * (IZR (CacheModel.hits c) / IZR (CacheModel.hits c + CacheModel.misses c)) < R64 (r_hit_ratio (cache_report c)))%R.
Proof. intros V c H M. apply overstated; lia. Qed.

Theorem report_no_misses : forall V (c : CacheModel.cache V), CacheModel.misses c = 0%Z ->
  (CacheModel.hits c = 0%Z -> r_hit_ratio (cache_report c) = S754_nan) /\
  ((0 < CacheModel.hits c < 2 ^ 53)%Z -> r_hit_ratio (cache_report c) = S754_infinity false).
Proof.
  intros V c M. unfold cache_report. cbn [r_hit_ratio]. rewrite M. split.
  - intros ->. reflexivity.
  - exact (nothing_over (CacheModel.hits c)).
Qed.

(** The f32 operations of the model as rounded operations on real numbers
    (through Flocq; adds the axioms of Coq's real numbers). *)
From Coq Require Import Reals Floats.SpecFloat Psatz.
From Flocq Require Import Core.Core IEEE754.BinarySingleNaN.
Require Import Flocq.Prop.Relative.
From Verif Require Import Machine FloatModel.

Local Instance prec32_pos : FLX.Prec_gt_0 prec32 := eq_refl _.
Local Instance prec32_emax : Prec_lt_emax prec32 emax32 := eq_refl _.

Notation valid32 x := (SpecFloat.valid_binary prec32 emax32 x = true).
Definition fin32 (x : f32) : Prop := is_finite_SF x = true.
Definition R32 (x : f32) : R := SF2R radix2 x.
Definition RN (x : R) : R := round radix2 (SpecFloat.fexp prec32 emax32) ZnearestE x.
Definition in_range32 (x : R) : Prop := (Rabs (RN x) < bpow radix2 emax32)%R.

Local Notation bf := (binary_float prec32 emax32).

Lemma rne_equiv s m l : round_nearest_even m l = choice_mode mode_NE s m l.
Proof.
  case l; [reflexivity|intro c]. case c; [|reflexivity..].
  now cbn; unfold Round.cond_incr; case Z.even.
Qed.

Lemma round_aux_equiv sx mx ex lx :
  SpecFloat.binary_round_aux prec32 emax32 sx mx ex lx
  = BinarySingleNaN.binary_round_aux prec32 emax32 mode_NE sx mx ex lx.
Proof.
  unfold SpecFloat.binary_round_aux, BinarySingleNaN.binary_round_aux.
  set (mrse' := shr_fexp _ _ _). case mrse'; intros mrs' e'. cbn beta iota zeta.
  now rewrite (rne_equiv sx).
Qed.

Lemma round_equiv s m e :
  SpecFloat.binary_round prec32 emax32 s m e = BinarySingleNaN.binary_round prec32 emax32 mode_NE s m e.
Proof.
  unfold SpecFloat.binary_round, BinarySingleNaN.binary_round, shl_align_fexp.
  set (mez := shl_align _ _ _); case mez as [mz ez]. apply round_aux_equiv.
Qed.

Lemma normalize_equiv m e sz :
  SpecFloat.binary_normalize prec32 emax32 m e sz
  = B2SF (BinarySingleNaN.binary_normalize prec32 emax32 prec32_pos prec32_emax mode_NE m e sz).
Proof.
  case m as [|q|q]; [reflexivity| |];
    unfold SpecFloat.binary_normalize, BinarySingleNaN.binary_normalize; rewrite B2SF_SF2B; apply round_equiv.
Qed.

Lemma mul_equiv (x y : bf) : f32_mul (B2SF x) (B2SF y) = B2SF (Bmult mode_NE x y).
Proof.
  destruct x as [sx|sx| |sx mx ex Bx], y as [sy|sy| |sy my ey By]; try reflexivity.
  unfold f32_mul. cbn [B2SF SFmul Bmult]. rewrite B2SF_SF2B. apply round_aux_equiv.
Qed.

Lemma add_equiv (x y : bf) : f32_add (B2SF x) (B2SF y) = B2SF (Bplus mode_NE x y).
Proof.
  destruct x as [sx|sx| |sx mx ex Bx], y as [sy|sy| |sy my ey By];
    try reflexivity; unfold f32_add; cbn [B2SF SFadd Bplus].
  - now destruct (Bool.eqb sx sy).
  - now destruct (Bool.eqb sx sy).
  - apply normalize_equiv.
Qed.

Lemma sub_equiv (x y : bf) : f32_sub (B2SF x) (B2SF y) = B2SF (Bminus mode_NE x y).
Proof.
  destruct x as [sx|sx| |sx mx ex Bx], y as [sy|sy| |sy my ey By];
    try reflexivity; unfold f32_sub; cbn [B2SF SFsub Bminus].
  - now destruct (Bool.eqb sx (negb sy)).
  - now destruct (Bool.eqb sx (negb sy)).
  - unfold Fplus_naive. rewrite cond_Zopp_negb. unfold Zminus in *. apply normalize_equiv.
Qed.

Lemma div_equiv (x y : bf) : f32_div (B2SF x) (B2SF y) = B2SF (Bdiv mode_NE x y).
Proof.
  destruct x as [sx|sx| |sx mx ex Bx], y as [sy|sy| |sy my ey By];
    try reflexivity; unfold f32_div; cbn [B2SF SFdiv Bdiv].
  rewrite B2SF_SF2B. set (melz := SFdiv_core_binary _ _ _ _ _ _).
  case melz as [[mz ez] lz]. apply round_aux_equiv.
Qed.

Lemma to_bf (x : f32) : valid32 x -> exists b : bf, x = B2SF b /\ R32 x = B2R b /\ is_finite_SF x = is_finite b.
Proof.
  intro V. exists (SF2B x V). split; [symmetry; apply B2SF_SF2B|]. split.
  - symmetry. apply B2R_SF2B.
  - symmetry. apply is_finite_SF2B.
Qed.

Lemma of_bf (b : bf) : valid32 (B2SF b) /\ R32 (B2SF b) = B2R b /\ is_finite_SF (B2SF b) = is_finite b.
Proof.
  split; [apply valid_binary_B2SF|]. split; [apply SF2R_B2SF|apply is_finite_SF_B2SF].
Qed.

Lemma mul_valid x y : valid32 x -> valid32 y -> valid32 (f32_mul x y).
Proof. intros H K. destruct (to_bf x H) as (a & -> & _), (to_bf y K) as (b & -> & _). rewrite mul_equiv. apply of_bf. Qed.
Lemma add_valid x y : valid32 x -> valid32 y -> valid32 (f32_add x y).
Proof. intros H K. destruct (to_bf x H) as (a & -> & _), (to_bf y K) as (b & -> & _). rewrite add_equiv. apply of_bf. Qed.
Lemma sub_valid x y : valid32 x -> valid32 y -> valid32 (f32_sub x y).
Proof. intros H K. destruct (to_bf x H) as (a & -> & _), (to_bf y K) as (b & -> & _). rewrite sub_equiv. apply of_bf. Qed.
Lemma div_valid x y : valid32 x -> valid32 y -> valid32 (f32_div x y).
Proof. intros H K. destruct (to_bf x H) as (a & -> & _), (to_bf y K) as (b & -> & _). rewrite div_equiv. apply of_bf. Qed.

Lemma mul_real x y : valid32 x -> valid32 y -> fin32 x -> fin32 y -> in_range32 (R32 x * R32 y) ->
  fin32 (f32_mul x y) /\ R32 (f32_mul x y) = RN (R32 x * R32 y).
Proof.
  intros H K F G O. destruct (to_bf x H) as (a & -> & Ra & Fa), (to_bf y K) as (b & -> & Rb & Fb).
  rewrite mul_equiv. destruct (of_bf (Bmult mode_NE a b)) as (_ & Rc & Fc). unfold fin32 in *.
  pose proof (Bmult_correct prec32 emax32 _ _ mode_NE a b) as C.
  rewrite Ra, Rb in *. rewrite Rlt_bool_true in C by exact O. destruct C as (C1 & C2 & _).
  rewrite Fc, C2, Rc, C1. split; [|reflexivity]. now rewrite <- Fa, <- Fb, F, G.
Qed.

Lemma add_real x y : valid32 x -> valid32 y -> fin32 x -> fin32 y -> in_range32 (R32 x + R32 y) ->
  fin32 (f32_add x y) /\ R32 (f32_add x y) = RN (R32 x + R32 y).
Proof.
  intros H K F G O. destruct (to_bf x H) as (a & -> & Ra & Fa), (to_bf y K) as (b & -> & Rb & Fb).
  rewrite add_equiv. destruct (of_bf (Bplus mode_NE a b)) as (_ & Rc & Fc). unfold fin32 in *.
  pose proof (Bplus_correct prec32 emax32 _ _ mode_NE a b) as C.
  rewrite Ra, Rb in *. specialize (C ltac:(congruence) ltac:(congruence)).
  rewrite Rlt_bool_true in C by exact O. destruct C as (C1 & C2 & _).
  rewrite Fc, C2, Rc, C1. split; reflexivity.
Qed.

Lemma sub_real x y : valid32 x -> valid32 y -> fin32 x -> fin32 y -> in_range32 (R32 x - R32 y) ->
  fin32 (f32_sub x y) /\ R32 (f32_sub x y) = RN (R32 x - R32 y).
Proof.
  intros H K F G O. destruct (to_bf x H) as (a & -> & Ra & Fa), (to_bf y K) as (b & -> & Rb & Fb).
  rewrite sub_equiv. destruct (of_bf (Bminus mode_NE a b)) as (_ & Rc & Fc). unfold fin32 in *.
  pose proof (Bminus_correct prec32 emax32 _ _ mode_NE a b) as C.
  rewrite Ra, Rb in *. specialize (C ltac:(congruence) ltac:(congruence)).
  rewrite Rlt_bool_true in C by exact O. destruct C as (C1 & C2 & _).
  rewrite Fc, C2, Rc, C1. split; reflexivity.
Qed.

Lemma div_real x y : valid32 x -> valid32 y -> fin32 x -> R32 y <> 0%R -> in_range32 (R32 x / R32 y) ->
  fin32 (f32_div x y) /\ R32 (f32_div x y) = RN (R32 x / R32 y).
Proof.
  intros H K F NZ O. destruct (to_bf x H) as (a & -> & Ra & Fa), (to_bf y K) as (b & -> & Rb & Fb).
  rewrite div_equiv. destruct (of_bf (Bdiv mode_NE a b)) as (_ & Rc & Fc). unfold fin32 in *.
  pose proof (Bdiv_correct prec32 emax32 _ _ mode_NE a b) as C.
  rewrite Ra, Rb in *. specialize (C NZ).
  rewrite Rlt_bool_true in C by exact O. destruct C as (C1 & C2 & _).
  rewrite Fc, C2, Rc, C1. split; [congruence|reflexivity].
Qed.

Lemma of_Z_real z : in_range32 (IZR z) ->
  valid32 (f32_of_Z z) /\ fin32 (f32_of_Z z) /\ R32 (f32_of_Z z) = RN (IZR z).
Proof.
  intro O. unfold f32_of_Z. rewrite normalize_equiv.
  set (b := BinarySingleNaN.binary_normalize _ _ _ _ _ _ _ _).
  destruct (of_bf b) as (V & Rb & Fb). split; [exact V|]. unfold fin32.
  pose proof (binary_normalize_correct prec32 emax32 prec32_pos prec32_emax mode_NE z 0 false) as C.
  cbn zeta in C. assert (E : F2R (Float radix2 z 0) = IZR z) by (unfold F2R; cbn; ring).
  rewrite E in C. rewrite Rlt_bool_true in C by exact O. fold b in C. destruct C as (C1 & C2 & _).
  rewrite Fb, Rb. split; [exact C2|exact C1].
Qed.

Global Instance fexp32_valid : Valid_exp (SpecFloat.fexp prec32 emax32).
Proof. apply (fexp_correct prec32 emax32). exact prec32_pos. Qed.

Lemma RN_mono x y : (x <= y)%R -> (RN x <= RN y)%R.
Proof. apply round_le; apply _. Qed.

Lemma valid_generic x : valid32 x -> generic_format radix2 (SpecFloat.fexp prec32 emax32) (R32 x).
Proof. intro V. destruct (to_bf x V) as (b & _ & -> & _). apply generic_format_B2R. Qed.

Lemma RN_valid x : valid32 x -> RN (R32 x) = R32 x.
Proof. intro V. apply round_generic; [apply _|now apply valid_generic]. Qed.

(** Integers up to 2^24 are exact. *)
Lemma generic_Z z : (Z.abs z <= 2 ^ 24)%Z -> generic_format radix2 (SpecFloat.fexp prec32 emax32) (IZR z).
Proof.
  intro H. change (SpecFloat.fexp prec32 emax32) with (FLT_exp (-149) 24).
  destruct (Z.eq_dec (Z.abs z) (2 ^ 24)) as [E|NE].
  - apply generic_format_FLT.
    exists (Float radix2 (Z.sgn z) 24); cbn [Fnum Fexp]; [|destruct z; cbn; lia|lia].
    unfold F2R. cbn [Fnum Fexp]. rewrite <- IZR_Zpower by lia. rewrite <- mult_IZR. f_equal.
    change (radix2 : Z) with 2%Z. destruct z; cbn in *; lia.
  - apply generic_format_FLT. exists (Float radix2 z 0); cbn [Fnum Fexp]; [|change (radix2 : Z) with 2%Z; lia|lia].
    unfold F2R. cbn. ring.
Qed.

Lemma RN_Z z : (Z.abs z <= 2 ^ 24)%Z -> RN (IZR z) = IZR z.
Proof. intro H. apply round_generic; [apply _|now apply generic_Z]. Qed.

Lemma in_range_le x z : (Z.abs z <= 2 ^ 24)%Z -> (Rabs x <= IZR z)%R -> in_range32 x.
Proof.
  intros H L. unfold in_range32.
  assert (0 <= IZR z)%R by (eapply Rle_trans; [apply Rabs_pos|exact L]).
  assert (Rabs (RN x) <= IZR z)%R.
  { apply Rabs_le. apply Rabs_le_inv in L. rewrite <- (RN_Z z H) at 2. split.
    - replace (- IZR z)%R with (RN (- IZR z)); [apply RN_mono; lra|].
      rewrite <- opp_IZR. apply RN_Z. lia.
    - apply RN_mono; lra. }
  eapply Rle_lt_trans; [eassumption|]. apply Rle_lt_trans with (IZR (2 ^ 24)).
  - apply IZR_le. lia.
  - change (2 ^ 24)%Z with (Zpower radix2 24). rewrite IZR_Zpower by lia. apply bpow_lt. reflexivity.
Qed.

Lemma small_real z : (Z.abs z <= 2 ^ 24)%Z ->
  valid32 (f32_of_Z z) /\ fin32 (f32_of_Z z) /\ R32 (f32_of_Z z) = IZR z.
Proof.
  intro H. destruct (of_Z_real z) as (V & F & E).
  - apply (in_range_le _ (Z.abs z)); [lia|]. rewrite <- abs_IZR. apply Rle_refl.
  - rewrite RN_Z in E by exact H. auto.
Qed.

(** ** Error bounds *)
Definition eps32 : R := (/ 16777216)%R.          (* 2^-24 *)
Definition eta32 : R := bpow radix2 (-150).

Lemma RN_err x : (Rabs (RN x - x) <= eps32 * Rabs x + eta32)%R.
Proof.
  destruct (error_N_FLT radix2 (-149) 24 ltac:(reflexivity) (fun z => negb (Z.even z)) x) as (e & t & E & T & _ & X).
  unfold RN. change (SpecFloat.fexp prec32 emax32) with (FLT_exp (-149) 24). rewrite X.
  replace (x * (1 + e) + t - x)%R with (x * e + t)%R by ring.
  eapply Rle_trans; [apply Rabs_triang|]. apply Rplus_le_compat.
  - rewrite Rabs_mult, Rmult_comm. apply Rmult_le_compat_r; [apply Rabs_pos|].
    eapply Rle_trans; [exact E|]. change (- (24) + 1)%Z with (-23)%Z.
    change (bpow radix2 (-23)) with (/ IZR (2 ^ 23))%R. unfold eps32. change (2 ^ 23)%Z with 8388608%Z. lra.
  - eapply Rle_trans; [exact T|]. unfold eta32. right.
    change (-149)%Z with (1 + -150)%Z. rewrite bpow_plus. change (bpow radix2 1) with 2%R. field.
Qed.

Lemma in_range_bpow x e : (e < 128)%Z -> (-149 <= e)%Z -> (Rabs x <= bpow radix2 e)%R -> in_range32 x.
Proof.
  intros H He L. unfold in_range32. apply Rle_lt_trans with (bpow radix2 e).
  - unfold RN. apply abs_round_le_generic; [apply _|apply _| |exact L].
    change (SpecFloat.fexp prec32 emax32) with (FLT_exp (-149) 24).
    apply generic_format_FLT_bpow; [reflexivity|exact He].
  - apply bpow_lt. exact H.
Qed.

Lemma RN_0 : RN 0 = 0%R.
Proof. apply round_0. apply _. Qed.

Lemma RN_opp x : RN (- x) = (- RN x)%R.
Proof. unfold RN. apply round_NE_opp. Qed.

Lemma neg_real x : R32 (f32_neg x) = (- R32 x)%R /\ (fin32 x -> fin32 (f32_neg x)) /\ (valid32 x -> valid32 (f32_neg x)).
Proof.
  destruct x as [s|s| |s m e]; unfold R32, f32_neg, fin32; cbn [SFopp SF2R is_finite_SF].
  - split; [ring|auto].
  - split; [ring|auto].
  - split; [ring|auto].
  - split; [|auto]. rewrite <- F2R_Zopp. f_equal. f_equal. now destruct s.
Qed.

(** ** Fractions k/n computed as k * (1/n) *)
Lemma tie_to_one : RN (1 + eps32) = 1%R.
Proof.
  set (h := S754_finite false 8388608 (-47)).
  assert (H : R32 h = eps32).
  { unfold R32, h, SF2R, F2R. cbn [Fnum Fexp cond_Zopp]. change (bpow radix2 (-47)) with (/ IZR (2 ^ 47))%R.
    change (2 ^ 47)%Z with 140737488355328%Z. unfold eps32. lra. }
  assert (O : R32 f32_one = 1%R) by (apply (small_real 1); lia).
  destruct (add_real f32_one h) as (_ & E); [reflexivity..| |].
  - rewrite O, H. apply (in_range_le _ 2); [lia|]. unfold eps32. rewrite Rabs_pos_eq; lra.
  - rewrite O, H in E. rewrite <- E. exact O.
Qed.

Section Fraction.
Variables k n : Z.
Hypothesis N : (1 <= n <= 2 ^ 24)%Z.
Hypothesis K : (0 <= k <= n)%Z.

Let r : f32 := f32_div f32_one (f32_of_Z n).
Definition frac : f32 := f32_mul (f32_of_Z k) r.

Lemma inv_n : (0 < eps32 /\ eps32 <= / IZR n <= 1)%R /\ (0 < IZR n)%R.
Proof.
  assert (1 <= IZR n)%R by (apply IZR_le; lia). assert (IZR n <= 16777216)%R by (apply IZR_le; lia).
  split; [|lra]. split; [unfold eps32; lra|]. split.
  - unfold eps32. apply Rinv_le; lra.
  - rewrite <- Rinv_1. apply Rinv_le; lra.
Qed.

Lemma r_real : valid32 r /\ fin32 r /\ R32 r = RN (/ IZR n).
Proof.
  destruct (small_real 1 ltac:(lia)) as (V1 & F1 & E1).
  destruct (small_real n ltac:(lia)) as (V2 & F2 & E2). destruct inv_n as (I & P).
  split; [now apply div_valid|]. unfold r. rewrite <- (Rmult_1_l (/ IZR n)).
  replace (1 * / IZR n)%R with (R32 f32_one / R32 (f32_of_Z n))%R by (change f32_one with (f32_of_Z 1); rewrite E1, E2; reflexivity).
  apply div_real; auto.
  - rewrite E2. lra.
  - change f32_one with (f32_of_Z 1). rewrite E1, E2. apply (in_range_le _ 1); [lia|].
    unfold Rdiv. rewrite Rmult_1_l. rewrite Rabs_pos_eq; lra.
Qed.

(** 1/n is normal, so its rounding error is relative. *)
Lemma r_bounds : (/ IZR n * (1 - eps32) <= R32 r <= / IZR n * (1 + eps32))%R.
Proof.
  destruct r_real as (_ & _ & ->). destruct inv_n as (I & P).
  assert (E : (Rabs (RN (/ IZR n) - / IZR n) <= eps32 * / IZR n)%R).
  { pose proof (relative_error_N_FLT radix2 (-149) 24 ltac:(reflexivity) (fun z => negb (Z.even z)) (/ IZR n)) as Q.
    unfold RN. change (SpecFloat.fexp prec32 emax32) with (FLT_exp (-149) 24).
    eapply Rle_trans; [apply Q|].
    - rewrite Rabs_pos_eq by lra. apply Rle_trans with (bpow radix2 (-24)).
      + apply bpow_le. lia.
      + change (bpow radix2 (-24)) with (/ IZR (2 ^ 24))%R. unfold eps32 in I. change (2 ^ 24)%Z with 16777216%Z. lra.
    - rewrite Rabs_pos_eq by lra. change (- (24) + 1)%Z with (-23)%Z. change (bpow radix2 (-23)) with (/ IZR (2 ^ 23))%R.
      unfold eps32. change (2 ^ 23)%Z with 8388608%Z. lra. }
  apply Rabs_le_inv in E. lra.
Qed.

Lemma frac_real :
  valid32 frac /\ fin32 frac /\ (0 <= R32 frac <= 1)%R /\ (Rabs (R32 frac - IZR k / IZR n) <= 3 * eps32)%R.
Proof.
  destruct r_real as (Vr & Fr & Er). pose proof r_bounds as B. destruct inv_n as (I & P).
  destruct (small_real k ltac:(lia)) as (Vk & Fk & Ek).
  assert (K0 : (0 <= IZR k)%R) by (apply IZR_le; lia).
  assert (K1 : (IZR k <= IZR n)%R) by (apply IZR_le; lia).
  assert (EP : (0 < eps32 < / 2)%R) by (unfold eps32; lra).
  set (t := (IZR k / IZR n)%R).
  assert (T : (0 <= t <= 1)%R).
  { unfold t. split; [apply Rmult_le_pos; lra|]. apply (Rmult_le_reg_r (IZR n)); [lra|]. unfold Rdiv.
    rewrite Rmult_assoc, Rinv_l by lra. lra. }
  assert (M : (t * (1 - eps32) <= IZR k * R32 r <= t * (1 + eps32))%R).
  { replace (t * (1 - eps32))%R with (IZR k * (/ IZR n * (1 - eps32)))%R by (unfold t; field; lra).
    replace (t * (1 + eps32))%R with (IZR k * (/ IZR n * (1 + eps32)))%R by (unfold t; field; lra).
    split; apply Rmult_le_compat_l; lra. }
  assert (M0 : (0 <= IZR k * R32 r)%R) by (eapply Rle_trans; [|apply M]; apply Rmult_le_pos; lra).
  assert (M1 : (IZR k * R32 r <= 1 + eps32)%R).
  { eapply Rle_trans; [apply M|]. rewrite <- (Rmult_1_l (1 + eps32)) at 2. apply Rmult_le_compat_r; lra. }
  destruct (mul_real (f32_of_Z k) r) as (F & E); auto.
  { rewrite Ek. apply (in_range_le _ 2); [lia|]. rewrite Rabs_pos_eq by lra. lra. }
  rewrite Ek in E. fold frac in F, E. split; [now apply mul_valid|]. split; [exact F|].
  assert (Up : (R32 frac <= 1)%R) by (rewrite E, <- tie_to_one; now apply RN_mono).
  assert (Lo : (0 <= R32 frac)%R) by (rewrite E, <- RN_0; now apply RN_mono).
  split; [lra|].
  pose proof (RN_err (IZR k * R32 r)) as Q. rewrite <- E in Q. rewrite (Rabs_pos_eq (IZR k * R32 r)) in Q by lra.
  assert (ET : (eta32 <= / 4 * eps32)%R).
  { unfold eta32, eps32. apply Rle_trans with (bpow radix2 (-26)); [apply bpow_le; lia|].
    change (bpow radix2 (-26)) with (/ IZR (2 ^ 26))%R. change (2 ^ 26)%Z with 67108864%Z. lra. }
  apply Rabs_le_inv in Q. apply Rabs_le. fold t.
  assert (t * eps32 <= eps32)%R by (rewrite <- (Rmult_1_l eps32) at 2; apply Rmult_le_compat_r; lra).
  assert (0 <= t * eps32)%R by (apply Rmult_le_pos; lra).
  assert (eps32 * (IZR k * R32 r) <= eps32 * (1 + eps32))%R by (apply Rmult_le_compat_l; lra).
  assert (eps32 * (1 + eps32) <= 3 / 2 * eps32)%R by (rewrite Rmult_comm; apply Rmult_le_compat_r; lra).
  lra.
Qed.
End Fraction.

(** Later fractions are not smaller. *)
Lemma frac_mono k k' n : (1 <= n <= 2 ^ 24)%Z -> (0 <= k <= k')%Z -> (k' <= n)%Z ->
  (R32 (frac k n) <= R32 (frac k' n))%R.
Proof.
  intros N K K'. destruct (r_real n N) as (Vr & Fr & Er). pose proof (r_bounds n N) as B.
  destruct (inv_n n N) as (I & P). set (r := f32_div f32_one (f32_of_Z n)) in *.
  assert (R0 : (0 <= R32 r)%R).
  { eapply Rle_trans; [|apply B]. apply Rmult_le_pos; unfold eps32 in *; lra. }
  assert (X : forall j, (0 <= j <= n)%Z -> R32 (frac j n) = RN (IZR j * R32 r)).
  { intros j J. destruct (small_real j ltac:(lia)) as (Vk & Fk & Ek). unfold frac. fold r.
    destruct (mul_real (f32_of_Z j) r) as (_ & E); auto.
    - rewrite Ek. apply (in_range_le _ 2); [lia|].
      assert (0 <= IZR j)%R by (apply IZR_le; lia). assert (IZR j <= IZR n)%R by (apply IZR_le; lia).
      rewrite Rabs_pos_eq by (apply Rmult_le_pos; lra).
      apply Rle_trans with (IZR n * (/ IZR n * (1 + eps32)))%R.
      + apply Rmult_le_compat; lra.
      + rewrite <- Rmult_assoc, Rinv_r by lra. unfold eps32. lra.
    - now rewrite Ek in E. }
  rewrite !X by lia. apply RN_mono. apply Rmult_le_compat_r; [exact R0|apply IZR_le; lia].
Qed.

Lemma frac_zero n : (1 <= n <= 2 ^ 24)%Z -> frac 0 n = S754_zero false.
Proof.
  intro N. destruct (r_real n N) as (_ & F & _). pose proof (r_bounds n N) as B. destruct (inv_n n N) as (I & P).
  unfold frac. change (f32_of_Z 0) with (S754_zero false).
  assert (R0 : (0 < R32 (f32_div f32_one (f32_of_Z n)))%R).
  { eapply Rlt_le_trans; [|apply B]. apply Rmult_lt_0_compat; unfold eps32 in *; lra. }
  destruct (f32_div f32_one (f32_of_Z n)) as [s|s| |s m e]; try discriminate F.
  - cbn in R0. exfalso. revert R0. unfold R32, SF2R. lra.
  - unfold f32_mul. cbn [SFmul]. destruct s; [|reflexivity]. exfalso. unfold R32, SF2R in R0.
    pose proof (F2R_lt_0 radix2 (Float radix2 (Zneg m) e) ltac:(reflexivity)). cbn [cond_Zopp Z.opp] in R0. lra.
Qed.

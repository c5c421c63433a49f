(** Proofs for C97 (uses the axioms of Coq's real numbers). *)
From Coq Require Import Reals Floats.SpecFloat Psatz.
From Flocq Require Import Core.Core IEEE754.BinarySingleNaN.
From Verif Require Import Machine Loops FloatModel FloatReal GeomReal PixelModel MergeSpec BakeSpec LineProofs UndoPower CrateReal
  PixelConvProofs LevelSpec.
Local Open Scope R_scope.

Definition clamp (n z : Z) : Z := Z.max 0 (Z.min n z).

Lemma opp_real m e : R32 (S754_finite true m e) = - R32 (S754_finite false m e).
Proof. unfold R32, SF2R, F2R. cbn [Fnum Fexp cond_Zopp]. change (Z.neg m) with (- Z.pos m)%Z. rewrite opp_IZR. ring. Qed.
Lemma floor_is z r : IZR z <= r < IZR z + 1 -> Zfloor r = z.
Proof. intros H. apply Zfloor_imp. rewrite plus_IZR. exact H. Qed.

(** A finite float as an unsigned integer. *)
Lemma as_int_real n v : (0 <= n)%Z -> fin32 v -> f_as_int 0 n v = clamp n (Zfloor (R32 v)).
Proof.
  intros N F. destruct v as [s|s| |s m e]; try discriminate; cbn [f_as_int]; unfold clamp.
  - replace (R32 (S754_zero s)) with (IZR 0) by reflexivity. rewrite Zfloor_IZR. lia.
  - pose proof (trunc_bounds m e) as T. set (t := mag_trunc m e) in *.
    assert (P : (0 <= t)%Z) by (unfold t, mag_trunc; destruct (0 <=? e)%Z; [apply Z.shiftl_nonneg|apply Z.shiftr_nonneg]; lia).
    destruct s; cbn [cond_Zopp].
    + assert (Zfloor (R32 (S754_finite true m e)) <= 0)%Z; [|lia].
      apply le_IZR. eapply Rle_trans; [apply Zfloor_lb|]. rewrite opp_real. apply IZR_le in P. lra.
    + now rewrite (floor_is t _ T).
Qed.

Lemma mul_sized x n : valid32 x -> fin32 x -> (0 < n <= 65535)%Z -> let v := f32_mul x (f32_of_Z n) in
  if Rlt_bool (Rabs (RN (R32 x * IZR n))) (bpow radix2 128) then fin32 v /\ R32 v = RN (R32 x * IZR n)
  else v = S754_infinity (match x with S754_finite s _ _ => s | _ => false end) /\ x <> S754_zero true /\ x <> S754_zero false.
Proof.
  intros V F N v. destruct (small_real n ltac:(lia)) as (Vn & Fn & En).
  destruct (Rlt_bool_spec (Rabs (RN (R32 x * IZR n))) (bpow radix2 128)) as [L|L].
  - rewrite <- En in L |- *. exact (mul_real x (f32_of_Z n) V Vn F Fn L).
  - assert (NZ : R32 x <> 0).
    { intro E. rewrite E, Rmult_0_l, RN_0, Rabs_R0 in L. pose proof (bpow_gt_0 radix2 128). lra. }
    split; [|split; intros ->; apply NZ; reflexivity].
    destruct (to_bf x V) as (b & -> & Eb & Fb). destruct (to_bf _ Vn) as (c & Ec & Rc & Fc).
    unfold v. rewrite Ec, mul_equiv. pose proof (Bmult_correct prec32 emax32 prec32_pos prec32_emax mode_NE b c) as C.
    rewrite Rc in En. rewrite Eb in L. rewrite En in C. unfold RN in L. 
    rewrite Rlt_bool_false in C by exact L. rewrite C. unfold binary_overflow, overflow_to_inf. 
    assert (Sc : Bsign c = false).
    { destruct (Bsign c) eqn:S; [|reflexivity]. exfalso. assert (0 < B2R c) by (rewrite En; apply IZR_lt; lia).
      destruct c as [s|s| |s m e B]; cbn [B2R Bsign] in *; subst; try lra. unfold F2R in H. cbn [Fnum Fexp cond_Zopp] in H.
      change (- Z.pos m)%Z with (Z.neg m) in H. assert (IZR (Z.neg m) < 0) by (apply IZR_lt; lia). pose proof (bpow_gt_0 radix2 e) as BP. clear - H H0 BP. assert (IZR (Z.neg m) * bpow radix2 e < 0) by (rewrite <- (Rmult_0_l (bpow radix2 e)); apply Rmult_lt_compat_r; assumption). lra. }
    rewrite Sc, xorb_false_r. destruct b as [s|s| |s m e B]; try reflexivity; try discriminate F. exfalso. rewrite Eb in NZ. cbn in NZ. lra.
Qed.

Lemma big_128 : 16777216 <= bpow radix2 128.
Proof. change (bpow radix2 128) with (IZR (2 ^ 128)). apply IZR_le. discriminate. Qed.

Lemma to_level n x : valid32 x -> fin32 x -> (0 < n <= 65535)%Z ->
  f_as_int 0 n (f32_mul x (f32_of_Z n)) = clamp n (Zfloor (RN (R32 x * IZR n))).
Proof.
  intros V F N. pose proof (mul_sized x n V F N) as M. cbn zeta in M. pose proof big_128 as BG.
  destruct (Rlt_bool_spec (Rabs (RN (R32 x * IZR n))) (bpow radix2 128)) as [L|L].
  - destruct M as (Fv & Ev). rewrite as_int_real by (lia || exact Fv). now rewrite Ev.
  - destruct M as (-> & N1 & N2). cbn [f_as_int]. assert (NP : 0 < IZR n) by (apply IZR_lt; lia).
    assert (NB : IZR n <= 65535) by (apply IZR_le; lia).
    destruct x as [s|s| |s m e]; try discriminate F; [destruct s; congruence|]. unfold clamp.
    assert (P : 0 < R32 (S754_finite false m e)) by (unfold R32, SF2R, F2R; cbn [Fnum Fexp cond_Zopp]; apply Rmult_lt_0_compat; [apply IZR_lt; lia|apply bpow_gt_0]).
    destruct s.
    + assert (Q : RN (R32 (S754_finite true m e) * IZR n) <= 0).
      { rewrite <- RN_0. apply RN_mono. rewrite opp_real. nra. }
      assert (Zfloor (RN (R32 (S754_finite true m e) * IZR n)) <= 0)%Z; [|lia].
      apply le_IZR. eapply Rle_trans; [apply Zfloor_lb|]. exact Q.
    + assert (Q : 0 <= RN (R32 (S754_finite false m e) * IZR n)) by (rewrite <- RN_0; apply RN_mono; nra).
      rewrite Rabs_pos_eq in L by exact Q.
      assert (n <= Zfloor (RN (R32 (S754_finite false m e) * IZR n)))%Z; [|lia].
      apply Zfloor_lub. lra.
Qed.

Definition level (n : Z) (x : f32) : Z := f_as_int 0 n (f32_mul x (f32_of_Z n)).

(** Comparisons with infinities in view. *)
Lemma finite_or x : valid32 x -> plain_value x \/ x = S754_infinity true \/ x = S754_infinity false \/ x = S754_nan.
Proof. intros V. destruct x as [s|[]| |s m e]; auto; left; split; auto; exact I. Qed.
Lemma level_neg n : (0 < n <= 65535)%Z -> level n (S754_infinity true) = 0%Z.
Proof. intros N. unfold level. destruct (small_real n ltac:(lia)) as (V & F & E). assert (0 < IZR n) by (apply IZR_lt; lia).
  destruct (f32_of_Z n) as [s|s| |s m e]; try discriminate F.
  - exfalso. cbn in E. lra.
  - destruct s; [exfalso|reflexivity]. rewrite opp_real in E. assert (P : 0 < R32 (S754_finite false m e)) by (unfold R32, SF2R, F2R; cbn [Fnum Fexp cond_Zopp]; apply Rmult_lt_0_compat; [apply IZR_lt; lia|apply bpow_gt_0]). lra.
Qed.
Lemma level_pos n : (0 < n <= 65535)%Z -> level n (S754_infinity false) = n.
Proof. intros N. unfold level. destruct (small_real n ltac:(lia)) as (V & F & E). assert (0 < IZR n) by (apply IZR_lt; lia).
  destruct (f32_of_Z n) as [s|s| |s m e]; try discriminate F.
  - exfalso. cbn in E. lra.
  - destruct s; [exfalso|reflexivity]. rewrite opp_real in E. assert (P : 0 < R32 (S754_finite false m e)) by (unfold R32, SF2R, F2R; cbn [Fnum Fexp cond_Zopp]; apply Rmult_lt_0_compat; [apply IZR_lt; lia|apply bpow_gt_0]). lra.
Qed.
Lemma level_nan n : level n S754_nan = 0%Z.
Proof. unfold level. destruct (f32_of_Z n); reflexivity. Qed.
Lemma level_plain n x : (0 < n <= 65535)%Z -> plain_value x -> level n x = clamp n (Zfloor (RN (R32 x * IZR n))).
Proof. intros N (V & F). apply to_level; auto. now apply fin_iff. Qed.
Lemma level_range n x : (0 < n <= 65535)%Z -> (0 <= level n x <= n)%Z.
Proof. intros N. apply f_as_int_range. lia. Qed.

Lemma level_mono n x y : (0 < n <= 65535)%Z -> valid32 x -> valid32 y -> f32_le x y = true -> (level n x <= level n y)%Z.
Proof.
  intros N Vx Vy L. pose proof (level_range n x N) as Rx. pose proof (level_range n y N) as Ry.
  destruct (finite_or x Vx) as [Px | [-> | [-> | ->]]].
  - destruct (finite_or y Vy) as [Py | [-> | [-> | ->]]].
    + rewrite (le_real x y Px Py) in L. apply Rle_bool_true_iff in L || (revert L; case Rle_bool_spec; [intros L _|discriminate]).
      rewrite !level_plain by auto. unfold clamp. assert (0 < IZR n) by (apply IZR_lt; lia).
      assert (Zfloor (RN (R32 x * IZR n)) <= Zfloor (RN (R32 y * IZR n)))%Z; [|lia].
      apply Zfloor_le, RN_mono. nra.
    + exfalso. destruct x as [s|[]| |s m e]; try discriminate L; destruct Px as (_ & []).
    + rewrite level_pos by exact N. lia.
    + exfalso. destruct x; discriminate L.
  - rewrite level_neg by exact N. lia.
  - destruct y as [s|[]| |s m e]; try discriminate L. lia.
  - discriminate L.
Qed.

Lemma level_right n x : (0 < n <= 65535)%Z -> valid32 x -> levelled n x (level n x).
Proof.
  intros N V. assert (NP : 0 < IZR n) by (apply IZR_lt; lia). assert (NB : IZR n <= 65535) by (apply IZR_le; lia).
  split; [now apply level_range|].
  assert (Z0 : level n f32_zero = 0%Z).
  { rewrite (level_plain n f32_zero N (plain_zero false)). replace (R32 f32_zero) with 0 by reflexivity. rewrite Rmult_0_l, RN_0. change 0 with (IZR 0). rewrite Zfloor_IZR. unfold clamp. lia. }
  assert (Z1 : level n f32_one = n).
  { rewrite (level_plain n f32_one N plain_one). destruct one_real as (_ & _ & ->). rewrite Rmult_1_l, RN_Z, Zfloor_IZR by lia. unfold clamp. lia. }
  split; [|split].
  - intros [-> | L]; [apply level_nan|]. pose proof (level_mono n x f32_zero N V (proj1 (plain_zero false)) L). pose proof (level_range n x N). lia.
  - intros L. pose proof (level_mono n f32_one x N (proj1 plain_one) V L). pose proof (level_range n x N). lia.
  - intros P (L & U). rewrite level_plain by auto. set (y := R32 x * IZR n).
    assert (Y : 0 <= y <= IZR n) by (unfold y; nra).
    assert (R0 : 0 <= RN y) by (rewrite <- RN_0; apply RN_mono; lra).
    assert (R1 : RN y <= IZR n) by (rewrite <- (RN_Z n) by lia; apply RN_mono; lra).
    assert (C : clamp n (Zfloor (RN y)) = Zfloor (RN y)).
    { assert (0 <= Zfloor (RN y))%Z by (apply Zfloor_lub; exact R0).
      assert (Zfloor (RN y) <= n)%Z by (apply le_IZR; eapply Rle_trans; [apply Zfloor_lb|exact R1]). unfold clamp. lia. }
    rewrite C. set (t := Zfloor (RN y)) in *. pose proof (Zfloor_lb (RN y)) as T1. pose proof (Zfloor_ub (RN y)) as T2. fold t in T1, T2.
    replace (IZR n * R32 x) with y by (unfold y; ring). split.
    + destruct (Rlt_le_dec (y - 1) (IZR t)) as [H|H]; [exact H|exfalso].
      assert (IZR (t + 1) <= RN y); [|rewrite plus_IZR in *; lra].
      assert (0 <= t)%Z by (apply Zfloor_lub; exact R0). assert (t <= n)%Z by (apply le_IZR; eapply Rle_trans; [apply Zfloor_lb|exact R1]).
      rewrite <- (RN_Z (t + 1)) by lia. apply RN_mono. rewrite plus_IZR. lra.
    + destruct (Z_le_gt_dec t 0) as [H|H].
      * apply IZR_le in H. assert (0 <= IZR n / 2 ^ 24) by (apply Rmult_le_pos; lra). lra.
      * assert (T3 : 1 <= IZR t) by (apply IZR_le; lia).
        pose proof (RN_err y) as E. rewrite (Rabs_pos_eq y) in E by lra. apply Rabs_le_inv in E.
        assert (B : eps32 * y + eta32 <= IZR n / 2 ^ 24 + eta32) by (unfold eps32; lra).
        (* above one the error is relative *)
        assert (y >= / 2).
        { destruct (Rlt_le_dec y (/ 2)) as [Q|Q]; [exfalso|lra]. pose proof LineReal.eta_small as (_ & ES). unfold LineReal.huge in ES. pose proof eta_pos. assert (eta32 <= / 1000) by nra. unfold eps32 in E. lra. }
        pose proof (RemapReal.RN_rel y) as RR. rewrite (Rabs_pos_eq y) in RR by lra.
        assert (bpow radix2 (-126) <= / 2) by (change (/ 2) with (bpow radix2 (-1)); apply bpow_le; lia).
        specialize (RR ltac:(lra)). apply Rabs_le_inv in RR. unfold eps32 in RR. lra.
Qed.

(** ** Levels as floats *)
Lemma shade_right n t : (0 < n <= 65535)%Z -> (0 <= t <= n)%Z -> shade_of n t (f32_div (f32_of_Z t) (f32_of_Z n)).
Proof.
  intros N T. assert (NP : 0 < IZR n) by (apply IZR_lt; lia).
  destruct (small_real n ltac:(lia)) as (Vn & Fn & En). destruct (small_real t ltac:(lia)) as (Vt & Ft & Et).
  assert (Q : 0 <= IZR t / IZR n <= 1).
  { destruct T as (T1 & T2). apply IZR_le in T1, T2. split; [apply Rmult_le_pos; [exact T1|left; now apply Rinv_0_lt_compat]|].
    apply (Rmult_le_reg_r (IZR n)); [exact NP|]. unfold Rdiv. rewrite Rmult_assoc, Rinv_l by lra. lra. }
  assert (O : in_range32 (R32 (f32_of_Z t) / R32 (f32_of_Z n))).
  { rewrite En, Et. apply (in_range_le _ 1); [lia|]. apply Rabs_le. lra. }
  destruct (div_real _ _ Vt Vn Ft ltac:(rewrite En; lra) O) as (Fd & Ed).
  split; [split; [now apply div_valid|now apply fin_iff]|]. rewrite Ed, En, Et. set (q := IZR t / IZR n) in *.
  destruct (Z.eq_dec t 0) as [-> | NZ].
  - replace q with 0 by (unfold q, Rdiv; ring). rewrite RN_0, Rminus_0_r, Rabs_R0. left. apply Rinv_0_lt_compat. lra.
  - assert (/ 65535 <= q).
    { assert (1 <= IZR t) by (apply IZR_le; lia). assert (IZR n <= 65535) by (apply IZR_le; lia).
      unfold q, Rdiv. apply Rle_trans with (1 * / IZR n); [rewrite Rmult_1_l; apply Rinv_le_contravar; lra|].
      apply Rmult_le_compat_r; [left; now apply Rinv_0_lt_compat|assumption]. }
    pose proof (RemapReal.RN_rel q) as RR. rewrite (Rabs_pos_eq q) in RR by lra.
    assert (bpow radix2 (-126) <= / 65535).
    { apply Rle_trans with (bpow radix2 (-16)); [apply bpow_le; lia|]. change (bpow radix2 (-16)) with (/ 65536). lra. }
    specialize (RR ltac:(lra)). unfold eps32 in RR. lra.
Qed.

(** ** Halves *)
Local Instance prec16_pos : FLX.Prec_gt_0 prec16 := eq_refl _.
Local Instance prec16_emax : Prec_lt_emax prec16 emax16 := eq_refl _.
Notation fexp16 := (SpecFloat.fexp prec16 emax16).
Global Instance fexp16_valid : Valid_exp fexp16.
Proof. apply (fexp_correct prec16 emax16). exact prec16_pos. Qed.

Lemma round16_equiv s m e :
  SpecFloat.binary_round prec16 emax16 s m e = BinarySingleNaN.binary_round prec16 emax16 mode_NE s m e.
Proof.
  unfold SpecFloat.binary_round, BinarySingleNaN.binary_round, shl_align_fexp.
  set (mez := shl_align _ _ _); case mez as [mz ez].
  unfold SpecFloat.binary_round_aux, BinarySingleNaN.binary_round_aux.
  set (mrse' := shr_fexp _ _ _). case mrse'; intros mrs' e'. cbn beta iota zeta. now rewrite (rne_equiv s).
Qed.
Lemma normalize16_equiv m e sz :
  SpecFloat.binary_normalize prec16 emax16 m e sz
  = B2SF (BinarySingleNaN.binary_normalize prec16 emax16 prec16_pos prec16_emax mode_NE m e sz).
Proof.
  case m as [|q|q]; [reflexivity| |];
    unfold SpecFloat.binary_normalize, BinarySingleNaN.binary_normalize; rewrite B2SF_SF2B; apply round16_equiv.
Qed.

Definition RN16 (x : R) : R := round radix2 fexp16 ZnearestE x.
Lemma tie_16 : RN16 65520 >= 65536.
Proof.
  pose proof (binary_normalize_correct prec16 emax16 prec16_pos prec16_emax mode_NE 65520 0 false) as C. cbn zeta in C.
  assert (E : F2R (Float radix2 65520 0) = 65520) by (unfold F2R; cbn; ring). rewrite E in C.
  assert (P : 0 <= RN16 65520).
  { unfold RN16. rewrite <- (round_0 radix2 fexp16 ZnearestE). apply round_le; try apply _. lra. }
  change (bpow radix2 emax16) with 65536 in C. change (round_mode mode_NE) with ZnearestE in C. fold (RN16 65520) in C. rewrite (Rabs_pos_eq _ P) in C.
  destruct (Rlt_bool_spec (RN16 65520) 65536) as [L|L]; [exfalso|lra]. destruct C as (_ & C & _). revert C. vm_compute. discriminate.
Qed.
Lemma half_generic h : is_half h -> generic_format radix2 fexp16 (R32 h).
Proof.
  intro V. unfold is_half in V. change 11%Z with prec16 in V. change 16%Z with emax16 in V.
  unfold R32. rewrite <- (B2R_SF2B prec16 emax16 h V). apply generic_format_B2R.
Qed.

Lemma greatest_half : generic_format radix2 fexp16 65504.
Proof.
  replace 65504 with (R32 (S754_finite false 2047 5)); [apply half_generic; reflexivity|].
  unfold R32, SF2R, F2R. cbn [Fnum Fexp cond_Zopp]. change (bpow radix2 5) with 32. lra.
Qed.
Lemma half_right x : nearest_half x (f16_of_f32 x).
Proof.
  unfold nearest_half. destruct x as [s|s| |s m e].
  - cbn [f16_of_f32 sf_convert]. split; [reflexivity|]. split; [intros _ _; split; [exact I|]; intros; replace (R32 (S754_zero s) - R32 (S754_zero s)) with 0 by ring; rewrite Rabs_R0; apply Rabs_pos|].
    replace (R32 (S754_zero s)) with 0 by reflexivity. split; [intros; lra|]. split; [intros; lra|]. intros H. destruct H. exact I.
  - cbn [f16_of_f32 sf_convert]. split; [reflexivity|]. split; [intros []|]. split; [intros []|]. split; [intros []|]. reflexivity.
  - cbn [f16_of_f32 sf_convert]. split; [reflexivity|]. split; [intros []|]. split; [intros []|]. split; [intros []|]. reflexivity.
  - set (x := S754_finite s m e). unfold f16_of_f32, sf_convert, x. fold x. rewrite normalize16_equiv.
    pose proof (binary_normalize_correct prec16 emax16 prec16_pos prec16_emax mode_NE (cond_Zopp s (Z.pos m)) e s) as C. cbn zeta in C.
    set (b := BinarySingleNaN.binary_normalize _ _ _ _ _ _ _ _) in *.
    change (F2R (Float radix2 (cond_Zopp s (Z.pos m)) e)) with (R32 x) in C. change (round_mode mode_NE) with ZnearestE in C. fold (RN16 (R32 x)) in C.
    change (bpow radix2 emax16) with 65536 in C.
    assert (RB : R32 (B2SF b) = B2R b) by (unfold R32; apply SF2R_B2SF).
    split; [apply valid_binary_B2SF|]. split; [|split; [|split]].
    + intros _ L. assert (RL : Rabs (RN16 (R32 x)) < 65536).
      { pose proof (round_N_pt radix2 fexp16 (fun z => negb (Z.even z)) (R32 x)) as (_ & PT). fold (RN16 (R32 x)) in PT.
        assert (G1 : generic_format radix2 fexp16 65504) by exact greatest_half.
        assert (G2 : generic_format radix2 fexp16 (- 65504)) by (apply generic_format_opp, G1).
        pose proof (PT _ G1) as P1. pose proof (PT _ G2) as P2. apply Rabs_def2 in L. apply Rabs_def1.
        - destruct (Rle_lt_dec (R32 x) 65504) as [Q|Q].
          + apply Rle_lt_trans with 65504; [|lra]. replace 65504 with (RN16 65504) by (apply round_generic; [apply _|exact G1]). apply round_le; try apply _. exact Q.
          + rewrite (Rabs_left1 (65504 - _)) in P1 by lra. apply Rabs_le_inv in P1. lra.
        - destruct (Rle_lt_dec (- 65504) (R32 x)) as [Q|Q].
          + apply Rlt_le_trans with (- 65504); [lra|]. replace (- 65504) with (RN16 (- 65504)) by (apply round_generic; [apply _|exact G2]). apply round_le; try apply _. exact Q.
          + rewrite (Rabs_pos_eq (- 65504 - _)) in P2 by lra. apply Rabs_le_inv in P2. lra. }
      rewrite Rlt_bool_true in C by exact RL. destruct C as (C1 & C2 & _). split; [destruct b; try discriminate C2; exact I|].
      intros y Hy _. rewrite RB, C1. apply (round_N_pt radix2 fexp16 (fun z => negb (Z.even z)) (R32 x)). now apply half_generic.
    + intros _ L. assert (RL : 65536 <= RN16 (R32 x)).
      { apply Rle_trans with (RN16 65520); [pose proof tie_16; lra|]. apply round_le; try apply _. exact L. }
      rewrite Rlt_bool_false in C by (rewrite Rabs_pos_eq; lra). rewrite C, Rlt_bool_false by lra. reflexivity.
    + intros _ L. assert (RL : RN16 (R32 x) <= - 65536).
      { apply Rle_trans with (RN16 (-65520)); [apply round_le; try apply _; exact L|]. replace (RN16 (-65520)) with (- RN16 65520) by (unfold RN16; rewrite <- round_NE_opp; f_equal; lra). pose proof tie_16. lra. }
      rewrite Rlt_bool_false in C by (rewrite Rabs_left1; lra). rewrite C, Rlt_bool_true by lra. reflexivity.
    + intros H. destruct H. exact I.
Qed.

Lemma half_widened h : is_half h -> f32_finite h -> plain_value (f32_of_f16 h) /\ R32 (f32_of_f16 h) = R32 h.
Proof.
  intros H F. pose proof (half_generic h H) as G. destruct h as [s|s| |s m e]; try destruct F.
  - split; [apply plain_zero|reflexivity].
  - set (x := S754_finite s m e) in *. unfold f32_of_f16, sf_convert, x. fold x. rewrite normalize_equiv.
    pose proof (binary_normalize_correct prec32 emax32 prec32_pos prec32_emax mode_NE (cond_Zopp s (Z.pos m)) e s) as C. cbn zeta in C.
    set (b := BinarySingleNaN.binary_normalize _ _ _ _ _ _ _ _) in *.
    change (F2R (Float radix2 (cond_Zopp s (Z.pos m)) e)) with (R32 x) in C. change (round_mode mode_NE) with ZnearestE in C. fold (RN (R32 x)) in C.
    assert (G2 : generic_format radix2 (SpecFloat.fexp prec32 emax32) (R32 x)).
    { apply (generic_inclusion_mag radix2 fexp16); [|exact G]. intros _. unfold SpecFloat.fexp, SpecFloat.emin, prec16, emax16, prec32, emax32. lia. }
    assert (E : RN (R32 x) = R32 x) by (apply round_generic; [apply _|exact G2]).
    assert (L : Rabs (R32 x) < bpow radix2 emax32).
    { apply Rlt_trans with (bpow radix2 emax16); [|apply bpow_lt; reflexivity].
      unfold R32. rewrite <- (B2R_SF2B prec16 emax16 x H). apply abs_B2R_lt_emax. }
    rewrite E, Rlt_bool_true in C by exact L. destruct C as (C1 & C2 & _). destruct (of_bf b) as (V & Rb & Fb).
    split; [split; [exact V|apply fin_iff; unfold fin32; congruence]|]. congruence.
Qed.

(** ** 16 bits to 8 *)
Lemma narrow_check : forallb (fun z => f32_to_u8 (u16_to_f32 z) =? z / 257)%Z (zrange 0 65536) = true.
Proof. vm_compute. reflexivity. Qed.
Lemma narrow z : (0 <= z < 65536)%Z -> f32_to_u8 (u16_to_f32 z) = (z / 257)%Z.
Proof. intros H. apply Z.eqb_eq. exact (check_range _ _ _ narrow_check z H). Qed.

(** ** Whole pictures *)
Lemma map_right {A B} (P : A -> Prop) (Q : A -> B -> Prop) f l : (forall v, P v -> Q v (f v)) -> Forall P l -> Forall2 Q l (map f l).
Proof. intros H L. induction L; cbn [map]; constructor; auto. Qed.
Lemma bytes_right l : Forall f32_ok l -> exists l', db_convert (DF32 l) UInt8 = Ok (DU8 l') /\ Forall2 (levelled 255) l l'.
Proof. intros H. exists (map f32_to_u8 l). split; [reflexivity|]. apply (map_right f32_ok); [|exact H]. intros v V. apply level_right; [lia|exact V]. Qed.
Lemma words_right l : Forall f32_ok l -> exists l', db_convert (DF32 l) UInt16 = Ok (DU16 l') /\ Forall2 (levelled 65535) l l'.
Proof. intros H. exists (map f32_to_u16 l). split; [reflexivity|]. apply (map_right f32_ok); [|exact H]. intros v V. apply level_right; [lia|exact V]. Qed.
Lemma shades_8 l : Forall (fun t => (0 <= t <= 255)%Z) l -> exists l', db_convert (DU8 l) Float32 = Ok (DF32 l') /\ Forall2 (shade_of 255) l l'.
Proof. intros H. exists (map u8_to_f32 l). split; [reflexivity|]. apply (map_right (fun t => (0 <= t <= 255)%Z)); [|exact H]. intros v V. apply shade_right; [lia|exact V]. Qed.
Lemma shades_16 l : Forall (fun t => (0 <= t <= 65535)%Z) l -> exists l', db_convert (DU16 l) Float32 = Ok (DF32 l') /\ Forall2 (shade_of 65535) l l'.
Proof. intros H. exists (map u16_to_f32 l). split; [reflexivity|]. apply (map_right (fun t => (0 <= t <= 65535)%Z)); [|exact H]. intros v V. apply shade_right; [lia|exact V]. Qed.
Lemma halves_right l : exists l', db_convert (DF32 l) Half16 = Ok (DF16 l') /\ Forall2 nearest_half l l'.
Proof. exists (map f16_of_f32 l). split; [reflexivity|]. apply (map_right (fun _ => True)); [|induction l; constructor; auto]. intros v _. apply half_right. Qed.
Lemma halves_back l : Forall (fun h => is_half h /\ f32_finite h) l -> exists l', db_convert (DF16 l) Float32 = Ok (DF32 l') /\
  Forall2 (fun h x => plain_value x /\ R32 x = R32 h) l l'.
Proof. intros H. exists (map f32_of_f16 l). split; [reflexivity|]. apply (map_right (fun h => is_half h /\ f32_finite h)); [|exact H]. intros v (V & F). now apply half_widened. Qed.
Lemma narrow_all l : Forall (fun t => (0 <= t <= 65535)%Z) l -> db_convert (DU16 l) UInt8 = Ok (DU8 (map (fun t => t / 257)%Z l)).
Proof.
  intros H. cbn [db_convert db_type datatype_eqb to_u8 bind]. do 2 f_equal. induction H as [|t l Ht _ IH]; [reflexivity|]. cbn [map]. rewrite narrow by lia. now rewrite IH.
Qed.
Lemma order_8 x y : f32_ok x -> f32_ok y -> f32_le x y = true -> exists s t, db_convert (DF32 [x; y]) UInt8 = Ok (DU8 [s; t]) /\ (s <= t)%Z.
Proof. intros V W L. do 2 eexists. split; [reflexivity|]. exact (level_mono 255 x y ltac:(lia) V W L). Qed.
Lemma order_16 x y : f32_ok x -> f32_ok y -> f32_le x y = true -> exists s t, db_convert (DF32 [x; y]) UInt16 = Ok (DU16 [s; t]) /\ (s <= t)%Z.
Proof. intros V W L. do 2 eexists. split; [reflexivity|]. exact (level_mono 65535 x y ltac:(lia) V W L). Qed.
Lemma through_float d t : db_type d <> t -> t <> Float32 -> t <> UnknownType -> db_type d <> Float32 ->
  db_convert d t = let* d' := db_convert d Float32 in db_convert d' t.
Proof.
  intros A B C D. destruct d as [l|l|l|l]; destruct t; cbn [db_type] in *; try congruence;
    cbn [db_convert db_type datatype_eqb to_f32 to_f16 to_u16 to_u8 bind]; now rewrite map_map.
Qed.

(** Grades with any gamma, given how accurate raising to a power is. *)
From Coq Require String.
Import String.StringSyntax.
From Coq Require Import Reals Floats.SpecFloat Psatz.
From Flocq Require Import Core.Core.
From Verif Require Import Machine FloatModel FloatReal GeomReal RemapReal UndoReal AttrModel StreamModel MergeSpec GradeModel BakeSpec BakeProofs NodeModel NewSpec
  LineSpec LineReal LineProofs PowerSpec PowerReal.
Local Open Scope string_scope.
Local Open Scope R_scope.

Lemma ln_bound L : / 2 ^ 20 <= L <= 2 ^ 20 -> Rabs (ln L) <= 20 * ln 2.
Proof.
  intros (A & B). assert (P : 0 < / 2 ^ 20) by (apply Rinv_0_lt_compat, pow_lt; lra).
  assert (E : ln (2 ^ 20) = 20 * ln 2) by (rewrite <- Rpower_pow by lra; unfold Rpower; rewrite ln_exp; simpl; ring).
  assert (U : ln L <= 20 * ln 2).
  { rewrite <- E. destruct (Rle_lt_or_eq_dec _ _ B) as [H|H]; [left; apply ln_increasing; lra|rewrite H; lra]. }
  assert (D : - (20 * ln 2) <= ln L).
  { rewrite <- E. rewrite <- ln_Rinv by (apply pow_lt; lra). destruct (Rle_lt_or_eq_dec _ _ A) as [H|H]; [left; apply ln_increasing; lra|rewrite H; lra]. }
  apply Rabs_le. lra.
Qed.
Lemma ln2_bound : 0 < ln 2 <= 7 / 10.
Proof.
  split; [rewrite <- ln_1; apply ln_increasing; lra|].
  destruct (Rle_or_lt (ln 2) (7 / 10)) as [H|H]; [exact H|exfalso].
  assert (X : exp (7 / 10) < 2).
  { rewrite <- (exp_ln 2) by lra. now apply exp_increasing. }
  assert (Y : exp (7 / 10) = exp (7 / 20) * exp (7 / 20)) by (rewrite <- exp_plus; f_equal; lra).
  assert (Z0 : exp (7 / 20) = exp (7 / 40) * exp (7 / 40)) by (rewrite <- exp_plus; f_equal; lra).
  assert (Z1 : exp (7 / 40) = exp (7 / 80) * exp (7 / 80)) by (rewrite <- exp_plus; f_equal; lra).
  assert (Z2 : exp (7 / 80) = exp (7 / 160) * exp (7 / 160)) by (rewrite <- exp_plus; f_equal; lra).
  assert (Z3 : exp (7 / 160) = exp (7 / 320) * exp (7 / 320)) by (rewrite <- exp_plus; f_equal; lra).
  assert (Z4 : exp (7 / 320) = exp (7 / 640) * exp (7 / 640)) by (rewrite <- exp_plus; f_equal; lra).
  assert (Z5 : exp (7 / 640) = exp (7 / 1280) * exp (7 / 1280)) by (rewrite <- exp_plus; f_equal; lra).
  pose proof (exp_ineq1_le (7 / 1280)) as B5. 
  assert (B4 : 101096 / 100000 <= exp (7 / 640)) by (rewrite Z5; nra). clear Z5 B5.
  assert (B3 : 102204 / 100000 <= exp (7 / 320)) by (rewrite Z4; nra). clear Z4 B4.
  assert (B2 : 104456 / 100000 <= exp (7 / 160)) by (rewrite Z3; nra). clear Z3 B3.
  assert (B1 : 109110 / 100000 <= exp (7 / 80)) by (rewrite Z2; nra). clear Z2 B2.
  assert (B0 : 119049 / 100000 <= exp (7 / 40)) by (rewrite Z1; nra). clear Z1 B1.
  assert (A0 : 141726 / 100000 <= exp (7 / 20)) by (rewrite Z0; nra). clear Z0 B0.
  nra.
Qed.
Lemma power_range L g : / 2 ^ 20 <= L <= 2 ^ 20 -> 0 < g <= 4 -> / 2 ^ 80 <= Rpower L g <= 2 ^ 80.
Proof.
  intros HL HG. pose proof (ln_bound L HL) as B. pose proof ln2_bound as L2.
  assert (Q : Rabs (g * ln L) <= 80 * ln 2).
  { rewrite Rabs_mult, (Rabs_pos_eq g) by lra. pose proof (Rabs_pos (ln L)). nra. }
  assert (E : exp (80 * ln 2) = 2 ^ 80).
  { rewrite <- Rpower_pow by lra. unfold Rpower. f_equal. simpl. ring. }
  unfold Rpower. apply Rabs_le_inv in Q. split.
  - rewrite <- E, <- exp_Ropp. destruct (Rle_lt_or_eq_dec _ _ (proj1 Q)) as [H|H]; [left; now apply exp_increasing|rewrite <- H; lra].
  - rewrite <- E. destruct (Rle_lt_or_eq_dec _ _ (proj2 Q)) as [H|H]; [left; now apply exp_increasing|rewrite <- H; lra].
Qed.

Section OneChannel.
Variable o : vals.
Variable c : colour.
Variable v : f32.
Variable powf : f32 -> f32 -> f32.
Variable k : R.
Hypothesis U : usual o c.
Hypothesis V : modest v.
Hypothesis RV : vi o "reverse" = 0%Z.
Hypothesis GP : plain_value (param o "gamma" c).
Hypothesis GB : / 4 <= number o "gamma" c <= 4.
Hypothesis HK : 0 <= k <= 100.
Hypothesis AC : accurate powf k (f32_div f32_one (param o "gamma" c)).
Hypothesis CL : clear_of_zero o c (R32 v).

Lemma inverse_gamma : let g := f32_div f32_one (param o "gamma" c) in
  Rabs (R32 g - / number o "gamma" c) <= 1001 / 1000 * eps32 * / number o "gamma" c.
Proof.
  cbv zeta. unfold number in *. set (gm := param o "gamma" c) in *. destruct GP as (VG & FG). destruct one_real as (V1 & F1 & E1).
  assert (I : / 4 <= / R32 gm <= 4).
  { split; [apply Rinv_le_contravar; lra|]. rewrite <- (Rinv_inv 4). apply Rinv_le_contravar; lra. }
  assert (RNG : in_range32 (R32 f32_one / R32 gm)).
  { apply (within _ 2); [lia|]. rewrite E1. unfold Rdiv. rewrite Rmult_1_l, Rabs_pos_eq by lra. change (bpow radix2 2) with 4. lra. }
  destruct (div_real f32_one gm V1 VG F1 ltac:(lra) RNG) as (F & E).
  rewrite E, E1. unfold Rdiv. rewrite Rmult_1_l. pose proof (RN_err (/ R32 gm)) as X. rewrite (Rabs_pos_eq (/ R32 gm)) in X by lra.
  destruct eta_small as (T0 & T1). pose proof huge_big as HU. rewrite HU in T1.
  assert (eta32 <= eps32 * / 4000) by (unfold eps32; lra). pose proof eps_small as EP.
  assert (eps32 * / 4 <= eps32 * / R32 gm) by (apply Rmult_le_compat_l; lra). lra.
Qed.

Lemma curve_close : plain_value (graded_value powf o c v) /\ Rabs (R32 (graded_value powf o c v)) <= 10 ^ 25 /\
  Rabs (R32 (graded_value powf o c v) - gamma_curve o c (R32 v)) <= curve_units o c (R32 v) k * / 2 ^ 24 * gamma_curve o c (R32 v) /\
  0 < gamma_curve o c (R32 v) /\ Rabs (R32 (graded_value powf o c v)) <= 11 / 10 * gamma_curve o c (R32 v).
Proof.
  destruct (channel_line o c v U V powf RV) as (u & E & j & N & HJ & HN & (S1 & S2 & S3 & S4 & S5)).
  destruct CL as (LB & QB). set (L := grade_line o c (R32 v)) in *. set (M := line_size o c (R32 v)) in *.
  assert (PL : 0 < L) by (eapply Rlt_le_trans; [|exact (proj1 LB)]; apply Rinv_0_lt_compat, pow_lt; lra).
  rewrite (Rabs_pos_eq L) in S4 by lra.
  set (q := M / L). assert (Q1 : 1 <= q <= 1024).
  { unfold q. split; apply Rmult_le_reg_r with L; try exact PL; unfold Rdiv; rewrite Rmult_assoc, Rinv_l by lra; [lra|]. change 1024 with (IZR 1024). simpl in QB. lra. }
  assert (MQ : M = q * L) by (unfold q; field; lra).
  pose proof eps_small as EP. destruct eta_small as (T0 & T1). pose proof huge_big as HU.
  set (d := 801 / 100 * eps32 * q).
  assert (D : Rabs (R32 u - L) <= d * L).
  { eapply Rle_trans; [exact S3|]. rewrite MQ. unfold d.
    assert (N * eta32 <= / 2 ^ 70).
    { eapply Rle_trans; [|exact tiny_bound]. apply Rmult_le_compat_r; [lra|]. lra. }
    assert (/ 2 ^ 70 <= / 100 * eps32 * (q * L)).
    { assert (X : / 2 ^ 20 <= q * L) by (apply Rle_trans with (1 * L); [lra|apply Rmult_le_compat_r; lra]).
      assert (/ 2 ^ 70 <= / 100 * eps32 * / 2 ^ 20) by (unfold eps32; simpl; lra).
      assert (/ 100 * eps32 * / 2 ^ 20 <= / 100 * eps32 * (q * L)) by (apply Rmult_le_compat_l; [unfold eps32; lra|exact X]). lra. }
    assert (j * eps32 * (q * L) <= 8 * eps32 * (q * L)).
    { apply Rmult_le_compat_r; [apply Rmult_le_pos; lra|]. apply Rmult_le_compat_r; lra. }
    lra. }
  assert (HD : 0 <= d <= / 1000) by (unfold d; unfold eps32; lra).
  pose proof inverse_gamma as G. cbv zeta in G. set (g := f32_div f32_one (param o "gamma" c)) in *.
  set (gi := / number o "gamma" c) in *.
  assert (PG : / 4 <= gi <= 4).
  { unfold gi. split; [apply Rinv_le_contravar; lra|]. rewrite <- (Rinv_inv 4). apply Rinv_le_contravar; lra. }
  pose proof (ln_bound L LB) as LN. pose proof ln2_bound as L2.
  set (l := Rabs (ln L)) in *. assert (HL : 0 <= l <= 14) by (split; [apply Rabs_pos|lra]).
  set (e := 1001 / 1000 * eps32) in *. assert (HE : 0 <= e <= / 10000) by (unfold e, eps32; lra).
  set (T := gi * (1003 / 1000 * d + e * l)).
  assert (TB : 102 / 100 * T <= (9 * q + 102 / 100 * (1001 / 1000) * l) * gi * eps32 /\ 0 <= T <= / 100).
  { unfold T, d, e.
    replace (gi * (1003 / 1000 * (801 / 100 * eps32 * q) + 1001 / 1000 * eps32 * l)) with (gi * eps32 * (1003 / 1000 * (801 / 100) * q + 1001 / 1000 * l)) by ring.
    assert (W : 0 <= gi * eps32 <= 4 * / 16777216) by (unfold eps32; lra). split.
    - replace ((9 * q + 102 / 100 * (1001 / 1000) * l) * gi * eps32) with (gi * eps32 * (9 * q + 102 / 100 * (1001 / 1000) * l)) by ring.
      replace (102 / 100 * (gi * eps32 * (1003 / 1000 * (801 / 100) * q + 1001 / 1000 * l))) with (gi * eps32 * (102 / 100 * (1003 / 1000 * (801 / 100) * q + 1001 / 1000 * l))) by ring.
      apply Rmult_le_compat_l; lra.
    - split; [apply Rmult_le_pos; lra|]. apply Rle_trans with (4 * / 16777216 * 9000); [apply Rmult_le_compat; lra|lra]. }
  destruct TB as (T2 & T3).
  destruct (power_close L (R32 u) gi (R32 g) d e PL D HD ltac:(lra) G HE ltac:(fold l; fold T; lra)) as (PU & PC). fold l in PC. fold T in PC.
  pose proof (power_range L gi LB ltac:(lra)) as PR. fold (gamma_curve o c (R32 v)) in *.
  change (Rpower L gi) with (gamma_curve o c (R32 v)) in *. set (P := gamma_curve o c (R32 v)) in *.
  assert (PP : 0 < P) by (eapply Rlt_le_trans; [|exact (proj1 PR)]; apply Rinv_0_lt_compat, pow_lt; lra).
  set (y := Rpower (R32 u) (R32 g)) in *.
  assert (YB : 98 / 100 * P <= y <= 102 / 100 * P).
  { apply Rabs_le_inv in PC. assert (102 / 100 * T * P <= 2 / 100 * P) by (apply Rmult_le_compat_r; lra). lra. }
  assert (YR : / 2 ^ 100 <= y <= 2 ^ 100) by (simpl in PR |- *; lra).
  destruct (AC u ltac:(split; [exact S1|now apply fin_iff]) PU YR) as (GP1 & GE). fold y in GE. rewrite <- E in GP1, GE.
  set (w := graded_value powf o c v) in *.
  assert (KE : k * / 2 ^ 24 * y <= 102 / 100 * k * eps32 * P).
  { replace (/ 2 ^ 24) with eps32 by (unfold eps32; simpl; lra).
    apply Rle_trans with (k * eps32 * (102 / 100 * P)); [apply Rmult_le_compat_l; [apply Rmult_le_pos; lra|lra]|lra]. }
  assert (KS : 102 / 100 * k * eps32 * P <= / 100000 * P) by (apply Rmult_le_compat_r; [lra|]; unfold eps32; lra).
  assert (TS : 102 / 100 * T * P <= 2 / 100 * P) by (apply Rmult_le_compat_r; lra).
  assert (DW : Rabs (R32 w - P) <= 102 / 100 * k * eps32 * P + 102 / 100 * T * P).
  { replace (R32 w - P) with ((R32 w - y) + (y - P)) by ring. eapply Rle_trans; [apply Rabs_triang|]. lra. }
  assert (WB : Rabs (R32 w) <= 11 / 10 * P).
  { replace (R32 w) with (P + (R32 w - P)) by ring. eapply Rle_trans; [apply Rabs_triang|]. rewrite (Rabs_pos_eq P) by lra. lra. }
  split; [exact GP1|]. split; [|split; [|split; [exact PP|exact WB]]].
  - eapply Rle_trans; [exact WB|]. simpl in PR |- *. lra.
  - eapply Rle_trans; [exact DW|]. unfold curve_units. fold L M q l gi. change ((9 * q + 2 * l) / number o "gamma" c) with ((9 * q + 2 * l) * gi).
    replace (/ 2 ^ 24) with eps32 by (unfold eps32; simpl; lra).
    replace (((9 * q + 2 * l) * gi + 2 * k) * eps32 * P) with (2 * k * eps32 * P + (9 * q + 2 * l) * gi * eps32 * P) by ring.
    apply Rplus_le_compat.
    + apply Rmult_le_compat_r; [lra|]. apply Rmult_le_compat_r; lra.
    + apply Rmult_le_compat_r; [lra|]. eapply Rle_trans; [exact T2|]. apply Rmult_le_compat_r; [lra|]. apply Rmult_le_compat_r; lra.
Qed.

Hypothesis PR : process o c = 0%Z \/ process o c = 1%Z.
Hypothesis MP : plain_value (f32_of_bits (vf o "mix")).
Hypothesis MB : 0 <= R32 (f32_of_bits (vf o "mix")) <= 1.

Lemma blended_curve : let w := blended powf o c v in let m := part_of o c in let x := R32 v in
  f32_finite w /\
  Rabs (R32 w - (m * gamma_curve o c x + (1 - m) * x)) <=
  / 2 ^ 24 * (m * ((curve_units o c x k + 5) * gamma_curve o c x) + (1 - m) * (4 * Rabs x)) + / 2 ^ 70.
Proof.
  cbv zeta. destruct curve_close as ((Vy & Fy) & By & Dy & PP & Wy). apply fin_iff in Fy.
  destruct (mask_ok o c PR MP MB) as (M1 & M2 & M3 & M4). rewrite M3 in M4.
  destruct (blend_exact (graded_value powf o c v) v _ Vy Fy By (modest_small v V) M1 M2 ltac:(rewrite M3; exact M4)) as (X1 & X2 & X3).
  rewrite M3 in X3. unfold blended. split; [now apply fin_iff|].
  set (w := f32_add _ _) in *. set (y := R32 (graded_value powf o c v)) in *. set (m := part_of o c) in *. set (P := gamma_curve o c (R32 v)) in *.
  set (un := curve_units o c (R32 v) k) in *.
  replace (R32 w - (m * P + (1 - m) * R32 v)) with ((R32 w - (m * y + (1 - m) * R32 v)) + m * (y - P)) by ring.
  eapply Rle_trans; [apply Rabs_triang|]. rewrite (Rabs_mult m), (Rabs_pos_eq m) by lra.
  assert (A : m * Rabs (y - P) <= m * (un * / 2 ^ 24 * P)) by (apply Rmult_le_compat_l; lra).
  replace (/ 2 ^ 24) with eps32 in * by (unfold eps32; simpl; lra). pose proof eps_small as EP.
  assert (B : 4 * eps32 * (m * Rabs y) <= 5 * eps32 * (m * P)).
  { assert (m * Rabs y <= m * (11 / 10 * P)) by (apply Rmult_le_compat_l; lra).
    assert (0 <= m * P) by (apply Rmult_le_pos; lra).
    assert (4 * eps32 * (m * Rabs y) <= 4 * eps32 * (m * (11 / 10 * P))) by (apply Rmult_le_compat_l; lra).
    assert (0 <= eps32 * (m * P)) by (apply Rmult_le_pos; lra). lra. }
  pose proof tiny_bound as TB.
  replace (eps32 * (m * ((un + 5) * P) + (1 - m) * (4 * Rabs (R32 v)))) with (m * (un * eps32 * P) + 5 * eps32 * (m * P) + 4 * eps32 * ((1 - m) * Rabs (R32 v))) by ring.
  replace (4 * eps32 * (m * Rabs y + (1 - m) * Rabs (R32 v))) with (4 * eps32 * (m * Rabs y) + 4 * eps32 * ((1 - m) * Rabs (R32 v))) in X3 by ring.
  lra.
Qed.
End OneChannel.

Lemma curve_buffer powf k o nc n pixels :
  0 <= k <= 100 -> vi o "enable" = 1%Z -> vi o "reverse" = 0%Z -> working o ->
  plain_value (f32_of_bits (vf o "mix")) -> 0 <= R32 (f32_of_bits (vf o "mix")) <= 1 ->
  (nc = 1 \/ nc = 3 \/ nc = 4)%nat -> length pixels = (n * nc)%nat ->
  (forall j, (j < nc)%nat -> let c := colour_of nc j in usual o c /\ (process o c = 0%Z \/ process o c = 1%Z) /\
     plain_value (param o "gamma" c) /\ / 4 <= number o "gamma" c <= 4 /\ accurate powf k (f32_div f32_one (param o "gamma" c))) ->
  Forall modest pixels ->
  (forall i v, nth_error pixels i = Some v -> clear_of_zero o (colour_of nc (i mod nc)) (R32 v)) ->
  exists r, apply_color_ops powf [o] (Z.of_nat nc) pixels = Ok r /\ length r = length pixels /\
  forall i v, nth_error pixels i = Some v -> exists v', nth_error r i = Some v' /\ f32_finite v' /\
    let c := colour_of nc (i mod nc) in let x := R32 v in let m := part_of o c in
    Rabs (R32 v' - (m * gamma_curve o c x + (1 - m) * x)) <=
    / 2 ^ 24 * (m * ((curve_units o c x k + 5) * gamma_curve o c x) + (1 - m) * (4 * Rabs x)) + / 2 ^ 70.
Proof.
  intros HK EN RV WK MX B NC L US PX CZ.
  destruct (grade_buffer powf o nc n pixels EN WK NC L) as (r & A & LE & H). exists r. split.
  { unfold apply_color_ops. replace (Z.of_nat nc <=? 0)%Z with false by (symmetry; apply Z.leb_gt; lia).
    cbn [filter]. rewrite EN. cbn [Z.eqb Pos.eqb apply_each bind]. rewrite A. reflexivity. }
  split; [exact LE|]. intros i v I. exists (blended powf o (colour_of nc (i mod nc)) v). split; [apply H; exact I|].
  rewrite Forall_forall in PX. destruct (US (i mod nc)%nat ltac:(apply Nat.mod_upper_bound; lia)) as (U & PR & GP & GB & AC).
  exact (blended_curve o _ v powf k U (PX v (nth_error_In _ _ I)) RV GP GB HK AC (CZ i v I) PR MX B).
Qed.

(** ** A power that is accurate for two exponents *)
Definition square (u g : f32) : f32 := if f32_eq g (f32_of_Z 2) then f32_mul u u else u.
Lemma squares : accurate square 1 (f32_of_Z 2).
Proof.
  intros u (V & F) P. destruct (small_real 2 ltac:(cbn; lia)) as (_ & _ & E2). rewrite E2.
  replace (Rpower (R32 u) 2) with (R32 u * R32 u)%R.
  2:{ change 2%R with (1 + 1)%R. rewrite Rpower_plus, Rpower_1 by exact P. reflexivity. }
  intros (A & B). assert (T : (2 ^ 100 = bpow radix2 100)%R) by (rewrite pow_IZR; reflexivity).
  assert (SQ : (Rabs (R32 u * R32 u) = R32 u * R32 u)%R) by (apply Rabs_pos_eq, Rmult_le_pos; lra).
  change (square u (f32_of_Z 2)) with (f32_mul u u).
  assert (V32 : valid32 u) by exact V. assert (F32 : fin32 u) by (destruct u; try reflexivity; destruct F).
  destruct (mul_real u u V32 V32 F32 F32) as (FM & RM).
  { apply (within _ 100); [lia|]. rewrite SQ. eapply Rle_trans; [exact B|]. rewrite T. right. reflexivity. }
  split.
  - split; [exact (mul_valid u u V32 V32)|]. destruct (f32_mul u u); try exact I; discriminate FM.
  - rewrite RM. pose proof (RN_rel (R32 u * R32 u)) as Q. rewrite SQ in Q.
    replace (1 * / 2 ^ 24)%R with eps32 by (unfold eps32; simpl; lra). apply Q.
    eapply Rle_trans; [|exact A]. rewrite T, <- bpow_opp. apply bpow_le. lia.
Qed.
Lemma firsts : accurate square 1 f32_one.
Proof.
  intros u PU P _. destruct one_real as (_ & _ & E). rewrite E, Rpower_1 by exact P.
  change (square u f32_one) with u. split; [exact PU|]. replace (R32 u - R32 u)%R with 0%R by ring. rewrite Rabs_R0.
  apply Rmult_le_pos; [|lra]. apply Rmult_le_pos; [lra|]. left. apply Rinv_0_lt_compat, pow_lt. lra.
Qed.

(** The line a grade follows and the blend with the ungraded value: error
    bounds (uses the axioms of Coq's real numbers). *)
From Coq Require Import Reals Floats.SpecFloat Psatz.
From Flocq Require Import Core.Core.
From Verif Require Import Machine FloatModel FloatReal GeomReal UndoReal MergeSpec GradeModel.
Local Open Scope R_scope.

(** [v] stands for [U], which is at most [M], up to [k] units of rounding of
    [M] and [N] of the smallest step. *)
Definition stands (v : f32) (U k M N B : R) : Prop :=
  valid32 v /\ fin32 v /\ Rabs (R32 v - U) <= k * eps32 * M + N * eta32 /\ Rabs U <= M /\ M <= B.

Definition huge : R := 10 ^ 40.
Lemma eta_small : 0 < eta32 /\ eta32 * huge <= / 1000.
Proof.
  split; [apply eta_pos|]. unfold eta32, huge. change (-150)%Z with (- (150))%Z. rewrite bpow_opp.
  change (bpow radix2 150) with (IZR (2 ^ 150)). rewrite pow_IZR. 
  change (2 ^ 150)%Z with 1427247692705959881058285969449495136382746624%Z.
  change (10 ^ Z.of_nat 40)%Z with 10000000000000000000000000000000000000000%Z. lra.
Qed.
Lemma eps_small : 0 < eps32 <= / 10000000.
Proof. unfold eps32. lra. Qed.

(** The bound on a value that stands for another. *)
Lemma stands_size v U k M N B : stands v U k M N B -> 0 <= k <= 20 -> 0 <= N <= huge -> 0 <= M /\ Rabs (R32 v) <= M * (1 + / 100000) + N * eta32 /\ N * eta32 <= / 1000.
Proof.
  intros (_ & _ & D & U1 & MB) HK HN. pose proof eps_small as E. destruct eta_small as (T0 & T1).
  assert (P : 0 <= M) by (pose proof (Rabs_pos U); lra).
  split; [exact P|].
  assert (k * eps32 * M <= / 100000 * M) by (clear - HK E P; apply Rmult_le_compat_r; [exact P|]; nra).
  split.
  - replace (R32 v) with (U + (R32 v - U)) by ring. eapply Rle_trans; [apply Rabs_triang|]. lra.
  - apply Rle_trans with (huge * eta32); [apply Rmult_le_compat_r; lra|]. lra.
Qed.

(** Rounding something close. *)
Lemma round_close u U k M N : Rabs (u - U) <= k * eps32 * M + N * eta32 -> Rabs U <= M -> 0 <= k <= 40 -> 0 <= N ->
  Rabs (RN u - U) <= (k + 1001 / 1000) * eps32 * M + (2 * N + 1) * eta32.
Proof.
  intros D S HK HN. pose proof eps_small as E. pose proof eta_pos as T.
  assert (P : 0 <= M) by (pose proof (Rabs_pos U); lra).
  assert (X : Rabs u <= M + (k * eps32 * M + N * eta32)).
  { replace u with (U + (u - U)) by ring. eapply Rle_trans; [apply Rabs_triang|]. lra. }
  assert (Q : k * eps32 * M <= / 100000 * M) by (clear - HK E P; apply Rmult_le_compat_r; [exact P|]; nra).
  assert (NT : 0 <= N * eta32) by (apply Rmult_le_pos; lra).
  pose proof (RN_err u) as R1.
  assert (Y : eps32 * Rabs u <= eps32 * ((1 + / 100000) * M + N * eta32)) by (apply Rmult_le_compat_l; lra).
  assert (Z1 : eps32 * (N * eta32) <= N * eta32) by (clear - E NT; nra).
  assert (EM : 0 <= eps32 * M) by (apply Rmult_le_pos; lra).
  replace (RN u - U) with ((RN u - u) + (u - U)) by ring. eapply Rle_trans; [apply Rabs_triang|].
  replace ((k + 1001 / 1000) * eps32 * M) with (k * eps32 * M + 1001 / 1000 * (eps32 * M)) by ring.
  replace (eps32 * ((1 + / 100000) * M + N * eta32)) with ((1 + / 100000) * (eps32 * M) + eps32 * (N * eta32)) in Y by ring. lra.
Qed.

Lemma stands_exact v B : valid32 v -> fin32 v -> Rabs (R32 v) <= B -> stands v (R32 v) 0 (Rabs (R32 v)) 0 B.
Proof.
  intros V F H. repeat split; auto; [|lra]. replace (R32 v - R32 v) with 0 by ring. rewrite Rabs_R0. lra.
Qed.

(** Products of things that are close. *)
Lemma close_mul (a b U V k1 k2 M1 M2 N1 N2 B1 B2 : R) : Rabs U <= M1 -> M1 <= B1 -> Rabs V <= M2 -> M2 <= B2 ->
  0 <= k1 <= 15 -> 0 <= k2 <= 15 -> 0 <= N1 <= huge -> 0 <= N2 <= huge -> 1 <= B1 -> 1 <= B2 -> Rabs (a - U) <= k1 * eps32 * M1 + N1 * eta32 -> Rabs (b - V) <= k2 * eps32 * M2 + N2 * eta32 ->
  Rabs (a * b - U * V) <= (k1 + k2 + / 1000) * eps32 * (M1 * M2) + 2 * (N1 * B2 + N2 * B1) * eta32.
Proof.
  intros Uu Bu Uv Bv K1 K2 L1 L2 HB1 HB2 Da Db. pose proof eps_small as EP. destruct eta_small as (TP & TH).
  assert (P1 : 0 <= M1) by (pose proof (Rabs_pos U); lra). assert (P2 : 0 <= M2) by (pose proof (Rabs_pos V); lra).
  assert (T1 : N1 * eta32 <= / 1000) by (apply Rle_trans with (huge * eta32); [apply Rmult_le_compat_r; lra|lra]).
  assert (T2 : N2 * eta32 <= / 1000) by (apply Rle_trans with (huge * eta32); [apply Rmult_le_compat_r; lra|lra]).
  replace (a * b - U * V) with ((a - U) * (b - V) + U * (b - V) + V * (a - U)) by ring.
  set (da := Rabs (a - U)) in *. set (db := Rabs (b - V)) in *.
  assert (A0 : 0 <= da) by apply Rabs_pos. assert (C0 : 0 <= db) by apply Rabs_pos.
  assert (Y : Rabs ((a - U) * (b - V) + U * (b - V) + V * (a - U)) <= da * db + M1 * db + M2 * da).
  { eapply Rle_trans; [apply Rabs_triang|]. eapply Rle_trans; [apply Rplus_le_compat_r, Rabs_triang|].
    rewrite !Rabs_mult. fold da db.
    assert (Rabs U * db <= M1 * db) by (apply Rmult_le_compat_r; assumption).
    assert (Rabs V * da <= M2 * da) by (apply Rmult_le_compat_r; assumption). lra. }
  eapply Rle_trans; [exact Y|].
  set (s1 := N1 * eta32) in *. set (s2 := N2 * eta32) in *.
  assert (Q1 : 0 <= s1) by (unfold s1; apply Rmult_le_pos; lra). assert (Q2 : 0 <= s2) by (unfold s2; apply Rmult_le_pos; lra).
  set (e1 := k1 * eps32) in *. set (e2 := k2 * eps32) in *.
  assert (I1 : 0 <= e1 <= / 100000) by (unfold e1; clear - K1 EP; nra). assert (I2 : 0 <= e2 <= / 100000) by (unfold e2; clear - K2 EP; nra).
  assert (J : e1 * e2 <= / 1000 * eps32) by (unfold e1, e2; clear - K1 K2 EP; assert (k1 * k2 <= 225) by nra; assert (0 <= eps32 * eps32 <= eps32 * / 10000000) by nra; replace (k1 * eps32 * (k2 * eps32)) with ((k1 * k2) * (eps32 * eps32)) by ring; nra).
  assert (Z1 : da * db <= (e1 * M1 + s1) * (e2 * M2 + s2)) by (apply Rmult_le_compat; assumption).
  assert (Z2 : M1 * db <= M1 * (e2 * M2 + s2)) by (apply Rmult_le_compat_l; assumption).
  assert (Z3 : M2 * da <= M2 * (e1 * M1 + s1)) by (apply Rmult_le_compat_l; assumption).
  assert (G1 : e1 * e2 * (M1 * M2) <= / 1000 * eps32 * (M1 * M2)) by (apply Rmult_le_compat_r; [apply Rmult_le_pos; assumption|exact J]).
  assert (G2 : M1 * s2 <= B1 * s2) by (apply Rmult_le_compat_r; assumption).
  assert (G3 : M2 * s1 <= B2 * s1) by (apply Rmult_le_compat_r; assumption).
  assert (G4 : e1 * (M1 * s2) <= / 100000 * (B1 * s2)) by (apply Rmult_le_compat; try lra; apply Rmult_le_pos; assumption).
  assert (G5 : e2 * (M2 * s1) <= / 100000 * (B2 * s1)) by (apply Rmult_le_compat; try lra; apply Rmult_le_pos; assumption).
  assert (G6 : s1 * s2 <= / 1000 * s2) by (apply Rmult_le_compat_r; assumption).
  assert (G7 : s2 <= B1 * s2) by (clear - HB1 Q2; nra).
  assert (G8 : 0 <= B2 * s1) by (apply Rmult_le_pos; lra).
  replace (2 * (N1 * B2 + N2 * B1) * eta32) with (2 * (B2 * s1) + 2 * (B1 * s2)) by (unfold s1, s2; ring).
  replace ((k1 + k2 + / 1000) * eps32 * (M1 * M2)) with (e1 * (M1 * M2) + e2 * (M1 * M2) + / 1000 * eps32 * (M1 * M2)) by (unfold e1, e2; ring).
  replace ((e1 * M1 + s1) * (e2 * M2 + s2)) with (e1 * e2 * (M1 * M2) + e1 * (M1 * s2) + e2 * (M2 * s1) + s1 * s2) in Z1 by ring.
  replace (M1 * (e2 * M2 + s2)) with (e2 * (M1 * M2) + M1 * s2) in Z2 by ring.
  replace (M2 * (e1 * M1 + s1)) with (e1 * (M1 * M2) + M2 * s1) in Z3 by ring.
  lra.
Qed.

Section Rules.
Variables u v : f32.
Variables U V k1 k2 M1 M2 N1 N2 B1 B2 : R.
Hypothesis Su : stands u U k1 M1 N1 B1.
Hypothesis Sv : stands v V k2 M2 N2 B2.
Hypothesis K1 : 0 <= k1 <= 15.
Hypothesis K2 : 0 <= k2 <= 15.
Hypothesis L1 : 0 <= N1 <= huge.
Hypothesis L2 : 0 <= N2 <= huge.

Lemma stands_add k : k1 <= k -> k2 <= k -> k <= 15 -> B1 + B2 <= bpow radix2 98 ->
  stands (f32_add u v) (U + V) (k + 1001 / 1000) (M1 + M2) (2 * (N1 + N2) + 1) (B1 + B2).
Proof.
  intros H1 H2 HK HB.
  destruct (stands_size _ _ _ _ _ _ Su ltac:(lra) L1) as (P1 & X1 & T1). destruct (stands_size _ _ _ _ _ _ Sv ltac:(lra) L2) as (P2 & X2 & T2).
  destruct Su as (Vu & Fu & Du & Uu & Bu), Sv as (Vv & Fv & Dv & Uv & Bv).
  assert (W : Rabs (R32 u + R32 v) <= bpow radix2 100).
  { eapply Rle_trans; [apply Rabs_triang|]. replace 100%Z with (98 + 2)%Z by lia. rewrite bpow_plus. change (bpow radix2 2) with 4.
    assert (1 <= bpow radix2 98) by (change 1 with (bpow radix2 0); apply bpow_le; lia). lra. }
  destruct (add_real u v Vu Vv Fu Fv (within _ 100 ltac:(lia) W)) as (F & E).
  split; [now apply add_valid|]. split; [exact F|]. rewrite E. split; [|split; [|lra]].
  - apply round_close; [|eapply Rle_trans; [apply Rabs_triang|]; lra|lra|lra].
    replace (R32 u + R32 v - (U + V)) with ((R32 u - U) + (R32 v - V)) by ring. eapply Rle_trans; [apply Rabs_triang|].
    pose proof eps_small as EP.
    assert (k1 * eps32 * M1 <= k * eps32 * M1) by (apply Rmult_le_compat_r; [exact P1|]; apply Rmult_le_compat_r; lra).
    assert (k2 * eps32 * M2 <= k * eps32 * M2) by (apply Rmult_le_compat_r; [exact P2|]; apply Rmult_le_compat_r; lra).
    lra.
  - eapply Rle_trans; [apply Rabs_triang|]. lra.
Qed.
Lemma stands_sub k : k1 <= k -> k2 <= k -> k <= 15 -> B1 + B2 <= bpow radix2 98 ->
  stands (f32_sub u v) (U - V) (k + 1001 / 1000) (M1 + M2) (2 * (N1 + N2) + 1) (B1 + B2).
Proof.
  intros H1 H2 HK HB.
  destruct (stands_size _ _ _ _ _ _ Su ltac:(lra) L1) as (P1 & X1 & T1). destruct (stands_size _ _ _ _ _ _ Sv ltac:(lra) L2) as (P2 & X2 & T2).
  destruct Su as (Vu & Fu & Du & Uu & Bu), Sv as (Vv & Fv & Dv & Uv & Bv).
  assert (tri : forall a b, Rabs (a - b) <= Rabs a + Rabs b).
  { intros a b. unfold Rminus. eapply Rle_trans; [apply Rabs_triang|]. rewrite Rabs_Ropp. lra. }
  assert (W : Rabs (R32 u - R32 v) <= bpow radix2 100).
  { eapply Rle_trans; [apply tri|]. replace 100%Z with (98 + 2)%Z by lia. rewrite bpow_plus. change (bpow radix2 2) with 4.
    assert (1 <= bpow radix2 98) by (change 1 with (bpow radix2 0); apply bpow_le; lia). lra. }
  destruct (sub_real u v Vu Vv Fu Fv (within _ 100 ltac:(lia) W)) as (F & E).
  split; [now apply sub_valid|]. split; [exact F|]. rewrite E. split; [|split; [|lra]].
  - apply round_close; [|eapply Rle_trans; [apply tri|]; lra|lra|lra].
    replace (R32 u - R32 v - (U - V)) with ((R32 u - U) - (R32 v - V)) by ring. eapply Rle_trans; [apply tri|].
    pose proof eps_small as EP.
    assert (k1 * eps32 * M1 <= k * eps32 * M1) by (apply Rmult_le_compat_r; [exact P1|]; apply Rmult_le_compat_r; lra).
    assert (k2 * eps32 * M2 <= k * eps32 * M2) by (apply Rmult_le_compat_r; [exact P2|]; apply Rmult_le_compat_r; lra).
    lra.
  - eapply Rle_trans; [apply tri|]. lra.
Qed.

Lemma stands_mul : k1 + k2 <= 14 -> 1 <= B1 -> 1 <= B2 -> B1 * B2 <= bpow radix2 90 -> B1 <= bpow radix2 90 -> B2 <= bpow radix2 90 ->
  stands (f32_mul u v) (U * V) (k1 + k2 + 1002 / 1000) (M1 * M2) (4 * (N1 * B2 + N2 * B1) + 1) (B1 * B2).
Proof.
  intros HK HB1 HB2 HB HB1' HB2'.
  destruct (stands_size _ _ _ _ _ _ Su ltac:(lra) L1) as (P1 & X1 & T1). destruct (stands_size _ _ _ _ _ _ Sv ltac:(lra) L2) as (P2 & X2 & T2).
  destruct Su as (Vu & Fu & Du & Uu & Bu), Sv as (Vv & Fv & Dv & Uv & Bv).
  pose proof (close_mul (R32 u) (R32 v) U V k1 k2 M1 M2 N1 N2 B1 B2 Uu Bu Uv Bv K1 K2 L1 L2 HB1 HB2 Du Dv) as C.
  assert (MM : M1 * M2 <= B1 * B2) by (apply Rmult_le_compat; lra).
  assert (UV : Rabs (U * V) <= M1 * M2) by (rewrite Rabs_mult; apply Rmult_le_compat; (apply Rabs_pos || assumption)).
  assert (W : Rabs (R32 u * R32 v) <= bpow radix2 100).
  { rewrite Rabs_mult. apply Rle_trans with ((2 * B1) * (2 * B2)).
    - apply Rmult_le_compat; try apply Rabs_pos; lra.
    - replace 100%Z with (90 + 10)%Z by lia. rewrite bpow_plus. change (bpow radix2 10) with 1024.
      pose proof (bpow_gt_0 radix2 90). replace (2 * B1 * (2 * B2)) with (4 * (B1 * B2)) by ring. lra. }
  destruct (mul_real u v Vu Vv Fu Fv (within _ 100 ltac:(lia) W)) as (F & E).
  split; [now apply mul_valid|]. split; [exact F|]. rewrite E. split; [|split; assumption].
  assert (0 <= N1 * B2) by (apply Rmult_le_pos; lra). assert (0 <= N2 * B1) by (apply Rmult_le_pos; lra).
  pose proof (round_close _ _ _ _ _ C UV ltac:(lra) ltac:(lra)) as R1.
  replace (k1 + k2 + 1002 / 1000) with (k1 + k2 + / 1000 + 1001 / 1000) by lra.
  replace (4 * (N1 * B2 + N2 * B1) + 1) with (2 * (2 * (N1 * B2 + N2 * B1)) + 1) by ring. exact R1.
Qed.
End Rules.

(** The rounded difference of two numbers that are not too close, as a divisor. *)
Lemma divisor wp bp : valid32 wp -> fin32 wp -> valid32 bp -> fin32 bp -> Rabs (R32 wp) <= K20 -> Rabs (R32 bp) <= K20 ->
  let D := R32 wp - R32 bp in / K20 <= Rabs D -> let v := f32_sub wp bp in
  valid32 v /\ fin32 v /\ R32 v <> 0 /\ Rabs (/ R32 v) <= 2 * K20 /\ Rabs (/ R32 v - / D) <= 1002 / 1000 * eps32 * Rabs (/ D) + 0 * eta32.
Proof.
  intros Vw Fw Vb Fb Bw Bb D HD v. pose proof eps_small as EP.
  assert (tri : Rabs D <= 2 * K20) by (unfold D, Rminus; eapply Rle_trans; [apply Rabs_triang|]; rewrite Rabs_Ropp; lra).
  assert (W : Rabs D <= bpow radix2 100).
  { eapply Rle_trans; [exact tri|]. unfold K20. apply Rle_trans with (bpow radix2 21); [simpl; lra|apply bpow_le; lia]. }
  destruct (sub_real wp bp Vw Vb Fw Fb (within _ 100 ltac:(lia) W)) as (F & E). fold v D in F, E.
  split; [now apply sub_valid|]. split; [exact F|].
  assert (KP : 0 < / K20) by (unfold K20; apply Rinv_0_lt_compat; lra).
  pose proof (RN_err D) as R1. rewrite <- E in R1.
  assert (T : eta32 <= / 10000 * eps32 * / K20).
  { unfold eta32, eps32, K20. change (-150)%Z with (- (150))%Z. rewrite bpow_opp. change (bpow radix2 150) with (IZR (2 ^ 150)).
    change (2 ^ 150)%Z with 1427247692705959881058285969449495136382746624%Z. lra. }
  set (d := R32 v) in *. set (A := Rabs D) in *.
  assert (R2 : Rabs (d - D) <= 10001 / 10000 * eps32 * A).
  { assert (/ 10000 * eps32 * / K20 <= / 10000 * eps32 * A) by (apply Rmult_le_compat_l; lra). lra. }
  assert (A0 : 0 < A) by lra.
  assert (R3 : 10001 / 10000 * eps32 * A <= / 100000 * A) by (apply Rmult_le_compat_r; lra).
  assert (L : 99999 / 100000 * A <= Rabs d).
  { assert (A <= Rabs d + Rabs (d - D)); [|lra]. unfold A. replace D with (d - (d - D)) at 1 by ring. unfold Rminus at 1.
    eapply Rle_trans; [apply Rabs_triang|]. rewrite Rabs_Ropp. lra. }
  assert (ND : D <> 0) by (intros X; unfold A in A0; rewrite X, Rabs_R0 in A0; lra).
  assert (Nd : d <> 0) by (intros X; rewrite X, Rabs_R0 in L; lra).
  split; [exact Nd|].
  assert (IL : Rabs (/ d) <= 100000 / 99999 * / A).
  { rewrite Rabs_inv. replace (100000 / 99999 * / A) with (/ (99999 / 100000 * A)) by (field; lra). apply Rinv_le_contravar; [lra|exact L]. }
  split.
  - eapply Rle_trans; [exact IL|]. assert (/ A <= K20); [|lra]. rewrite <- (Rinv_inv K20). apply Rinv_le_contravar; lra.
  - replace (/ d - / D) with ((D - d) * (/ d * / D)) by (field; auto).
    rewrite !Rabs_mult, (Rabs_minus_sym D d). fold A. assert (IA : Rabs (/ D) = / A) by (apply Rabs_inv). rewrite IA.
    apply Rle_trans with ((10001 / 10000 * eps32 * A) * (100000 / 99999 * / A * / A)).
    + apply Rmult_le_compat; [apply Rabs_pos|apply Rmult_le_pos; [apply Rabs_pos|left; now apply Rinv_0_lt_compat]|exact R2|].
      apply Rmult_le_compat_r; [left; now apply Rinv_0_lt_compat|exact IL].
    + replace (10001 / 10000 * eps32 * A * (100000 / 99999 * / A * / A)) with ((10001 / 10000 * (100000 / 99999)) * (eps32 * / A)) by (field; lra).
      replace (1002 / 1000 * eps32 * / A + 0 * eta32) with (1002 / 1000 * (eps32 * / A)) by ring.
      apply Rmult_le_compat_r; [|lra]. apply Rmult_le_pos; [lra|left; now apply Rinv_0_lt_compat].
Qed.

Section Line.
Variables bp wp li ga mu off x : f32.
Definition small (v : f32) : Prop := valid32 v /\ fin32 v /\ Rabs (R32 v) <= K20.
Hypothesis Hbp : small bp.
Hypothesis Hwp : small wp.
Hypothesis Hli : small li.
Hypothesis Hga : small ga.
Hypothesis Hmu : small mu.
Hypothesis Hoff : small off.
Hypothesis Hx : small x.
Let D := R32 wp - R32 bp.
Hypothesis HD : / K20 <= Rabs D.
Definition S_ : R := R32 mu * (R32 ga - R32 li) / D.

Lemma exact_stands v : small v -> stands v (R32 v) 0 (Rabs (R32 v)) 0 K20.
Proof. intros (V & F & B). now apply stands_exact. Qed.
Lemma huge_big : huge = 10000000000000000000000000000000000000000.
Proof. unfold huge. rewrite pow_IZR. reflexivity. Qed.
Lemma big98 : 300000000000000000000000000000 <= bpow radix2 98.
Proof. change (bpow radix2 98) with (IZR (2 ^ 98)). change (2 ^ 98)%Z with 316912650057057350374175801344%Z. lra. Qed.
Lemma big90 : 1000000000000000000000000000 <= bpow radix2 90.
Proof. change (bpow radix2 90) with (IZR (2 ^ 90)). change (2 ^ 90)%Z with 1237940039285380274899124224%Z. lra. Qed.
Lemma stands_diff a b : small a -> small b -> stands (f32_sub a b) (R32 a - R32 b) (1001 / 1000) (Rabs (R32 a - R32 b)) 1 (2 * K20).
Proof.
  intros (Va & Fa & Ba) (Vb & Fb & Bb).
  assert (T : Rabs (R32 a - R32 b) <= 2 * K20) by (unfold Rminus; eapply Rle_trans; [apply Rabs_triang|]; rewrite Rabs_Ropp; lra).
  assert (W : Rabs (R32 a - R32 b) <= bpow radix2 100).
  { eapply Rle_trans; [exact T|]. unfold K20. apply Rle_trans with (bpow radix2 21); [simpl; lra|apply bpow_le; lia]. }
  destruct (sub_real a b Va Vb Fa Fb (within _ 100 ltac:(lia) W)) as (F & E).
  split; [now apply sub_valid|]. split; [exact F|]. split; [|split; [lra|exact T]]. rewrite E.
  eapply Rle_trans; [apply RN_err|]. rewrite Rmult_1_l. apply Rplus_le_compat_r. apply Rmult_le_compat_r; [apply Rabs_pos|].
  pose proof eps_small. lra.
Qed.
Lemma stands_total a b : small a -> small b -> stands (f32_add a b) (R32 a + R32 b) (1001 / 1000) (Rabs (R32 a + R32 b)) 1 (2 * K20).
Proof.
  intros (Va & Fa & Ba) (Vb & Fb & Bb).
  assert (T : Rabs (R32 a + R32 b) <= 2 * K20) by (eapply Rle_trans; [apply Rabs_triang|]; lra).
  assert (W : Rabs (R32 a + R32 b) <= bpow radix2 100).
  { eapply Rle_trans; [exact T|]. unfold K20. apply Rle_trans with (bpow radix2 21); [simpl; lra|apply bpow_le; lia]. }
  destruct (add_real a b Va Vb Fa Fb (within _ 100 ltac:(lia) W)) as (F & E).
  split; [now apply add_valid|]. split; [exact F|]. split; [|split; [lra|exact T]]. rewrite E.
  eapply Rle_trans; [apply RN_err|]. rewrite Rmult_1_l. apply Rplus_le_compat_r. apply Rmult_le_compat_r; [apply Rabs_pos|].
  pose proof eps_small. lra.
Qed.

Lemma slope_stands : stands (slope bp wp li ga mu) S_ (4009 / 1000) (Rabs S_) (4 * ((4 * K20 + 1) * (2 * K20)) + 1) (2 * K20 * K20 * K20).
Proof.
  pose proof huge_big as HU. pose proof big90 as H90. pose proof big98 as H98. unfold slope.
  pose proof (stands_diff ga li Hga Hli) as G.
  pose proof (stands_mul mu (f32_sub ga li) _ _ 0 (1001 / 1000) _ _ 0 1 K20 (2 * K20) (exact_stands mu Hmu) G ltac:(lra) ltac:(lra)
    ltac:(rewrite HU; lra) ltac:(rewrite HU; lra) ltac:(lra) ltac:(unfold K20; lra) ltac:(unfold K20; lra)
    ltac:(unfold K20; lra) ltac:(unfold K20; lra) ltac:(unfold K20; lra)) as P.
  set (m := f32_mul mu (f32_sub ga li)) in *. set (U := R32 mu * (R32 ga - R32 li)) in *.
  replace (Rabs (R32 mu) * Rabs (R32 ga - R32 li)) with (Rabs U) in P by (unfold U; apply Rabs_mult).
  destruct Hwp as (Vw & Fw & Bw), Hbp as (Vb & Fb & Bb).
  destruct (divisor wp bp Vw Fw Vb Fb Bw Bb HD) as (Vd & Fd & Nd & Bd & Dd). fold D in Dd.
  set (d := f32_sub wp bp) in *. destruct P as (Vm & Fm & Dm & Um & Bm).
  assert (DK : Rabs (/ D) <= K20).
  { rewrite Rabs_inv, <- (Rinv_inv K20). apply Rinv_le_contravar; [|exact HD]. apply Rinv_0_lt_compat. unfold K20. lra. }
  replace (0 + 1001 / 1000 + 1002 / 1000) with (2003 / 1000) in Dm by lra.
  pose proof (close_mul (R32 m) (/ R32 d) U (/ D) (2003 / 1000) (1002 / 1000) (Rabs U) (Rabs (/ D)) (4 * (0 * (2 * K20) + 1 * K20) + 1) 0 (K20 * (2 * K20)) K20
    Um Bm (Rle_refl _) DK ltac:(lra) ltac:(lra) ltac:(rewrite HU; unfold K20; lra) ltac:(rewrite HU; lra) ltac:(unfold K20; lra)
    ltac:(unfold K20; lra) Dm Dd) as C.
  assert (ES : U * / D = S_) by reflexivity. rewrite ES in C.
  assert (MS : Rabs U * Rabs (/ D) = Rabs S_) by (rewrite <- Rabs_mult; reflexivity). rewrite MS in C.
  assert (SB : Rabs S_ <= 2 * K20 * K20 * K20).
  { rewrite <- MS. replace (2 * K20 * K20 * K20) with (K20 * (2 * K20) * K20) by ring. apply Rmult_le_compat; try apply Rabs_pos; assumption. }
  assert (W : Rabs (R32 m / R32 d) <= bpow radix2 100).
  { unfold Rdiv. replace (R32 m * / R32 d) with (S_ + (R32 m * / R32 d - S_)) by ring. eapply Rle_trans; [apply Rabs_triang|].
    assert (Rabs (R32 m * / R32 d - S_) <= Rabs S_ + 1).
    { eapply Rle_trans; [exact C|]. apply Rplus_le_compat.
      - rewrite <- (Rmult_1_l (Rabs S_)) at 2. apply Rmult_le_compat_r; [apply Rabs_pos|]. pose proof eps_small. lra.
      - destruct eta_small as (T0 & T1). rewrite HU in T1. unfold K20. lra. }
    apply Rle_trans with (bpow radix2 98); [|apply bpow_le; lia]. unfold K20 in SB. lra. }
  destruct (div_real m d Vm Vd Fm Nd (within _ 100 ltac:(lia) W)) as (F & E).
  split; [now apply div_valid|]. split; [exact F|]. rewrite E. split; [|split; [lra|exact SB]].
  pose proof (round_close _ _ _ _ _ C (Rle_refl _) ltac:(lra) ltac:(unfold K20; lra)) as R1.
  eapply Rle_trans; [exact R1|]. apply Rplus_le_compat; [|apply Rmult_le_compat_r; [left; apply eta_pos|unfold K20; lra]].
  apply Rmult_le_compat_r; [apply Rabs_pos|]. apply Rmult_le_compat_r; [left; apply eps_small|lra].
Qed.

(** The exact line, and how large its terms are. *)
Definition line_ : R := S_ * (R32 x - R32 bp) + (R32 off + R32 li).
Definition terms : R := Rabs S_ * Rabs (R32 x) + (Rabs (R32 off + R32 li) + Rabs S_ * Rabs (R32 bp)).
Lemma line_stands : exists k N, 0 <= k <= 71 / 10 /\ 0 <= N <= 10 ^ 21 /\
  stands (f32_add (f32_mul (slope bp wp li ga mu) x) (shift bp wp li ga mu off)) line_ k terms N (6 * K20 * K20 * K20 * K20).
Proof.
  pose proof huge_big as HU. pose proof big90 as H90. pose proof big98 as H98. unfold shift.
  pose proof slope_stands as A. set (a := slope bp wp li ga mu) in *.
  set (N := 4 * ((4 * K20 + 1) * (2 * K20)) + 1) in *. assert (HN : 0 <= N <= 10 ^ 14) by (unfold N, K20; lra).
  set (B := 2 * K20 * K20 * K20) in *. assert (HB : 1 <= B <= 10 ^ 19) by (unfold B, K20; lra).
  assert (BK : B * K20 <= 10 ^ 25) by (unfold B, K20; lra).
  pose proof (stands_mul a x _ _ _ 0 _ _ N 0 B K20 A (exact_stands x Hx) ltac:(lra) ltac:(lra) ltac:(rewrite HU; lra) ltac:(rewrite HU; lra)
    ltac:(lra) ltac:(lra) ltac:(unfold K20; lra) ltac:(lra) ltac:(lra) ltac:(unfold K20; lra)) as X.
  pose proof (stands_mul a bp _ _ _ 0 _ _ N 0 B K20 A (exact_stands bp Hbp) ltac:(lra) ltac:(lra) ltac:(rewrite HU; lra) ltac:(rewrite HU; lra)
    ltac:(lra) ltac:(lra) ltac:(unfold K20; lra) ltac:(lra) ltac:(lra) ltac:(unfold K20; lra)) as Y.
  pose proof (stands_total off li Hoff Hli) as Q.
  set (N2 := 4 * (N * K20 + 0 * B) + 1) in *. assert (HN2 : 0 <= N2 <= 16 * 10 ^ 19) by (unfold N2, N, K20; lra).
  pose proof (stands_sub _ _ _ _ _ _ _ _ _ _ _ _ Q Y ltac:(lra) ltac:(lra) ltac:(rewrite HU; lra) ltac:(rewrite HU; lra) (5011 / 1000)
    ltac:(lra) ltac:(lra) ltac:(lra) ltac:(unfold K20 at 1; lra)) as P.
  pose proof (stands_add _ _ _ _ _ _ _ _ _ _ _ _ X P ltac:(lra) ltac:(lra) ltac:(rewrite HU; lra) ltac:(rewrite HU; lra) (6012 / 1000)
    ltac:(lra) ltac:(lra) ltac:(lra) ltac:(unfold K20 at 2; lra)) as Z.
  exists (6012 / 1000 + 1001 / 1000), (2 * (N2 + (2 * (1 + N2) + 1)) + 1). split; [lra|]. split; [lra|].
  destruct Z as (Z1 & Z2 & Z3 & Z4 & Z5). unfold line_, terms.
  replace (S_ * (R32 x - R32 bp) + (R32 off + R32 li)) with (S_ * R32 x + (R32 off + R32 li - S_ * R32 bp)) by ring.
  split; [exact Z1|]. split; [exact Z2|]. split; [exact Z3|]. split; [exact Z4|]. unfold B, K20 in *. lra.
Qed.

(** Blending the line with the value by a mask between zero and one. *)
Variable mask : f32.
Hypothesis Vk : valid32 mask.
Hypothesis Fk : fin32 mask.
Hypothesis Bk : 0 <= R32 mask <= 1.
Lemma blend_stands y k N : 0 <= k <= 71 / 10 -> 0 <= N <= 10 ^ 21 -> stands y line_ k terms N (6 * K20 * K20 * K20 * K20) ->
  let w := f32_add (f32_mul y mask) (f32_mul x (f32_sub f32_one mask)) in
  f32_ok w /\ f32_finite w /\
  Rabs (R32 w - (R32 mask * line_ + (1 - R32 mask) * R32 x)) <= 10 * eps32 * (R32 mask * terms + (1 - R32 mask) * Rabs (R32 x)) + 10 ^ 23 * eta32.
Proof.
  intros HK HN Y w. pose proof huge_big as HU. pose proof big90 as H90. pose proof big98 as H98.
  destruct one_real as (V1 & F1 & E1).
  assert (SM : stands mask (R32 mask) 0 (R32 mask) 0 1).
  { split; [exact Vk|]. split; [exact Fk|]. replace (R32 mask - R32 mask) with 0 by ring. rewrite Rabs_R0, Rabs_pos_eq by lra. lra. }
  set (B := 6 * K20 * K20 * K20 * K20) in *. assert (HB : 1 <= B <= 10 ^ 25) by (unfold B, K20; lra).
  pose proof (stands_mul y mask _ _ _ 0 _ _ N 0 B 1 Y SM ltac:(lra) ltac:(lra) ltac:(rewrite HU; lra) ltac:(rewrite HU; lra)
    ltac:(lra) ltac:(lra) ltac:(lra) ltac:(lra) ltac:(lra) ltac:(lra)) as P.
  assert (T1 : small f32_one) by (split; [exact V1|]; split; [exact F1|]; rewrite E1, Rabs_R1; unfold K20; lra).
  assert (T2 : small mask) by (split; [exact Vk|]; split; [exact Fk|]; rewrite Rabs_pos_eq by lra; unfold K20; lra).
  pose proof (stands_diff f32_one mask T1 T2) as Q. rewrite E1 in Q. rewrite (Rabs_pos_eq (1 - R32 mask)) in Q by lra.
  pose proof (stands_mul x (f32_sub f32_one mask) _ _ 0 _ _ _ 0 1 K20 (2 * K20) (exact_stands x Hx) Q ltac:(lra) ltac:(lra) ltac:(rewrite HU; lra) ltac:(rewrite HU; lra)
    ltac:(lra) ltac:(unfold K20; lra) ltac:(unfold K20; lra) ltac:(unfold K20; lra) ltac:(unfold K20; lra) ltac:(unfold K20; lra)) as R1.
  pose proof (stands_add _ _ _ _ _ _ _ _ _ _ _ _ P R1 ltac:(lra) ltac:(lra) ltac:(rewrite HU; lra) ltac:(rewrite HU; unfold K20; lra) (82 / 10)
    ltac:(lra) ltac:(lra) ltac:(lra) ltac:(unfold B, K20; lra)) as Z.
  fold w in Z. destruct Z as (Z1 & Z2 & Z3 & Z4 & Z5). split; [exact Z1|].
  split; [revert Z2; destruct w; unfold fin32; cbn; intros; (exact I || discriminate)|].
  replace (R32 mask * line_ + (1 - R32 mask) * R32 x) with (line_ * R32 mask + R32 x * (1 - R32 mask)) by ring.
  replace (R32 mask * terms + (1 - R32 mask) * Rabs (R32 x)) with (terms * R32 mask + Rabs (R32 x) * (1 - R32 mask)) by ring.
  eapply Rle_trans; [exact Z3|]. apply Rplus_le_compat.
  - apply Rmult_le_compat_r; [eapply Rle_trans; [apply Rabs_pos|exact Z4]|]. apply Rmult_le_compat_r; [left; apply eps_small|lra].
  - apply Rmult_le_compat_r; [left; apply eta_pos|]. unfold K20. lra.
Qed.
End Line.

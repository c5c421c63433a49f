(** Powers of numbers that are known up to rounding (uses the axioms of Coq's
    real numbers). *)
From Coq Require Import Reals Floats.SpecFloat Psatz.
From Flocq Require Import Core.Core.
From Verif Require Import Machine FloatModel FloatReal GeomReal UndoReal MergeSpec GradeModel LineReal.
Local Open Scope R_scope.

Lemma exp_close t : Rabs t <= / 100 -> Rabs (exp t - 1) <= 102 / 100 * Rabs t.
Proof.
  intros H. pose proof (exp_ineq1_le t) as A. pose proof (exp_ineq1_le (- t)) as B.
  assert (E : exp t * exp (- t) = 1) by (rewrite <- exp_plus, Rplus_opp_r, exp_0; reflexivity).
  pose proof (exp_pos t) as P. set (x := exp t) in *. set (y := exp (- t)) in *.
  assert (X : x <= 102 / 100 * Rabs t + 1 /\ 1 - 102 / 100 * Rabs t <= x).
  { unfold Rabs in *. destruct (Rcase_abs t) as [N|N]; split; try nra. }
  apply Rabs_le. lra.
Qed.
Lemma ln_close d : Rabs d <= / 1000 -> Rabs (ln (1 + d)) <= 1002 / 1000 * Rabs d.
Proof.
  intros H. assert (P : 0 < 1 + d) by (unfold Rabs in H; destruct (Rcase_abs d); lra).
  set (t := ln (1 + d)). assert (E : exp t = 1 + d) by now apply exp_ln.
  pose proof (exp_ineq1_le t) as A. pose proof (exp_ineq1_le (- t)) as B.
  assert (M : exp t * exp (- t) = 1) by (rewrite <- exp_plus, Rplus_opp_r, exp_0; reflexivity).
  rewrite E in *. set (y := exp (- t)) in *.
  apply Rabs_le. unfold Rabs in *. destruct (Rcase_abs d) as [N|N]; split; try lra.
  - assert (y <= 1 - 1002 / 1000 * d) by nra. lra.
  - assert (y <= 1 + 1002 / 1000 * d) by nra. lra.
Qed.
Lemma power_close L u g g' d e : 0 < L -> Rabs (u - L) <= d * L -> 0 <= d <= / 1000 -> 0 < g -> Rabs (g' - g) <= e * g -> 0 <= e <= / 10000 ->
  g * (1003 / 1000 * d + e * Rabs (ln L)) <= / 100 ->
  0 < u /\ Rabs (Rpower u g' - Rpower L g) <= 102 / 100 * (g * (1003 / 1000 * d + e * Rabs (ln L))) * Rpower L g.
Proof.
  intros PL D HD PG G HE T. set (x := (u - L) / L).
  assert (X : Rabs x <= d).
  { unfold x, Rdiv. rewrite Rabs_mult, Rabs_inv, (Rabs_pos_eq L) by lra. apply Rmult_le_reg_r with L; [exact PL|].
    rewrite Rmult_assoc, Rinv_l by lra. lra. }
  assert (U : u = L * (1 + x)) by (unfold x; field; lra).
  assert (P1 : 0 < 1 + x) by (unfold Rabs in X; destruct (Rcase_abs x); lra).
  assert (PU : 0 < u) by (rewrite U; apply Rmult_lt_0_compat; lra). split; [exact PU|].
  pose proof (ln_close x ltac:(lra)) as LX.
  assert (LU : ln u = ln L + ln (1 + x)) by (rewrite U; apply ln_mult; lra).
  set (t := g' * ln (1 + x) + (g' - g) * ln L).
  assert (ET : g' * ln u = g * ln L + t) by (rewrite LU; unfold t; ring).
  assert (GB : Rabs g' <= 10001 / 10000 * g).
  { replace g' with (g + (g' - g)) by ring. eapply Rle_trans; [apply Rabs_triang|]. rewrite (Rabs_pos_eq g) by lra. nra. }
  assert (TB : Rabs t <= g * (1003 / 1000 * d + e * Rabs (ln L))).
  { unfold t. eapply Rle_trans; [apply Rabs_triang|]. rewrite !Rabs_mult.
    assert (Rabs g' * Rabs (ln (1 + x)) <= (10001 / 10000 * g) * (1002 / 1000 * d)) by (apply Rmult_le_compat; try apply Rabs_pos; lra).
    assert (Rabs (g' - g) * Rabs (ln L) <= (e * g) * Rabs (ln L)) by (apply Rmult_le_compat_r; [apply Rabs_pos|exact G]).
    assert (0 <= g * d) by (apply Rmult_le_pos; lra). lra. }
  unfold Rpower. rewrite ET, exp_plus. replace (exp (g * ln L) * exp t - exp (g * ln L)) with ((exp t - 1) * exp (g * ln L)) by ring.
  rewrite Rabs_mult, (Rabs_pos_eq (exp (g * ln L))) by (left; apply exp_pos).
  apply Rmult_le_compat_r; [left; apply exp_pos|]. eapply Rle_trans; [apply exp_close; lra|]. lra.
Qed.

(** The blend of two values by a mask between zero and one. *)
Lemma blend_exact y x mask : valid32 y -> fin32 y -> Rabs (R32 y) <= 10 ^ 25 -> small x ->
  valid32 mask -> fin32 mask -> 0 <= R32 mask <= 1 ->
  let w := f32_add (f32_mul y mask) (f32_mul x (f32_sub f32_one mask)) in
  valid32 w /\ fin32 w /\
  Rabs (R32 w - (R32 mask * R32 y + (1 - R32 mask) * R32 x)) <= 4 * eps32 * (R32 mask * Rabs (R32 y) + (1 - R32 mask) * Rabs (R32 x)) + 10 ^ 23 * eta32.
Proof.
  intros Vy Fy By Hx Vk Fk Bk w. pose proof huge_big as HU. pose proof big90 as H90. pose proof big98 as H98.
  destruct one_real as (V1 & F1 & E1).
  assert (SM : stands mask (R32 mask) 0 (R32 mask) 0 1).
  { split; [exact Vk|]. split; [exact Fk|]. replace (R32 mask - R32 mask) with 0 by ring. rewrite Rabs_R0, Rabs_pos_eq by lra. lra. }
  pose proof (stands_exact y (10 ^ 25) Vy Fy By) as Y.
  pose proof (stands_mul y mask _ _ 0 0 _ _ 0 0 (10 ^ 25) 1 Y SM ltac:(lra) ltac:(lra) ltac:(rewrite HU; lra) ltac:(rewrite HU; lra)
    ltac:(lra) ltac:(lra) ltac:(lra) ltac:(lra) ltac:(lra) ltac:(lra)) as P.
  assert (T1 : small f32_one) by (split; [exact V1|]; split; [exact F1|]; rewrite E1, Rabs_R1; unfold K20; lra).
  assert (T2 : small mask) by (split; [exact Vk|]; split; [exact Fk|]; rewrite Rabs_pos_eq by lra; unfold K20; lra).
  pose proof (stands_diff f32_one mask T1 T2) as Q. rewrite E1 in Q. rewrite (Rabs_pos_eq (1 - R32 mask)) in Q by lra.
  pose proof (stands_mul x (f32_sub f32_one mask) _ _ 0 _ _ _ 0 1 K20 (2 * K20) (exact_stands x Hx) Q ltac:(lra) ltac:(lra) ltac:(rewrite HU; lra) ltac:(rewrite HU; lra)
    ltac:(lra) ltac:(unfold K20; lra) ltac:(unfold K20; lra) ltac:(unfold K20; lra) ltac:(unfold K20; lra) ltac:(unfold K20; lra)) as R1.
  pose proof (stands_add _ _ _ _ _ _ _ _ _ _ _ _ P R1 ltac:(lra) ltac:(lra) ltac:(rewrite HU; lra) ltac:(rewrite HU; unfold K20; lra) (21 / 10)
    ltac:(lra) ltac:(lra) ltac:(lra) ltac:(unfold K20; lra)) as Z.
  fold w in Z. destruct Z as (Z1 & Z2 & Z3 & Z4 & Z5). split; [exact Z1|]. split; [exact Z2|].
  replace (R32 mask * R32 y + (1 - R32 mask) * R32 x) with (R32 y * R32 mask + R32 x * (1 - R32 mask)) by ring.
  replace (R32 mask * Rabs (R32 y) + (1 - R32 mask) * Rabs (R32 x)) with (Rabs (R32 y) * R32 mask + Rabs (R32 x) * (1 - R32 mask)) by ring.
  eapply Rle_trans; [exact Z3|]. apply Rplus_le_compat.
  - apply Rmult_le_compat_r; [eapply Rle_trans; [apply Rabs_pos|exact Z4]|]. apply Rmult_le_compat_r; [left; apply eps_small|lra].
  - apply Rmult_le_compat_r; [left; apply eta_pos|]. unfold K20. lra.
Qed.

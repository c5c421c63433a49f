(** Undoing the linear part of a grade: error bound (uses the axioms of Coq's
    real numbers). *)
From Coq Require Import Reals Floats.SpecFloat Psatz.
From Flocq Require Import Core.Core.
From Verif Require Import Machine FloatModel FloatReal GeomReal MergeSpec GradeModel.
Local Open Scope R_scope.

Definition K20 : R := 1048576.

Lemma hK : eta32 * K20 = bpow radix2 (-130).
Proof. unfold eta32. change (-130)%Z with (-150 + 20)%Z. rewrite bpow_plus. reflexivity. Qed.
Lemma hK_small : 0 < bpow radix2 (-130) <= eps32 * eps32.
Proof.
  split; [apply bpow_gt_0|]. apply Rle_trans with (bpow radix2 (-48)); [apply bpow_le; discriminate|].
  change (-48)%Z with (-24 + -24)%Z. rewrite bpow_plus. right. reflexivity.
Qed.

Section Undo.
Variables A B X m y i c q z : R.
Hypothesis HA : / K20 <= Rabs A <= K20.
Hypothesis HB : Rabs B <= K20.
Hypothesis Hm : Rabs (m - A * X) <= eps32 * Rabs (A * X) + eta32.
Hypothesis Hy : Rabs (y - (m + B)) <= eps32 * Rabs (m + B) + eta32.
Hypothesis Hi : Rabs (i - / A) <= eps32 * Rabs (/ A) + eta32.
Hypothesis Hc : Rabs (c - - B * i) <= eps32 * Rabs (- B * i) + eta32.
Hypothesis Hq : Rabs (q - y * i) <= eps32 * Rabs (y * i) + eta32.
Hypothesis Hz : Rabs (z - (q + c)) <= eps32 * Rabs (q + c) + eta32.

Lemma undo_real : Rabs (z - X) <= 12 * eps32 * (Rabs X + Rabs (B / A)) + bpow radix2 (-126).
Proof.
  pose proof hK as HK. pose proof hK_small as HS. pose proof eta_pos as HP.
  set (t := bpow radix2 (-130)) in *.
  assert (T6 : bpow radix2 (-126) = 16 * t) by (unfold t; change (-126)%Z with (4 + -130)%Z; rewrite bpow_plus; reflexivity).
  rewrite T6. set (I := / A). change (B / A) with (B * I).
  assert (E0 : 0 < eps32 <= / 1000000) by (unfold eps32; lra).
  assert (KP : 1 < K20) by (unfold K20; lra).
  assert (ht : eta32 <= t) by (clear - HK KP HP; nra).
  assert (NA : A <> 0). { intros ->. rewrite Rabs_R0 in HA. assert (0 < / K20) by (apply Rinv_0_lt_compat; lra). lra. }
  assert (IA : I * A = 1) by (unfold I; now apply Rinv_l).
  assert (HI : Rabs I <= K20).
  { unfold I. rewrite Rabs_inv. assert (0 < / K20) by (apply Rinv_0_lt_compat; lra).
    rewrite <- (Rinv_inv K20). apply Rinv_le_contravar; lra. }
  fold I in Hi.
  assert (AI : Rabs A * Rabs I = 1) by (rewrite <- Rabs_mult, Rmult_comm, IA; apply Rabs_R1).
  pose proof (Rabs_pos A) as PA. pose proof (Rabs_pos I) as PI. pose proof (Rabs_pos X) as PX. pose proof (Rabs_pos B) as PB.
  pose proof (Rabs_pos (B * I)) as PN.
  set (M := Rabs X) in *. set (N := Rabs (B * I)) in *.
  assert (EM : forall u, 0 <= u -> 0 <= eps32 * u <= u * / 1000000) by (clear - E0; intros u U; nra).
  assert (EL : forall u v, u <= v -> eps32 * u <= eps32 * v) by (clear - E0; intros u v U; nra).
  pose proof (EM M PX) as EM1. pose proof (EM N PN) as EM2. pose proof (EM _ (proj1 EM1)) as EM3. pose proof (EM _ (proj1 EM2)) as EM4.
  pose proof (EM t ltac:(lra)) as EM5. pose proof (EM _ (proj1 EM5)) as EM6.
  assert (tri : forall u v w r s, Rabs (u - v) <= r -> Rabs (v - w) <= s -> Rabs (u - w) <= r + s).
  { intros u v w r s H1 H2. replace (u - w) with ((u - v) + (v - w)) by ring. eapply Rle_trans; [apply Rabs_triang|]. lra. }
  assert (bnd : forall u v r, Rabs (u - v) <= r -> Rabs u <= Rabs v + r).
  { intros u v r H1. replace u with (v + (u - v)) by ring. eapply Rle_trans; [apply Rabs_triang|]. lra. }
  (* S1 *)
  assert (S1 : Rabs (m * I - X) <= eps32 * M + t).
  { replace (m * I - X) with ((m - A * X) * I) by (rewrite Rmult_minus_distr_r; replace (A * X * I) with (I * A * X) by ring; rewrite IA; ring).
    rewrite Rabs_mult. apply Rle_trans with ((eps32 * Rabs (A * X) + eta32) * Rabs I); [apply Rmult_le_compat_r; assumption|].
    rewrite Rabs_mult. fold M. replace ((eps32 * (Rabs A * M) + eta32) * Rabs I) with (eps32 * M * (Rabs A * Rabs I) + eta32 * Rabs I) by ring.
    rewrite AI. assert (eta32 * Rabs I <= t) by (rewrite <- HK; apply Rmult_le_compat_l; lra). lra. }
  (* S2 *)
  assert (S2 : Rabs (y * I - (X + B * I)) <= 3 * eps32 * (M + N) + 3 * t).
  { assert (Q : Rabs ((m + B) * I) <= M + (eps32 * M + t) + N).
    { replace ((m + B) * I) with (m * I + B * I) by ring. eapply Rle_trans; [apply Rabs_triang|]. fold N. pose proof (bnd _ _ _ S1). fold M in H. lra. }
    assert (P : Rabs (y * I - (m + B) * I) <= eps32 * (M + (eps32 * M + t) + N) + t).
    { replace (y * I - (m + B) * I) with ((y - (m + B)) * I) by ring. rewrite Rabs_mult.
      apply Rle_trans with ((eps32 * Rabs (m + B) + eta32) * Rabs I); [apply Rmult_le_compat_r; assumption|].
      rewrite Rmult_plus_distr_r, Rmult_assoc, <- Rabs_mult. apply Rplus_le_compat; [apply Rmult_le_compat_l; lra|rewrite <- HK; apply Rmult_le_compat_l; lra]. }
    assert (P2 : Rabs ((m + B) * I - (X + B * I)) <= eps32 * M + t) by (replace ((m + B) * I - (X + B * I)) with (m * I - X) by ring; exact S1).
    pose proof (tri _ _ _ _ _ P P2) as P3. eapply Rle_trans; [exact P3|].
    lra. }
  assert (YB : Rabs (y * I) <= 101 / 100 * (M + N) + 3 * t).
  { pose proof (bnd _ _ _ S2) as H. assert (Rabs (X + B * I) <= M + N) by apply Rabs_triang. lra. }
  set (Y := Rabs (y * I)) in *. assert (PY : 0 <= Y) by apply Rabs_pos.
  assert (Yy : Rabs y <= Y * K20).
  { unfold Y. replace y with (y * I * A) at 1 by (rewrite Rmult_assoc, IA; ring). rewrite Rabs_mult. apply Rmult_le_compat_l; [apply Rabs_pos|lra]. }
  assert (S3 : Rabs (y * i - y * I) <= 2 * eps32 * Y).
  { rewrite <- Rmult_minus_distr_l, Rabs_mult. apply Rle_trans with (Rabs y * (eps32 * Rabs I + eta32)); [apply Rmult_le_compat_l; [apply Rabs_pos|exact Hi]|].
    replace (Rabs y * (eps32 * Rabs I + eta32)) with (eps32 * (Rabs y * Rabs I) + Rabs y * eta32) by ring. rewrite <- Rabs_mult. fold Y.
    assert (Rabs y * eta32 <= Y * t) by (rewrite <- HK; apply Rle_trans with (Y * K20 * eta32); [apply Rmult_le_compat_r; lra|right; ring]).
    assert (Y * t <= Y * (eps32 * eps32)) by (apply Rmult_le_compat_l; lra).
    pose proof (EM Y PY) as Q1. pose proof (EM _ (proj1 Q1)) as Q2. lra. }
  assert (S4 : Rabs (q - y * I) <= 4 * eps32 * Y + t).
  { eapply Rle_trans; [eapply tri; [exact Hq|exact S3]|]. pose proof (bnd _ _ _ S3) as H. fold Y in H. apply EL in H.
    pose proof (EM Y PY) as Q1. pose proof (EM _ (proj1 Q1)) as Q2. lra. }
  assert (BK : Rabs B * eta32 <= t) by (rewrite <- HK, (Rmult_comm eta32); apply Rmult_le_compat_r; lra).
  assert (S5a : Rabs (- B * i - - (B * I)) <= eps32 * N + t).
  { replace (- B * i - - (B * I)) with (- B * (i - I)) by ring. rewrite Rabs_mult, Rabs_Ropp.
    apply Rle_trans with (Rabs B * (eps32 * Rabs I + eta32)); [apply Rmult_le_compat_l; assumption|].
    replace (Rabs B * (eps32 * Rabs I + eta32)) with (eps32 * (Rabs B * Rabs I) + Rabs B * eta32) by ring. rewrite <- Rabs_mult. fold N. lra. }
  assert (S5 : Rabs (c - - (B * I)) <= 3 * eps32 * N + 3 * t).
  { eapply Rle_trans; [eapply tri; [exact Hc|exact S5a]|]. pose proof (bnd _ _ _ S5a) as H. rewrite Rabs_Ropp in H. fold N in H. apply EL in H. lra. }
  apply EL in YB. rename YB into YB'.
  assert (S6 : Rabs (q + c - X) <= 21 / 2 * eps32 * (M + N) + 9 * t).
  { replace (q + c - X) with ((q - y * I) + (y * I - (X + B * I)) + (c - - (B * I))) by ring.
    eapply Rle_trans; [apply Rabs_triang|]. eapply Rle_trans; [apply Rplus_le_compat_r, Rabs_triang|]. lra. }
  eapply Rle_trans; [eapply tri; [exact Hz|exact S6]|]. pose proof (bnd _ _ _ S6) as H. fold M in H. apply EL in H. lra.
Qed.
End Undo.

Lemma within x k : (0 <= k <= 100)%Z -> Rabs x <= bpow radix2 k -> in_range32 x.
Proof. intros H. apply in_range_bpow; lia. Qed.
Lemma K_bpow : K20 = bpow radix2 20. Proof. reflexivity. Qed.
Lemma RN_size x k : (0 <= k <= 100)%Z -> Rabs x <= bpow radix2 k -> Rabs (RN x) <= bpow radix2 k.
Proof.
  intros H L. unfold RN. apply abs_round_le_generic; [apply _|apply _| |exact L].
  change (SpecFloat.fexp prec32 emax32) with (FLT_exp (-149) 24). apply generic_format_FLT_bpow; [reflexivity|lia].
Qed.
Lemma prod_size u v j k l : Rabs u <= bpow radix2 j -> Rabs v <= bpow radix2 k -> (j + k <= l)%Z -> Rabs (u * v) <= bpow radix2 l.
Proof.
  intros U V L. rewrite Rabs_mult. apply Rle_trans with (bpow radix2 j * bpow radix2 k);
    [apply Rmult_le_compat; (apply Rabs_pos || assumption)|]. rewrite <- bpow_plus. now apply bpow_le.
Qed.
Lemma sum_size u v j k : Rabs u <= bpow radix2 j -> Rabs v <= bpow radix2 j -> (j + 1 <= k)%Z -> Rabs (u + v) <= bpow radix2 k.
Proof.
  intros U V L. apply Rle_trans with (bpow radix2 (j + 1)); [|now apply bpow_le]. rewrite bpow_plus. change (bpow radix2 1) with 2.
  eapply Rle_trans; [apply Rabs_triang|]. lra.
Qed.

(** The two numbers that make the linear part of a grade. *)
Definition slope (bp wp li ga mu : f32) : f32 := f32_div (f32_mul mu (f32_sub ga li)) (f32_sub wp bp).
Definition shift (bp wp li ga mu off : f32) : f32 := f32_sub (f32_add off li) (f32_mul (slope bp wp li ga mu) bp).

Lemma eq_finite s m e q g : SFeqb (S754_finite s m e) (S754_finite false q g) = true -> S754_finite s m e = S754_finite false q g.
Proof.
  unfold SFeqb, SFcompare. destruct s; [discriminate|]. destruct (Z.compare_spec e g) as [->|L|L]; [|discriminate|discriminate].
  destruct (Pos.compare_cont Eq m q) eqn:E; [|discriminate|discriminate]. intros _. apply Pos.compare_eq in E. now subst.
Qed.
Lemma eq_one a : fin32 a -> f32_eq a f32_one = true -> a = f32_one.
Proof.
  intros F. destruct a as [s|s| |s m e]; [destruct s; discriminate|discriminate F|discriminate F|].
  exact (eq_finite s m e 8388608 (-23)).
Qed.

Lemma undo_linear powf bp wp li ga mu off x :
  (forall v, f32_finite v -> f32_ok v -> powf v f32_one = v) ->
  let a := slope bp wp li ga mu in let b := shift bp wp li ga mu off in
  f32_ok a -> f32_finite a -> f32_ok b -> f32_finite b -> f32_ok x -> f32_finite x ->
  / K20 <= Rabs (R32 a) <= K20 -> Rabs (R32 b) <= K20 -> Rabs (R32 x) <= K20 ->
  let y := grade_single powf x bp wp li ga mu off f32_one false in
  f32_ok y /\ f32_finite y /\
  forall y', f32_ok y' -> f32_finite y' -> R32 y' = R32 y \/ Rabs (R32 y') <= K20 ->
  let z := grade_single powf y' bp wp li ga mu off f32_one true in
  f32_ok z /\ f32_finite z /\ (R32 y' = R32 y -> Rabs (R32 z - R32 x) <= 12 * eps32 * (Rabs (R32 x) + Rabs (R32 b / R32 a)) + bpow radix2 (-126)).
Proof.
  intros P a b OA FA OB FB OX FX HA HB HX.
  assert (FF : forall v, f32_finite v <-> fin32 v) by (intros [s|s| |s m e]; unfold fin32; cbn; intuition discriminate).
  rewrite FF in FA, FB, FX. unfold f32_ok in *.
  destruct one_real as (V1 & F1 & R1).
  assert (D1 : f32_div f32_one f32_one = f32_one) by reflexivity.
  unfold grade_single. fold (slope bp wp li ga mu). fold (shift bp wp li ga mu off). fold a. fold b.
  change (f32_le f32_one f32_zero) with false. change (f32_eq f32_one f32_one) with true. cbn [negb]. cbv iota. rewrite D1.
  rewrite K_bpow in HA, HB, HX.
  set (m := f32_mul a x).
  destruct (mul_real a x OA OX FA FX (within _ 40 ltac:(lia) ltac:(eapply prod_size; [apply HA|exact HX|lia]))) as (Fm & Rm). fold m in Fm, Rm.
  assert (Om : valid32 m) by (now apply mul_valid).
  assert (Sm : Rabs (R32 m) <= bpow radix2 40) by (rewrite Rm; apply RN_size; [lia|]; eapply prod_size; [apply HA|exact HX|lia]).
  assert (SB : Rabs (R32 b) <= bpow radix2 40) by (eapply Rle_trans; [exact HB|apply bpow_le; lia]).
  assert (Smb : Rabs (R32 m + R32 b) <= bpow radix2 41) by (eapply sum_size; [exact Sm|exact SB|lia]).
  destruct (add_real m b Om OB Fm FB (within _ 41 ltac:(lia) Smb)) as (Fy & Ry).
  assert (Oy : valid32 (f32_add m b)) by (now apply add_valid).
  set (y0 := f32_add m b) in *.
  rewrite (P y0) by (assumption || now apply FF).
  split; [exact Oy|]. split; [now apply FF|]. intros y' Oy' Fy' Hy'. apply FF in Fy'.
  destruct (negb (f32_eq a f32_one) || negb (f32_eq b f32_zero)) eqn:C.
  - (* the linear part is undone *)
    assert (NZ : R32 a <> 0). { intros E. rewrite E, Rabs_R0 in HA. pose proof (Rinv_0_lt_compat _ (bpow_gt_0 radix2 20)). lra. }
    assert (EZ : f32_eq a f32_zero = false).
    { destruct a as [s|s| |s mm e]; try discriminate FA; [exfalso; apply NZ; reflexivity|]. destruct s; reflexivity. }
    rewrite EZ. cbn [negb]. cbv iota.
    assert (SI : Rabs (/ R32 a) <= bpow radix2 20).
    { rewrite Rabs_inv. rewrite <- (Rinv_inv (bpow radix2 20)). apply Rinv_le_contravar; [|apply HA]. apply Rinv_0_lt_compat, bpow_gt_0. }
    assert (DI : R32 f32_one / R32 a = / R32 a) by (rewrite R1; unfold Rdiv; ring).
    destruct (div_real f32_one a V1 OA F1 NZ) as (Fi & Ri); [apply (within _ 20); [lia|]; rewrite DI; exact SI|].
    assert (Oi : valid32 (f32_div f32_one a)) by (now apply div_valid). set (i := f32_div f32_one a) in *. rewrite DI in Ri.
    assert (Si : Rabs (R32 i) <= bpow radix2 20) by (rewrite Ri; apply RN_size; [lia|exact SI]).
    destruct (neg_real b) as (Rn & Fn & On). specialize (Fn FB). specialize (On OB).
    assert (Sn : Rabs (R32 (f32_neg b)) <= bpow radix2 20) by (rewrite Rn, Rabs_Ropp; exact HB).
    assert (Snb : Rabs (R32 (f32_neg b) * R32 i) <= bpow radix2 40) by (eapply prod_size; [exact Sn|exact Si|lia]).
    destruct (mul_real (f32_neg b) i On Oi Fn Fi (within _ 40 ltac:(lia) Snb)) as (Fc & Rc).
    assert (Oc : valid32 (f32_mul (f32_neg b) i)) by (now apply mul_valid). set (c := f32_mul (f32_neg b) i) in *.
    assert (Sy : Rabs (R32 y0) <= bpow radix2 41) by (rewrite Ry; apply RN_size; [lia|exact Smb]).
    assert (Sy' : Rabs (R32 y') <= bpow radix2 41).
    { destruct Hy' as [->|L]; [exact Sy|]. rewrite K_bpow in L. eapply Rle_trans; [exact L|apply bpow_le; lia]. }
    assert (Syi : Rabs (R32 y' * R32 i) <= bpow radix2 61) by (eapply prod_size; [exact Sy'|exact Si|lia]).
    destruct (mul_real y' i Oy' Oi Fy' Fi (within _ 61 ltac:(lia) Syi)) as (Fq & Rq).
    assert (Oq : valid32 (f32_mul y' i)) by (now apply mul_valid). set (q := f32_mul y' i) in *.
    assert (Sq : Rabs (R32 q) <= bpow radix2 61) by (rewrite Rq; apply RN_size; [lia|exact Syi]).
    assert (Sc : Rabs (R32 c) <= bpow radix2 61).
    { eapply Rle_trans; [rewrite Rc; apply (RN_size _ 40); [lia|exact Snb]|]. apply bpow_le. lia. }
    assert (Sqc : Rabs (R32 q + R32 c) <= bpow radix2 62) by (eapply sum_size; [exact Sq|exact Sc|lia]).
    destruct (add_real q c Oq Oc Fq Fc (within _ 62 ltac:(lia) Sqc)) as (Fz & Rz).
    split; [now apply add_valid|]. split; [now apply FF|]. intros Ry'.
    apply (undo_real (R32 a) (R32 b) (R32 x) (R32 m) (R32 y') (R32 i) (R32 c) (R32 q)); rewrite ?K_bpow; try assumption.
    + rewrite Rm. apply RN_err.
    + rewrite Ry', Ry. apply RN_err.
    + rewrite Ri. apply RN_err.
    + rewrite Rc, Rn. apply RN_err.
    + rewrite Rq. apply RN_err.
    + rewrite Rz. apply RN_err.
  - (* slope one, shift zero *)
    apply orb_false_elim in C. destruct C as (C1 & C2). apply negb_false_iff in C1, C2.
    split; [exact Oy'|]. split; [now apply FF|]. intros Ry'.
    assert (B0 : R32 b = 0). { destruct b as [s|s| |s mm e]; try discriminate FB; [reflexivity|]. destruct s; discriminate C2. }
    assert (A1 : a = f32_one) by (now apply eq_one).
    assert (X0 : R32 y0 = R32 x).
    { rewrite Ry, B0, Rplus_0_r, Rm, A1, R1, Rmult_1_l, RN_valid by assumption. now apply RN_valid. }
    rewrite Ry', X0. replace (R32 x - R32 x) with 0 by ring. rewrite Rabs_R0.
    pose proof (Rabs_pos (R32 x)). pose proof (Rabs_pos (R32 b / R32 a)). pose proof (bpow_gt_0 radix2 (-126)). unfold eps32. lra.
Qed.

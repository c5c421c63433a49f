(** Proofs: reversed grades with gammas other than one. *)
From Coq Require String.
Import String.StringSyntax.
From Coq Require Import Reals Floats.SpecFloat Psatz.
From Flocq Require Import Core.Core IEEE754.BinarySingleNaN.
From Verif Require Import Machine FloatModel FloatReal GeomReal RemapReal UndoReal AttrModel StreamModel MergeSpec MergeProofs GradeModel BakeSpec BakeProofs
  NodeModel NewSpec UndoSpec UndoProofs LineSpec LineReal LineProofs PowerSpec PowerReal PowerProofs.
Local Open Scope string_scope.
Local Open Scope R_scope.

(** ** Comparisons *)
Lemma lt_real x y : plain_value x -> plain_value y -> f32_lt x y = Rlt_bool (R32 x) (R32 y).
Proof.
  intros (H & F) (K & G). apply fin_iff in F, G. destruct (to_bf x H) as (a & -> & Ra & Fa), (to_bf y K) as (b & -> & Rb & Fb).
  unfold fin32 in *. rewrite Ra, Rb. apply (Bltb_correct _ _ a b); congruence.
Qed.
Lemma le_real x y : plain_value x -> plain_value y -> f32_le x y = Rle_bool (R32 x) (R32 y).
Proof.
  intros (H & F) (K & G). apply fin_iff in F, G. destruct (to_bf x H) as (a & -> & Ra & Fa), (to_bf y K) as (b & -> & Rb & Fb).
  unfold fin32 in *. rewrite Ra, Rb. apply (Bleb_correct _ _ a b); congruence.
Qed.
Lemma eq_real x y : plain_value x -> plain_value y -> f32_eq x y = Req_bool (R32 x) (R32 y).
Proof.
  intros (H & F) (K & G). apply fin_iff in F, G. destruct (to_bf x H) as (a & -> & Ra & Fa), (to_bf y K) as (b & -> & Rb & Fb).
  unfold fin32 in *. rewrite Ra, Rb. apply (Beqb_correct _ _ a b); congruence.
Qed.
Lemma plain_one : plain_value f32_one. Proof. split; reflexivity. Qed.
Lemma plain_zero s : plain_value (S754_zero s). Proof. split; reflexivity. Qed.

(** ** One channel *)
Section One.
Variable powf : f32 -> f32 -> f32.
Variable o : vals.
Variable c : colour.
Hypothesis ST : straight o c.

Lemma ahead v : vi o "reverse" = 0%Z -> plain_value v -> R32 v <> 0 ->
  graded_value powf o c v = powf v (f32_div f32_one (param o "gamma" c)).
Proof.
  intros RV (VO & VF) N.
  assert (E : graded_value powf o c v =
    powf (f32_add (f32_mul (slope_of o c) v) (shift_of o c)) (f32_div f32_one (param o "gamma" c))).
  { rewrite ?graded_value_eq; unfold grade_single. rewrite RV. reflexivity. }
  rewrite E. destruct ST as (-> & s & ->). change f32_one with (f32_of_Z 1) at 1. rewrite f32_one_mul by exact VO.
  destruct (add_zero_r' s v) as [->|(a & b & _ & Z0)]; [reflexivity|]. exfalso. apply N. rewrite Z0. reflexivity.
Qed.

Lemma back v : vi o "reverse" <> 0%Z -> plain_value v -> plain_value (param o "gamma" c) ->
  let g := param o "gamma" c in let x := R32 v in
  (R32 g <= 0 -> x <= 0 -> graded_value powf o c v = f32_zero) /\
  (R32 g <= 0 -> 0 < x -> graded_value powf o c v = f32_one) /\
  (R32 g = 1 \/ (0 < R32 g /\ x <= 0) -> graded_value powf o c v = v) /\
  (0 < R32 g -> R32 g <> 1 -> 0 < x < 1 -> graded_value powf o c v = powf v g) /\
  (0 < R32 g -> R32 g <> 1 -> 1 <= x -> graded_value powf o c v = f32_add f32_one (f32_mul (f32_sub v f32_one) g)).
Proof.
  intros RV PV PG. cbv zeta. destruct one_real as (_ & _ & E1). assert (E0 : R32 f32_zero = 0) by reflexivity.
  assert (E : graded_value powf o c v =
    if f32_le (param o "gamma" c) f32_zero then (if f32_lt f32_zero v then f32_one else f32_zero)
    else if negb (f32_eq (param o "gamma" c) f32_one) then
      (if f32_le v f32_zero then v else if f32_lt v f32_one then powf v (param o "gamma" c)
       else f32_add f32_one (f32_mul (f32_sub v f32_one) (param o "gamma" c)))
    else v).
  { rewrite ?graded_value_eq; unfold grade_single. apply Z.eqb_neq in RV. rewrite RV. cbn [negb].
    fold (slope_of o c). fold (shift_of o c). destruct ST as (-> & s & ->).
    change (f32_eq f32_one f32_one) with true. replace (f32_eq (S754_zero s) f32_zero) with true by (destruct s; reflexivity). reflexivity. }
  rewrite !le_real, !lt_real, eq_real, E1, E0 in E by (assumption || apply plain_one || apply (plain_zero false)). rewrite E.
  set (g := R32 (param o "gamma" c)) in *. set (x := R32 v) in *. repeat split.
  - intros G X. rewrite Rle_bool_true by lra. rewrite Rlt_bool_false by lra. reflexivity.
  - intros G X. rewrite Rle_bool_true by lra. rewrite Rlt_bool_true by lra. reflexivity.
  - intros [G|(G & X)].
    + rewrite Rle_bool_false by lra. rewrite Req_bool_true by lra. reflexivity.
    + rewrite (Rle_bool_false g) by lra. rewrite (Rle_bool_true x) by lra. destruct (Req_bool g 1); reflexivity.
  - intros G N X. rewrite (Rle_bool_false g) by lra. rewrite Req_bool_false by lra. rewrite (Rle_bool_false x) by lra.
    rewrite Rlt_bool_true by lra. reflexivity.
  - intros G N X. rewrite (Rle_bool_false g) by lra. rewrite Req_bool_false by lra. rewrite (Rle_bool_false x) by lra.
    rewrite Rlt_bool_false by lra. reflexivity.
Qed.
End One.

(** ** There and back *)
Lemma same_positive x y : same_number x y -> R32 y <> 0 -> x = y.
Proof. intros [->|(s & t & _ & ->)] N; [reflexivity|]. exfalso. apply N. reflexivity. Qed.

Section Trip.
Variable powf : f32 -> f32 -> f32.
Variable k : R.
Variables o o' : vals.
Variable c : colour.
Variable v : f32.
Hypothesis HK : 0 <= k <= 100.
Hypothesis ST : straight o c.
Hypothesis RV : vi o "reverse" = 0%Z.
Hypothesis RE : reversed o o'.
Hypothesis GP : plain_value (param o "gamma" c).
Hypothesis GB : / 4 <= number o "gamma" c <= 4.
Hypothesis AC : accurate powf k (f32_div f32_one (param o "gamma" c)).
Hypothesis AD : accurate powf k (param o "gamma" c).
Hypothesis PV : plain_value v.
Hypothesis BV : / 2 ^ 20 <= R32 v <= 2 ^ 20.

Let same_param st : param o' st c = param o st c.
Proof. unfold param. destruct RE as (_ & _ & VF). now rewrite VF. Qed.
Lemma straight' : straight o' c.
Proof. unfold straight, slope_of, shift_of, slope_of. rewrite !same_param. exact ST. Qed.
Lemma reverse' : vi o' "reverse" <> 0%Z.
Proof. destruct RE as (-> & _). discriminate. Qed.
Let px : 0 < R32 v.
Proof. eapply Rlt_le_trans; [|exact (proj1 BV)]. apply Rinv_0_lt_compat, pow_lt. lra. Qed.

(** The way there. *)
Definition trip_error : R := 103 / 100 * eps32 * (Rabs (ln (R32 v)) / number o "gamma" c) + 101 / 100 * k * eps32.
Lemma there : let u := graded_value powf o c v in let P := Rpower (R32 v) (/ number o "gamma" c) in
  plain_value u /\ / 2 ^ 80 <= P <= 2 ^ 80 /\ Rabs (R32 u - P) <= trip_error * P /\ 0 <= trip_error <= / 10000.
Proof.
  cbv zeta. rewrite (ahead powf o c ST v RV PV) by lra.
  pose proof (inverse_gamma o c GP GB) as G. cbv zeta in G. set (g := f32_div f32_one (param o "gamma" c)) in *.
  unfold trip_error. set (gm := number o "gamma" c) in *. set (x := R32 v) in *.
  assert (PG : / 4 <= / gm <= 4).
  { split; [apply Rinv_le_contravar; lra|]. rewrite <- (Rinv_inv 4). apply Rinv_le_contravar; lra. }
  pose proof (ln_bound x BV) as LN. pose proof ln2_bound as L2. set (l := Rabs (ln x)) in *.
  assert (HL : 0 <= l <= 14) by (split; [apply Rabs_pos|lra]). pose proof eps_small as EP.
  set (e := 1001 / 1000 * eps32) in *. assert (HE : 0 <= e <= / 10000) by (unfold e, eps32; lra).
  assert (Q : 0 <= l * / gm <= 56) by (split; [apply Rmult_le_pos; lra|]; apply Rle_trans with (14 * 4); [apply Rmult_le_compat; lra|lra]).
  destruct (power_close x x (/ gm) (R32 g) 0 e px ltac:(rewrite Rminus_diag_eq, Rabs_R0 by reflexivity; lra) ltac:(lra) ltac:(lra) G HE) as (_ & PC).
  { fold l. replace (/ gm * (1003 / 1000 * 0 + e * l)) with (e * (l * / gm)) by ring. unfold e, eps32. lra. }
  fold l in PC. replace (/ gm * (1003 / 1000 * 0 + e * l)) with (e * (l * / gm)) in PC by ring.
  pose proof (power_range x (/ gm) BV ltac:(lra)) as PR. set (P := Rpower x (/ gm)) in *. set (y := Rpower x (R32 g)) in *.
  assert (PP : 0 < P) by (unfold P, Rpower; apply exp_pos).
  set (q := l * / gm) in *. change (l / gm) with q.
  assert (E1 : 102 / 100 * (e * q) <= 103 / 100 * eps32 * q).
  { unfold e. replace (102 / 100 * (1001 / 1000 * eps32 * q)) with (102 / 100 * (1001 / 1000) * (eps32 * q)) by ring.
    replace (103 / 100 * eps32 * q) with (103 / 100 * (eps32 * q)) by ring. apply Rmult_le_compat_r; [apply Rmult_le_pos; lra|lra]. }
  assert (PC' : Rabs (y - P) <= 103 / 100 * eps32 * q * P) by (eapply Rle_trans; [exact PC|]; apply Rmult_le_compat_r; lra).
  assert (YB : 99 / 100 * P <= y <= 100001 / 100000 * P).
  { apply Rabs_le_inv in PC'. assert (103 / 100 * eps32 * q * P <= / 100000 * P) by (apply Rmult_le_compat_r; [lra|]; unfold eps32; lra). lra. }
  destruct (AC v PV px ltac:(fold x y; simpl in PR |- *; lra)) as (GP1 & GE). fold x y in GE.
  split; [exact GP1|]. split; [exact PR|]. split.
  - replace (R32 (powf v g) - P) with ((R32 (powf v g) - y) + (y - P)) by ring. eapply Rle_trans; [apply Rabs_triang|].
    replace (/ 2 ^ 24) with eps32 in GE by (unfold eps32; simpl; lra).
    assert (k * eps32 * y <= 101 / 100 * k * eps32 * P).
    { apply Rle_trans with (k * eps32 * (100001 / 100000 * P)); [apply Rmult_le_compat_l; [apply Rmult_le_pos; lra|lra]|].
      assert (0 <= k * eps32 * P) by (apply Rmult_le_pos; [apply Rmult_le_pos; lra|lra]). lra. }
    lra.
  - split; [|unfold eps32; lra]. apply Rplus_le_le_0_compat; apply Rmult_le_pos; lra.
Qed.

(** The way back from a value that was raised. *)
Lemma back_again : R32 v <= 1023 / 1024 -> let w := graded_value powf o' c (graded_value powf o c v) in
  plain_value w /\ Rabs (R32 w - R32 v) <= (2 * Rabs (ln (R32 v)) + 2 * k * (number o "gamma" c + 1)) * / 2 ^ 24 * R32 v.
Proof.
  intros HX. cbv zeta. destruct there as (PU & PR & D & TE). set (u := graded_value powf o c v) in *.
  set (x := R32 v) in *. set (gm := number o "gamma" c) in *. set (P := Rpower x (/ gm)) in *. set (d := trip_error) in *.
  assert (PP : 0 < P) by (unfold P, Rpower; apply exp_pos). pose proof eps_small as EP.
  assert (PG : / 4 <= / gm <= 4).
  { split; [apply Rinv_le_contravar; lra|]. rewrite <- (Rinv_inv 4). apply Rinv_le_contravar; lra. }
  assert (U0 : 0 < R32 u).
  { apply Rabs_le_inv in D. assert (d * P <= / 10000 * P) by (apply Rmult_le_compat_r; lra). lra. }
  assert (U1 : R32 u < 1).
  { assert (LX : ln x <= - / 1024).
    { pose proof (exp_ineq1_le (ln x)) as Q. rewrite exp_ln in Q by exact px. fold x in Q. lra. }
    assert (T : / gm * ln x <= - / 4096) by nra.
    assert (PB : P <= / (1 + / 4096)).
    { unfold P, Rpower. pose proof (exp_ineq1_le (- (/ gm * ln x))) as Q. rewrite exp_Ropp in Q.
      rewrite <- (Rinv_inv (exp (/ gm * ln x))). apply Rinv_le_contravar; lra. }
    apply Rabs_le_inv in D. assert (d * P <= / 10000 * P) by (apply Rmult_le_compat_r; lra). lra. }
  assert (XE : Rpower P gm = x) by (unfold P; rewrite Rpower_mult, Rinv_l, Rpower_1 by (exact px || lra); reflexivity).
  pose proof (back powf o' c straight' u reverse' PU) as B. rewrite same_param in B. specialize (B GP). cbv zeta in B.
  fold gm in B. change (R32 (param o "gamma" c)) with gm in B. destruct B as (_ & _ & B1 & B2 & _).
  assert (LQ : 0 <= Rabs (ln x)) by apply Rabs_pos. set (l := Rabs (ln x)) in *.
  assert (DE : d = 103 / 100 * eps32 * (l / gm) + 101 / 100 * k * eps32) by reflexivity.
  replace (/ 2 ^ 24) with eps32 by (unfold eps32; simpl; lra).
  assert (KL : 0 <= eps32 * l /\ 0 <= eps32 * k /\ 0 <= eps32 * k * gm).
  { split; [apply Rmult_le_pos; lra|]. split; [apply Rmult_le_pos; lra|]. apply Rmult_le_pos; [apply Rmult_le_pos; lra|lra]. }
  assert (DG : gm * d = 103 / 100 * (eps32 * l) + 101 / 100 * (eps32 * k * gm)) by (rewrite DE; field; lra).
  destruct (Req_dec gm 1) as [E|N].
  - rewrite B1 by now left. split; [exact PU|].
    assert (PX : P = x) by (transitivity (Rpower P gm); [rewrite E; symmetry; apply Rpower_1; exact PP|exact XE]).
    rewrite PX in D. eapply Rle_trans; [exact D|]. apply Rmult_le_compat_r; [lra|].
    rewrite E in DG |- *. lra.
  - rewrite B2 by lra.
    destruct (power_close P (R32 u) gm gm d 0 PP D ltac:(lra) ltac:(lra) ltac:(rewrite Rminus_diag_eq, Rabs_R0 by reflexivity; lra) ltac:(lra)) as (_ & PC).
    { replace (gm * (1003 / 1000 * d + 0 * Rabs (ln P))) with (1003 / 1000 * (gm * d)) by ring.
      assert (gm * d <= 4 * / 10000) by (apply Rmult_le_compat; lra). lra. }
    replace (gm * (1003 / 1000 * d + 0 * Rabs (ln P))) with (1003 / 1000 * (gm * d)) in PC by ring. rewrite XE in PC.
    set (y := Rpower (R32 u) gm) in *.
    assert (GD : 0 <= gm * d <= 4 * / 10000) by (split; [apply Rmult_le_pos; lra|apply Rmult_le_compat; lra]).
    assert (S1 : 102 / 100 * (1003 / 1000 * (gm * d)) * x <= / 1000 * x) by (apply Rmult_le_compat_r; lra).
    assert (YB : 99 / 100 * x <= y <= 1001 / 1000 * x) by (apply Rabs_le_inv in PC; lra).
    destruct (AD u PU U0) as (PW & WE).
    { change (R32 (param o "gamma" c)) with gm. fold y. assert (Q := proj1 BV). fold x in Q. simpl in Q |- *. lra. }
    change (R32 (param o "gamma" c)) with gm in WE. fold y in WE. replace (/ 2 ^ 24) with eps32 in WE by (unfold eps32; simpl; lra).
    split; [exact PW|]. set (w := powf u (param o "gamma" c)) in *.
    replace (R32 w - x) with ((R32 w - y) + (y - x)) by ring. eapply Rle_trans; [apply Rabs_triang|].
    assert (W2 : k * eps32 * y <= 1001 / 1000 * (eps32 * k) * x).
    { apply Rle_trans with (k * eps32 * (1001 / 1000 * x)); [apply Rmult_le_compat_l; [apply Rmult_le_pos; lra|lra]|right; ring]. }
    apply Rle_trans with ((1001 / 1000 * (eps32 * k) + 102 / 100 * (1003 / 1000 * (gm * d))) * x); [lra|].
    apply Rmult_le_compat_r; [lra|]. rewrite DG. lra.
Qed.

(** The way back of a value that was left alone. *)
Lemma back_plain : f32_finite (graded_value powf o' c v).
Proof.
  pose proof (back powf o' c straight' v reverse' PV) as B. rewrite same_param in B. specialize (B GP). cbv zeta in B.
  change (R32 (param o "gamma" c)) with (number o "gamma" c) in B. destruct B as (_ & _ & B1 & B2 & B3).
  set (gm := number o "gamma" c) in *. set (x := R32 v) in *.
  destruct (Req_dec gm 1) as [E|N]; [rewrite B1 by (now left); apply PV|].
  destruct (Rlt_le_dec x 1) as [X|X].
  - rewrite B2 by (fold x in px; lra). apply (AD v PV px). change (R32 (param o "gamma" c)) with gm. fold x.
    pose proof (power_range x gm BV ltac:(lra)) as PR. simpl in PR |- *. lra.
  - rewrite B3 by lra. destruct PV as (OV & FV), GP as (OG & FG). apply fin_iff in FV, FG. destruct one_real as (V1 & F1 & E1).
    assert (T20 : 2 ^ 20 = bpow radix2 20) by (rewrite pow_IZR; reflexivity).
    destruct (sub_real v f32_one OV V1 FV F1) as (F2 & E2).
    { apply (within _ 20); [lia|]. rewrite E1. fold x. rewrite <- T20, Rabs_pos_eq by lra. lra. }
    assert (S2 : Rabs (R32 (f32_sub v f32_one)) <= bpow radix2 20).
    { rewrite E2, E1. apply RN_size; [lia|]. fold x. rewrite <- T20, Rabs_pos_eq by lra. lra. }
    assert (S3 : Rabs gm <= bpow radix2 2) by (change (bpow radix2 2) with 4; rewrite Rabs_pos_eq by lra; lra).
    pose proof (prod_size _ _ _ _ 22 S2 S3 ltac:(lia)) as S4.
    destruct (mul_real (f32_sub v f32_one) (param o "gamma" c) (sub_valid _ _ OV V1) OG F2 FG) as (F3 & E3); [apply (within _ 22); [lia|exact S4]|].
    assert (S5 : Rabs (R32 (f32_mul (f32_sub v f32_one) (param o "gamma" c))) <= bpow radix2 22) by (rewrite E3; apply RN_size; [lia|exact S4]).
    assert (S6 : Rabs (R32 f32_one) <= bpow radix2 22) by (rewrite E1, Rabs_R1; change 1 with (bpow radix2 0); apply bpow_le; lia).
    apply fin_iff. apply (add_real f32_one _ V1 (mul_valid _ _ (sub_valid _ _ OV V1) OG) F1 F3).
    apply (within _ 23); [lia|]. eapply sum_size; [exact S6|exact S5|lia].
Qed.
End Trip.

(** ** Buffers *)
Lemma one_op powf o nc pixels r : (nc = 1 \/ nc = 3 \/ nc = 4)%nat -> vi o "enable" = 1%Z ->
  apply_grade powf o (Z.of_nat nc) pixels = Ok r -> apply_color_ops powf [o] (Z.of_nat nc) pixels = Ok r.
Proof.
  intros NC EN A. unfold apply_color_ops. replace (Z.of_nat nc <=? 0)%Z with false by (symmetry; apply Z.leb_gt; lia).
  cbn [filter]. rewrite EN. cbn [Z.eqb Pos.eqb apply_each bind]. rewrite A. reflexivity.
Qed.

Lemma trip_buffer powf k o o' nc n pixels :
  0 <= k <= 100 -> vi o "enable" = 1%Z -> vi o "reverse" = 0%Z -> f32_of_bits (vf o "mix") = f32_one -> working o -> reversed o o' ->
  (nc = 1 \/ nc = 3 \/ nc = 4)%nat -> length pixels = (n * nc)%nat ->
  (forall j, (j < nc)%nat -> let c := colour_of nc j in straight o c /\ (process o c = 0%Z \/ process o c = 1%Z) /\
     plain_value (param o "gamma" c) /\ / 4 <= number o "gamma" c <= 4 /\
     accurate powf k (f32_div f32_one (param o "gamma" c)) /\ accurate powf k (param o "gamma" c)) ->
  (forall i v, nth_error pixels i = Some v -> plain_value v /\ / 2 ^ 20 <= R32 v <= 2 ^ 20 /\
     (process o (colour_of nc (i mod nc)) = 1%Z -> R32 v <= 1023 / 1024)) ->
  exists r, apply_color_ops powf [o; o'] (Z.of_nat nc) pixels = Ok r /\ length r = length pixels /\
  forall i v, nth_error pixels i = Some v -> exists v', nth_error r i = Some v' /\ f32_finite v' /\
    let c := colour_of nc (i mod nc) in
    (process o c = 0%Z -> v' = v) /\
    (process o c = 1%Z -> Rabs (R32 v' - R32 v) <= (2 * Rabs (ln (R32 v)) + 2 * k * (number o "gamma" c + 1)) * / 2 ^ 24 * R32 v).
Proof.
  intros HK EN RV MX WK RE NC L CH PX. pose proof RE as (RV' & VI & VF).
  assert (QE : forall c, process o' c = process o c) by (intros []; unfold process; apply VI; discriminate).
  assert (WK' : working o') by (unfold working; rewrite !QE; exact WK).
  assert (EN' : vi o' "enable" = 1%Z) by (rewrite VI by discriminate; exact EN).
  destruct (grade_channels powf o nc n pixels EN WK NC L) as (r1 & A1 & L1 & H1).
  destruct (grade_channels powf o' nc n r1 EN' WK' NC ltac:(congruence)) as (r2 & A2 & L2 & H2).
  exists r2. split; [|split; [congruence|]].
  { unfold apply_color_ops. replace (Z.of_nat nc <=? 0)%Z with false by (symmetry; apply Z.leb_gt; lia).
    cbn [filter]. rewrite EN, EN'. cbn [Z.eqb Pos.eqb apply_each bind]. rewrite A1. cbn [bind]. rewrite A2. reflexivity. }
  intros i v V. destruct (H1 i v V) as (v1 & V1 & Z1 & O1). destruct (H2 i v1 V1) as (v2 & V2 & Z2 & O2).
  destruct (CH (i mod nc)%nat ltac:(apply Nat.mod_upper_bound; lia)) as (ST & PR & GP & GB & AC & AD).
  destruct (PX i v V) as (PV & BV & HX). set (c := colour_of nc (i mod nc)) in *. rewrite QE, VF, MX in *.
  assert (X0 : R32 v <> 0). { assert (0 < / 2 ^ 20) by (apply Rinv_0_lt_compat, pow_lt; lra). lra. }
  exists v2. split; [exact V2|].
  destruct (there powf k o c v HK ST RV GP GB AC PV BV) as (PU & PB & DU & TE).
  destruct PR as [PR|PR].
  - assert (E1 : v1 = v).
    { apply same_positive; [apply Z1; [exact PR|exact I|apply PU|apply PV]|exact X0]. }
    subst v1. pose proof (back_plain powf k o o' c v ST RE GP GB AD PV BV) as FB.
    assert (E2 : v2 = v) by (apply same_positive; [apply Z2; [exact PR|exact I|exact FB|apply PV]|exact X0]).
    subst v2. split; [apply PV|]. split; [reflexivity|intros X; congruence].
  - assert (S1 : same_number v1 (graded_value powf o c v)) by (apply O1; [exact PR|reflexivity|apply PU|apply PV]).
    assert (U0 : R32 (graded_value powf o c v) <> 0).
    { set (P := Rpower _ _) in *. assert (0 < P) by (unfold P, Rpower; apply exp_pos). apply Rabs_le_inv in DU.
      assert (trip_error k o c v * P <= / 10000 * P) by (apply Rmult_le_compat_r; lra). lra. }
    pose proof (same_positive _ _ S1 U0) as E1. subst v1.
    destruct (back_again powf k o o' c v HK ST RV RE GP GB AC AD PV BV (HX PR)) as (PW & WE).
    assert (S2 : same_number v2 (graded_value powf o' c (graded_value powf o c v))) by (apply O2; [exact PR|reflexivity|apply PW|apply PU]).
    split; [eapply same_finite; [exact S2|apply PW]|]. split; [intros X; congruence|]. intros _. rewrite (same_real _ _ S2). exact WE.
Qed.

(** A reversed grade without a line. *)
Lemma back_buffer powf o nc n pixels :
  (forall u g, f32_ok u -> f32_ok g -> f32_ok (powf u g)) ->
  vi o "enable" = 1%Z -> vi o "reverse" <> 0%Z -> f32_of_bits (vf o "mix") = f32_one -> working o ->
  (nc = 1 \/ nc = 3 \/ nc = 4)%nat -> length pixels = (n * nc)%nat ->
  (forall j, (j < nc)%nat -> straight o (colour_of nc j) /\ plain_value (param o "gamma" (colour_of nc j))) ->
  Forall plain_value pixels ->
  exists r, apply_color_ops powf [o] (Z.of_nat nc) pixels = Ok r /\ length r = length pixels /\
  forall i v, nth_error pixels i = Some v -> exists v', nth_error r i = Some v' /\
    let c := colour_of nc (i mod nc) in let x := R32 v in let g := number o "gamma" c in
    process o c = 1%Z ->
    (g <= 0 -> x <= 0 -> R32 v' = 0) /\ (g <= 0 -> 0 < x -> R32 v' = 1) /\
    (g = 1 \/ (0 < g /\ x <= 0) -> R32 v' = x) /\
    (0 < g -> g <> 1 -> 0 < x < 1 -> same_number v' (powf v (param o "gamma" c))) /\
    (0 < g -> g <> 1 -> 1 <= x -> same_number v' (f32_add f32_one (f32_mul (f32_sub v f32_one) (param o "gamma" c)))).
Proof.
  intros PO EN RV MX WK NC L CH PX.
  destruct (grade_channels powf o nc n pixels EN WK NC L) as (r & A & LE & H). exists r.
  split; [now apply one_op|]. split; [exact LE|]. intros i v V. destruct (H i v V) as (v' & V' & _ & O). exists v'. split; [exact V'|].
  rewrite Forall_forall in PX. pose proof (PX v (nth_error_In _ _ V)) as PV.
  destruct (CH (i mod nc)%nat ltac:(apply Nat.mod_upper_bound; lia)) as (ST & GP).
  set (c := colour_of nc (i mod nc)) in *. cbv zeta. intros PR.
  destruct one_real as (V1 & F1 & E1).
  assert (OK : f32_ok (graded_value powf o c v) -> same_number v' (graded_value powf o c v)) by (intros K; apply O; [exact PR|exact MX|exact K|apply PV]).
  destruct (back powf o c ST v RV PV GP) as (B1 & B2 & B3 & B4 & B5). unfold number. repeat split.
  - intros G X. rewrite (B1 G X) in OK. rewrite (same_real _ _ (OK eq_refl)). reflexivity.
  - intros G X. rewrite (B2 G X) in OK. rewrite (same_real _ _ (OK eq_refl)). exact E1.
  - intros G. rewrite (B3 G) in OK. rewrite (same_real _ _ (OK (proj1 PV))). reflexivity.
  - intros G N X. rewrite (B4 G N X) in OK. exact (OK (PO _ _ (proj1 PV) (proj1 GP))).
  - intros G N X. rewrite (B5 G N X) in OK. exact (OK (add_valid _ _ V1 (mul_valid _ _ (sub_valid _ _ (proj1 PV) V1) (proj1 GP)))).
Qed.

(** A reversed grade with a line: gamma makes no difference. *)
Lemma lost_gamma powf powf' o o' nc n pixels :
  but_gamma o o' -> vi o "enable" = 1%Z -> vi o "reverse" <> 0%Z -> working o ->
  (nc = 1 \/ nc = 3 \/ nc = 4)%nat -> length pixels = (n * nc)%nat -> (forall j, (j < nc)%nat -> sloped o (colour_of nc j)) ->
  exists r, apply_color_ops powf [o] (Z.of_nat nc) pixels = Ok r /\ apply_color_ops powf' [o'] (Z.of_nat nc) pixels = Ok r.
Proof.
  intros (VI & VF) EN RV WK NC L SL.
  assert (QE : forall c, process o' c = process o c) by (intros []; unfold process; apply VI).
  assert (WK' : working o') by (unfold working; rewrite !QE; exact WK).
  assert (EN' : vi o' "enable" = 1%Z) by (rewrite VI; exact EN).
  destruct (grade_buffer powf o nc n pixels EN WK NC L) as (r & A & LE & H).
  destruct (grade_buffer powf' o' nc n pixels EN' WK' NC L) as (r' & A' & LE' & H').
  assert (E : r' = r).
  { assert (X : forall i, nth_error r' i = nth_error r i).
    { intros i. destruct (nth_error pixels i) as [v|] eqn:V.
      - rewrite (H i v V), (H' i v V). f_equal.
        pose proof (SL (i mod nc)%nat ltac:(apply Nat.mod_upper_bound; lia)) as S0. set (c := colour_of nc (i mod nc)) in *.
        unfold blended. rewrite QE. replace (vf o' "mix") with (vf o "mix") by (symmetry; apply VF; cbn; intuition discriminate).
        replace (graded_value powf' o' c v) with (graded_value powf o c v); [reflexivity|].
        assert (PE : forall st, In st ["black_point"; "white_point"; "lift"; "gain"; "multiply"; "offset"] -> param o' st c = param o st c).
        { intros st I. unfold param. rewrite VF; [reflexivity|]. destruct I as [<-|[<-|[<-|[<-|[<-|[<-|[]]]]]]]; destruct c; cbn; intuition discriminate. }
        rewrite ?graded_value_eq; unfold grade_single. rewrite VI, !PE by (cbn; tauto). apply Z.eqb_neq in RV. rewrite RV. cbn [negb].
        fold (slope_of o c). fold (shift_of o c).
        replace (negb (f32_eq (slope_of o c) f32_one) || negb (f32_eq (shift_of o c) f32_zero))%bool with true; [reflexivity|].
        destruct S0 as [-> | ->]; cbn [negb orb]; [reflexivity|]. symmetry. apply Bool.orb_true_r.
      - rewrite (proj2 (nth_error_None r i)), (proj2 (nth_error_None r' i)); [reflexivity| |]; apply nth_error_None in V; lia. }
    clear - X. revert r X. induction r' as [|a r' IH]; intros [|b r] X; try reflexivity; try (specialize (X 0%nat); discriminate).
    f_equal; [specialize (X 0%nat); cbn in X; congruence|]. apply IH. intros i. exact (X (Datatypes.S i)). }
  subst r'. exists r. split; now apply one_op.
Qed.

(** ** A power that is accurate for two, one and one half *)
Definition root (u : f32) : f32 := SFsqrt prec32 emax32 u.
Definition halves (u g : f32) : f32 :=
  if f32_eq g (f32_of_Z 2) then f32_mul u u else if f32_eq g (f32_of_bits 1056964608) then root u else u.
Lemma half_bits : f32_of_bits 1056964608 = S754_finite false 8388608 (-24).
Proof. vm_compute. reflexivity. Qed.
Lemma half_R : R32 (f32_of_bits 1056964608) = / 2.
Proof. rewrite half_bits. unfold R32, SF2R, F2R. cbn. lra. Qed.
Lemma root_real x : plain_value x -> 0 < R32 x -> valid32 (root x) /\ fin32 (root x) /\ R32 (root x) = RN (sqrt (R32 x)).
Proof.
  intros (V & _) P. destruct (to_bf x V) as (b & -> & Rb & _). rewrite Rb in *.
  destruct b as [s|s| |s m e B]; cbn [B2R] in P; try lra.
  destruct s; [exfalso; pose proof (F2R_lt_0 radix2 (Float radix2 (cond_Zopp true (Zpos m)) e) ltac:(reflexivity)); cbn in *; lra|].
  assert (E : root (B2SF (B754_finite false m e B)) = B2SF (@Bsqrt prec32 emax32 prec32_pos prec32_emax mode_NE (B754_finite false m e B))).
  { unfold root. cbn [B2SF SFsqrt Bsqrt]. rewrite B2SF_SF2B. destruct (SFsqrt_core_binary _ _ _ _) as [[mz ez] lz]. apply round_aux_equiv. }
  rewrite E. destruct (of_bf (@Bsqrt prec32 emax32 prec32_pos prec32_emax mode_NE (B754_finite false m e B))) as (O1 & O2 & O3).
  destruct (Bsqrt_correct prec32 emax32 prec32_pos prec32_emax mode_NE (B754_finite false m e B)) as (C1 & C2 & _).
  split; [exact O1|]. unfold fin32. rewrite O3, O2, C1, C2. split; reflexivity.
Qed.
Lemma roots : accurate halves 1 (f32_of_bits 1056964608).
Proof.
  intros u PU P. change (halves u (f32_of_bits 1056964608)) with (root u). rewrite half_R, Rpower_sqrt by exact P.
  intros (A & B). destruct (root_real u PU P) as (V & F & E). split; [split; [exact V|now apply fin_iff]|].
  rewrite E. assert (T : 2 ^ 100 = bpow radix2 100) by (rewrite pow_IZR; reflexivity).
  pose proof (RN_rel (sqrt (R32 u))) as Q. rewrite (Rabs_pos_eq (sqrt _)) in Q by apply sqrt_pos.
  replace (1 * / 2 ^ 24) with eps32 by (unfold eps32; simpl; lra). apply Q.
  eapply Rle_trans; [|exact A]. rewrite T, <- bpow_opp. apply bpow_le. lia.
Qed.
Lemma halves_squares : accurate halves 1 (f32_of_Z 2).
Proof. exact squares. Qed.
Lemma halves_firsts : accurate halves 1 f32_one.
Proof. exact firsts. Qed.

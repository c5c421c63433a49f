(** Proofs: a grade follows its line (uses the axioms of Coq's real numbers). *)
From Coq Require String.
Import String.StringSyntax.
From Coq Require Import Reals Floats.SpecFloat Lia Psatz.
From Flocq Require Import Core.Core.
From Verif Require Import Machine FloatModel FloatReal GeomReal StreamModel MergeSpec GradeModel BakeSpec BakeProofs NewSpec UndoReal LineReal LineSpec.
Local Open Scope string_scope.

Lemma fin_iff v : f32_finite v <-> fin32 v.
Proof. destruct v as [s|s| |s m e]; unfold fin32; cbn; intuition discriminate. Qed.
Lemma K20_pow : (2 ^ 20 = K20)%R.
Proof. unfold K20. simpl. lra. Qed.
Lemma modest_small v : modest v -> small v.
Proof. intros ((O & F) & B). rewrite K20_pow in B. split; [exact O|]. split; [now apply fin_iff|exact B]. Qed.
Lemma eps_pow : (eps32 = / 2 ^ 24)%R.
Proof. unfold eps32. f_equal. rewrite (pow_IZR 2 24). reflexivity. Qed.
Lemma tiny_bound : (10 ^ 23 * eta32 <= / 2 ^ 70)%R.
Proof.
  unfold eta32. change (-150)%Z with (- (150))%Z. rewrite bpow_opp. change (bpow radix2 150) with (IZR (2 ^ 150)).
  rewrite !pow_IZR. change (2 ^ 150)%Z with 1427247692705959881058285969449495136382746624%Z.
  change (2 ^ Z.of_nat 70)%Z with 1180591620717411303424%Z. change (10 ^ Z.of_nat 23)%Z with 100000000000000000000000%Z. lra.
Qed.

Section OneChannel.
Variable o : vals.
Variable c : colour.
Variable v : f32.
Hypothesis U : usual o c.
Hypothesis V : modest v.
Local Notation pr n := (param o n c).

Lemma usual_each : small (pr "black_point") /\ small (pr "white_point") /\ small (pr "lift") /\ small (pr "gain") /\ small (pr "multiply")
  /\ small (pr "offset") /\ (/ K20 <= Rabs (R32 (pr "white_point") - R32 (pr "black_point")))%R.
Proof.
  destruct U as (A & D). rewrite K20_pow in D. unfold number in D.
  assert (forall x, In x ["black_point"; "white_point"; "lift"; "gain"; "multiply"; "offset"] -> small (pr x)) as H
    by (intros x I; rewrite Forall_forall in A; now apply modest_small, A).
  repeat (split; [apply H; cbn; tauto|]). exact D.
Qed.
Lemma line_same : line_ (pr "black_point") (pr "white_point") (pr "lift") (pr "gain") (pr "multiply") (pr "offset") v = grade_line o c (R32 v).
Proof. unfold line_, grade_line, S_, line_slope, number. ring. Qed.
Lemma size_same : terms (pr "black_point") (pr "white_point") (pr "lift") (pr "gain") (pr "multiply") (pr "offset") v = line_size o c (R32 v).
Proof. unfold terms, line_size, S_, line_slope, number. ring. Qed.

Lemma channel_line powf : vi o "reverse" = 0 -> exists u,
  graded_value powf o c v = powf u (f32_div f32_one (param o "gamma" c)) /\
  exists k N, (0 <= k <= 71 / 10)%R /\ (0 <= N <= 10 ^ 21)%R /\ stands u (grade_line o c (R32 v)) k (line_size o c (R32 v)) N (6 * K20 * K20 * K20 * K20).
Proof.
  intros RV. destruct usual_each as (A1 & A2 & A3 & A4 & A5 & A6 & A7).
  destruct (line_stands _ _ _ _ _ _ v A1 A2 A3 A4 A5 A6 (modest_small v V) A7) as (k & N & HK & HN & S).
  rewrite line_same, size_same in S. eexists. split; [|exists k, N; split; [exact HK|split; [exact HN|exact S]]].
  rewrite ?graded_value_eq. rewrite RV. reflexivity.
Qed.

Lemma near_line powf : vi o "reverse" = 0 -> exists u, plain_value u /\
  (Rabs (R32 u - grade_line o c (R32 v)) <= 8 * / 2 ^ 24 * line_size o c (R32 v) + / 2 ^ 70)%R /\
  graded_value powf o c v = powf u (f32_div f32_one (param o "gamma" c)).
Proof.
  intros RV. destruct (channel_line powf RV) as (u & E & k & N & HK & HN & S1 & S2 & S3 & S4 & S5). exists u.
  split; [split; [exact S1|now apply fin_iff]|]. split; [|exact E].
  assert (P : (0 <= line_size o c (R32 v))%R) by (eapply Rle_trans; [apply Rabs_pos|exact S4]).
  eapply Rle_trans; [exact S3|]. rewrite <- eps_pow. apply Rplus_le_compat.
  - apply Rmult_le_compat_r; [exact P|]. apply Rmult_le_compat_r; [left; apply eps_small|lra].
  - eapply Rle_trans; [|exact tiny_bound]. apply Rmult_le_compat_r; [left; apply eta_pos|]. lra.
Qed.

Lemma mask_ok : process o c = 0 \/ process o c = 1 -> plain_value (f32_of_bits (vf o "mix")) -> (0 <= R32 (f32_of_bits (vf o "mix")) <= 1)%R ->
  let mask := f32_mul (f32_of_Z (process o c)) (f32_of_bits (vf o "mix")) in
  valid32 mask /\ fin32 mask /\ R32 mask = part_of o c /\ (0 <= R32 mask <= 1)%R.
Proof.
  intros P (MO & MF) B. set (m := f32_of_bits (vf o "mix")) in *. apply fin_iff in MF. unfold part_of. fold m.
  assert (W : forall z, (z = 0 \/ z = 1) -> in_range32 (R32 (f32_of_Z z) * R32 m) /\ valid32 (f32_of_Z z) /\ fin32 (f32_of_Z z) /\ R32 (f32_of_Z z) = IZR z).
  { intros z Z1. destruct (small_real z ltac:(lia)) as (A1 & A2 & A3). split; [|now split; [|split]]. rewrite A3. apply (within _ 1); [lia|]. change (bpow radix2 1) with 2%R. clearbody m.
    destruct Z1 as [->| ->]; rewrite Rabs_pos_eq; lra. }
  destruct (W _ P) as (R1 & V1 & F1 & E1). destruct (mul_real _ m V1 MO F1 MF R1) as (F2 & E2).
  cbv zeta. split; [now apply mul_valid|]. split; [exact F2|]. rewrite E2, E1.
  destruct P as [->| ->]; cbn [Z.eqb].
  - rewrite Rmult_0_l, RN_0. lra.
  - rewrite Rmult_1_l, RN_valid by exact MO. lra.
Qed.

Lemma blended_line powf : (forall w, good w -> powf w f32_one = w) -> vi o "reverse" = 0 -> param o "gamma" c = f32_one ->
  process o c = 0 \/ process o c = 1 -> plain_value (f32_of_bits (vf o "mix")) -> (0 <= R32 (f32_of_bits (vf o "mix")) <= 1)%R ->
  let w := blended powf o c v in let m := part_of o c in
  f32_finite w /\
  (Rabs (R32 w - (m * grade_line o c (R32 v) + (1 - m) * R32 v)) <= 10 * / 2 ^ 24 * (m * line_size o c (R32 v) + (1 - m) * Rabs (R32 v)) + / 2 ^ 70)%R.
Proof.
  intros P RV G PR MX B. destruct (channel_line powf RV) as (u & E & k & N & HK & HN & S).
  rewrite G in E. change (f32_div f32_one f32_one) with f32_one in E.
  rewrite (P u) in E by (destruct S as (S1 & S2 & _); split; [now apply fin_iff|exact S1]).
  destruct (mask_ok PR MX B) as (M1 & M2 & M3 & M4). destruct usual_each as (A1 & A2 & A3 & A4 & A5 & A6 & A7).
  rewrite <- line_same, <- size_same in S.
  destruct (blend_stands _ _ _ _ _ _ v (modest_small v V) _ M1 M2 M4 u k N HK HN S) as (_ & X2 & X3).
  rewrite <- E in X2, X3. rewrite line_same, size_same, M3 in X3. cbv zeta. split; [exact X2|].
  rewrite <- eps_pow. eapply Rle_trans; [exact X3|]. apply Rplus_le_compat_l. exact tiny_bound.
Qed.
End OneChannel.

Lemma line_buffer powf o nc n pixels :
  (forall v, good v -> powf v f32_one = v) -> vi o "enable" = 1 -> vi o "reverse" = 0 -> working o ->
  plain_value (f32_of_bits (vf o "mix")) -> (0 <= R32 (f32_of_bits (vf o "mix")) <= 1)%R ->
  (nc = 1 \/ nc = 3 \/ nc = 4)%nat -> length pixels = (n * nc)%nat ->
  (forall k, (k < nc)%nat -> let c := colour_of nc k in usual o c /\ param o "gamma" c = f32_one /\ (process o c = 0 \/ process o c = 1)) ->
  Forall modest pixels ->
  exists r, apply_color_ops powf [o] (Z.of_nat nc) pixels = Ok r /\ length r = length pixels /\
  forall i v, nth_error pixels i = Some v -> exists v', nth_error r i = Some v' /\ f32_finite v' /\
    let c := colour_of nc (i mod nc) in let x := R32 v in let m := part_of o c in
    (Rabs (R32 v' - (m * grade_line o c x + (1 - m) * x)) <= 10 * / 2 ^ 24 * (m * line_size o c x + (1 - m) * Rabs x) + / 2 ^ 70)%R.
Proof.
  intros P EN RV WK MX B NC L US PX.
  destruct (grade_buffer powf o nc n pixels EN WK NC L) as (r & A & LE & H). exists r. split.
  { unfold apply_color_ops. replace (Z.of_nat nc <=? 0) with false by (symmetry; apply Z.leb_gt; lia).
    cbn [filter]. rewrite EN. cbn [Z.eqb Pos.eqb apply_each bind]. rewrite A. reflexivity. }
  split; [exact LE|]. intros i v I. exists (blended powf o (colour_of nc (i mod nc)) v). split; [apply H; exact I|].
  rewrite Forall_forall in PX. destruct (US (i mod nc)%nat ltac:(apply Nat.mod_upper_bound; lia)) as (U & G & PR).
  exact (blended_line o _ v U (PX v (nth_error_In _ _ I)) powf P RV G PR MX B).
Qed.

Lemma first_value powf o v : vi o "enable" = 1 -> working o ->
  exists r, apply_color_ops powf [o] 4 [v; v; v; v] = Ok r /\ nth_error r 0 = Some (blended powf o CR v).
Proof.
  intros EN WK. destruct (grade_buffer powf o 4 1 [v; v; v; v] EN WK ltac:(lia) eq_refl) as (r & A & LE & H).
  exists r. split.
  - unfold apply_color_ops. cbn [filter Z.leb Z.compare]. rewrite EN. cbn [Z.eqb Pos.eqb apply_each bind].
    change (Z.of_nat 4) with 4 in A. rewrite A. reflexivity.
  - exact (H 0%nat v eq_refl).
Qed.
Lemma modest_Z z : (Z.abs z <= 1000) -> modest (f32_of_Z z).
Proof.
  intros H. destruct (small_real z ltac:(lia)) as (V & F & E). split; [split; [exact V|now apply fin_iff]|].
  rewrite E, <- abs_IZR. apply Rle_trans with (IZR 1000); [now apply IZR_le|]. simpl. lra.
Qed.
Lemma nan_blend k x y : f32_add (f32_mul S754_nan k) (f32_mul x y) = S754_nan.
Proof. destruct k as [s|s| |s m e]; destruct (f32_mul x y); reflexivity. Qed.

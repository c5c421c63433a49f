(** Proofs: a grade followed by its reverse, on buffers (uses the axioms of
    Coq's real numbers). *)
From Coq Require String.
Import String.StringSyntax.
From Coq Require Import Reals Floats.SpecFloat Lia Psatz.
From Flocq Require Import Core.Core.
From Verif Require Import Machine FloatModel FloatReal StreamModel MergeSpec GradeModel BakeSpec BakeProofs NewSpec NewProofs UndoReal UndoSpec.
Local Open Scope string_scope.

Lemma same_real x y : same_number x y -> R32 x = R32 y.
Proof. intros [->|(s & t & -> & ->)]; reflexivity. Qed.
Lemma same_finite x y : same_number x y -> f32_finite y -> f32_finite x.
Proof. intros [->|(s & t & -> & ->)]; auto. Qed.
Lemma same_ok x y : same_number x y -> f32_ok y -> f32_ok x.
Proof. intros [->|(s & t & -> & ->)]; auto. Qed.

Lemma undo_buffer powf o o' nc n pixels :
  (forall v, good v -> powf v f32_one = v) -> forward o -> reversed o o' -> (forall k, (k < nc)%nat -> moderate o (colour_of nc k)) ->
  (nc = 1 \/ nc = 3 \/ nc = 4)%nat -> length pixels = (n * nc)%nat ->
  Forall (fun v => good v /\ (Rabs (R32 v) <= 2 ^ 20)%R) pixels ->
  exists r, apply_color_ops powf [o; o'] (Z.of_nat nc) pixels = Ok r /\ length r = length pixels /\
  forall i v, nth_error pixels i = Some v -> exists v', nth_error r i = Some v' /\ f32_finite v' /\
    let c := colour_of nc (i mod nc) in
    (process o c = 0 -> same_number v' v) /\
    (process o c = 1 -> (Rabs (R32 v' - R32 v) <= 12 * / 2 ^ 24 * (Rabs (R32 v) + Rabs (R32 (shift_of o c) / R32 (slope_of o c))) + / 2 ^ 126)%R).
Proof.
  intros P (EN & RV & MX & WK & GM) (RV' & VI & VF) MO NC L PX.
  assert (P' : forall v, f32_finite v -> f32_ok v -> powf v f32_one = v) by (intros; apply P; now split).
  assert (PE : forall st c, param o' st c = param o st c) by (intros; unfold param; now rewrite VF).
  assert (QE : forall c, process o' c = process o c) by (intros []; unfold process; apply VI; discriminate).
  assert (WK' : working o') by (unfold working; rewrite !QE; exact WK).
  assert (EN' : vi o' "enable" = 1) by (rewrite VI by discriminate; exact EN).
  assert (EK : K20 = (2 ^ 20)%R) by (unfold K20; simpl; lra).
  assert (EE : bpow radix2 (-126) = (/ 2 ^ 126)%R).
  { change (-126)%Z with (- (126))%Z. rewrite bpow_opp. f_equal. rewrite (pow_IZR 2 126). reflexivity. }
  assert (E24 : eps32 = (/ 2 ^ 24)%R) by (unfold eps32; f_equal; rewrite (pow_IZR 2 24); reflexivity).
  destruct (grade_channels powf o nc n pixels EN WK NC L) as (r1 & A1 & L1 & H1).
  destruct (grade_channels powf o' nc n r1 EN' WK' NC ltac:(congruence)) as (r2 & A2 & L2 & H2).
  exists r2. split; [|split; [congruence|]].
  { unfold apply_color_ops. replace (Z.of_nat nc <=? 0) with false by (symmetry; apply Z.leb_gt; lia).
    cbn [filter]. rewrite EN, EN'. cbn [Z.eqb Pos.eqb apply_each bind]. rewrite A1. cbn [bind]. rewrite A2. reflexivity. }
  intros i v V. destruct (H1 i v V) as (v1 & V1 & Z1 & O1). destruct (H2 i v1 V1) as (v2 & V2 & Z2 & O2).
  rewrite Forall_forall in PX. destruct (PX v (nth_error_In _ _ V)) as ((FV & KV) & BV).
  set (c := colour_of nc (i mod nc)) in *.
  destruct (MO (i mod nc)%nat ltac:(apply Nat.mod_upper_bound; lia)) as ((OA & FA) & (OB & FB) & HA & HB). fold c in OA, FA, OB, FB, HA, HB.
  destruct (GM c) as (G1 & PR).
  pose proof (undo_linear powf (param o "black_point" c) (param o "white_point" c) (param o "lift" c) (param o "gain" c) (param o "multiply" c) (param o "offset" c) v
    P' OA FA OB FB KV FV) as U. rewrite EK in U. specialize (U HA HB BV). cbv zeta in U.
  assert (Y : graded_value powf o c v = grade_single powf v (param o "black_point" c) (param o "white_point" c) (param o "lift" c) (param o "gain" c) (param o "multiply" c) (param o "offset" c) f32_one false).
  { rewrite ?graded_value_eq. rewrite RV, G1. reflexivity. }
  assert (Y' : forall u, graded_value powf o' c u = grade_single powf u (param o "black_point" c) (param o "white_point" c) (param o "lift" c) (param o "gain" c) (param o "multiply" c) (param o "offset" c) f32_one true).
  { intros u. rewrite ?graded_value_eq. rewrite !PE, RV', G1. reflexivity. }
  rewrite <- Y in U. destruct U as (OY & FY & U). rewrite QE, VF, MX in *.
  exists v2. split; [exact V2|].
  destruct PR as [PR|PR].
  - assert (S1 : same_number v1 v) by (apply Z1; [exact PR|exact I|exact FY|exact KV]).
    assert (F1 : f32_finite v1) by (eapply same_finite; eassumption). assert (K1 : f32_ok v1) by (eapply same_ok; eassumption).
    destruct (U v1 K1 F1) as (OZ & FZ & _); [right; rewrite (same_real _ _ S1); exact BV|]. rewrite <- Y' in OZ, FZ.
    assert (S2 : same_number v2 v1) by (apply Z2; [exact PR|exact I|exact FZ|exact K1]).
    split; [eapply same_finite; [exact S2|exact F1]|]. split; [intros _; eapply same_trans; eassumption|intros X; congruence].
  - assert (S1 : same_number v1 (graded_value powf o c v)) by (apply O1; [exact PR|reflexivity|exact OY|exact FV]).
    assert (F1 : f32_finite v1) by (eapply same_finite; eassumption). assert (K1 : f32_ok v1) by (eapply same_ok; eassumption).
    destruct (U v1 K1 F1) as (OZ & FZ & B); [left; apply same_real; exact S1|]. rewrite <- Y' in OZ, FZ, B. specialize (B (same_real _ _ S1)).
    assert (S2 : same_number v2 (graded_value powf o' c v1)) by (apply O2; [exact PR|reflexivity|exact OZ|exact F1]).
    split; [eapply same_finite; [exact S2|exact FZ]|]. split; [intros X; congruence|]. intros _.
    rewrite (same_real _ _ S2), <- E24, <- EE. exact B.
Qed.

From Coq Require String.
Import String.StringSyntax.
From Coq Require Import Reals Floats.SpecFloat Psatz.
From Flocq Require Import Core.Core IEEE754.BinarySingleNaN.
From Verif Require Import Machine FloatModel FloatReal GeomReal UndoReal BBoxModel PixelModel AttrModel StreamModel GradeModel DeformModel MergeSpec BakeSpec LineReal LineProofs MixReal EdgeSpec EdgeProofs CoverSpec MoveReal.
Local Open Scope string_scope.
Local Open Scope R_scope.

Definition mid : R := 2097152. (* 2^21 *)

(** ** To the unit square *)
Lemma unit_real lo hi x : (- 65536 <= lo < hi)%Z -> (hi <= 65536)%Z -> plain_value x -> Rabs (R32 x) <= mid ->
  let r := remap (f32_of_Z lo) (f32_of_Z hi) f32_zero f32_one x in
  num r (RN (RN (R32 x - IZR lo) / IZR (hi - lo))).
Proof.
  intros L H (VX & FX) BX r. apply fin_iff in FX. unfold mid in BX.
  destruct (small_real lo ltac:(lia)) as (VL & FL & EL). destruct (small_real hi ltac:(lia)) as (VH & FH & EH).
  assert (LR : -65536 <= IZR lo <= 65536) by (split; apply IZR_le; lia).
  apply Rabs_le_inv in BX.
  assert (N1 : num (f32_sub x (f32_of_Z lo)) (RN (R32 x - IZR lo))).
  { destruct (sub_real x (f32_of_Z lo) VX VL FX FL) as (F & E).
    - rewrite EL. apply (in_range_le _ (2 ^ 22)); [lia|]. change (IZR (2 ^ 22)) with 4194304. apply Rabs_le. lra.
    - rewrite EL in E. split; [now apply sub_valid|]. now split. }
  assert (N2 : num (f32_sub (f32_of_Z hi) (f32_of_Z lo)) (IZR (hi - lo))).
  { destruct (sub_real (f32_of_Z hi) (f32_of_Z lo) VH VL FH FL) as (F & E).
    - rewrite EL, EH, <- minus_IZR. apply (in_range_le _ (hi - lo)); [lia|]. rewrite <- abs_IZR. apply IZR_le. lia.
    - rewrite EL, EH, <- minus_IZR, RN_Z in E by lia. split; [now apply sub_valid|]. now split. }
  assert (W1 : 1 <= IZR (hi - lo)) by (apply IZR_le; lia).
  set (n := f32_sub x (f32_of_Z lo)) in *. set (d := f32_sub (f32_of_Z hi) (f32_of_Z lo)) in *.
  set (A := RN (R32 x - IZR lo)) in *.
  assert (BA : Rabs A <= 4194304).
  { unfold A. apply Rabs_le. split.
    - apply Rle_trans with (RN (IZR (-4194304))); [rewrite RN_Z by lia; lra|]. apply RN_mono. lra.
    - apply Rle_trans with (RN (IZR 4194304)); [|rewrite RN_Z by lia; lra]. apply RN_mono. lra. }
  destruct N1 as (V1 & F1 & E1), N2 as (V2 & F2 & E2).
  assert (BQ : Rabs (A / IZR (hi - lo)) <= 4194304).
  { unfold Rdiv. rewrite Rabs_mult. rewrite (Rabs_pos_eq (/ _)) by (left; apply Rinv_0_lt_compat; lra).
    apply Rle_trans with (Rabs A * 1); [|lra]. apply Rmult_le_compat_l; [apply Rabs_pos|]. rewrite <- Rinv_1. apply Rinv_le; lra. }
  assert (N3 : num (f32_div n d) (RN (A / IZR (hi - lo)))).
  { destruct (div_real n d V1 V2 F1) as (F & E); [rewrite E2; lra| |].
    - rewrite E1, E2. apply (in_range_le _ (2 ^ 22)); [lia|]. exact BQ.
    - rewrite E1, E2 in E. split; [now apply div_valid|]. now split. }
  set (t := f32_div n d) in *. set (T := RN (A / IZR (hi - lo))) in *.
  assert (BT : Rabs T <= 4194304).
  { apply Rabs_le_inv in BQ. unfold T. apply Rabs_le. split.
    - apply Rle_trans with (RN (IZR (-4194304))); [rewrite RN_Z by lia; lra|]. apply RN_mono. lra.
    - apply Rle_trans with (RN (IZR 4194304)); [|rewrite RN_Z by lia; lra]. apply RN_mono. lra. }
  unfold r, remap, inverse_lerp. fold n d t. unfold lerp. destruct N3 as (V3 & F3 & E3).
  assert (N4 : num (f32_sub f32_one t) (RN (1 - T))).
  { destruct num_one as (VO & FO & EO). destruct (sub_real f32_one t VO V3 FO F3) as (F & E).
    - rewrite EO, E3. apply (in_range_le _ (2 ^ 23)); [lia|]. change (IZR (2 ^ 23)) with 8388608. apply Rabs_le_inv in BT. apply Rabs_le. lra.
    - rewrite EO, E3 in E. split; [now apply sub_valid|]. now split. }
  apply add0_l with (V := T).
  - exact (mul0_r _ _ _ N4 num_f0).
  - apply mul1_r; [|exact num_one]. now split.
Qed.

Lemma unit_mono lo hi x y : (- 65536 <= lo < hi)%Z -> (hi <= 65536)%Z -> plain_value x -> plain_value y ->
  Rabs (R32 x) <= mid -> Rabs (R32 y) <= mid -> R32 x <= R32 y ->
  R32 (remap (f32_of_Z lo) (f32_of_Z hi) f32_zero f32_one x) <= R32 (remap (f32_of_Z lo) (f32_of_Z hi) f32_zero f32_one y).
Proof.
  intros L H PX PY BX BY XY.
  destruct (unit_real lo hi x L H PX BX) as (_ & _ & ->). destruct (unit_real lo hi y L H PY BY) as (_ & _ & ->).
  assert (W1 : 1 <= IZR (hi - lo)) by (apply IZR_le; lia).
  apply RN_mono. apply Rmult_le_compat_r; [left; apply Rinv_0_lt_compat; lra|]. apply RN_mono. lra.
Qed.
Lemma unit_plain lo hi x : (- 65536 <= lo < hi)%Z -> (hi <= 65536)%Z -> plain_value x -> Rabs (R32 x) <= mid ->
  plain_value (remap (f32_of_Z lo) (f32_of_Z hi) f32_zero f32_one x).
Proof. intros L H PX BX. destruct (unit_real lo hi x L H PX BX) as (V & F & _). split; [exact V|now apply fin_iff]. Qed.

Lemma unit_bound lo hi x a : (- 65536 <= lo < hi)%Z -> (hi <= 65536)%Z -> plain_value x -> 0 <= a <= 8 ->
  Rabs (R32 x - IZR lo) <= a * IZR (hi - lo) + 24 / 10 ->
  Rabs (R32 (remap (f32_of_Z lo) (f32_of_Z hi) f32_zero f32_one x)) <= a + 3 * / IZR (hi - lo).
Proof.
  intros L H PX A D.
  assert (W1 : 1 <= IZR (hi - lo)) by (apply IZR_le; lia). assert (W2 : IZR (hi - lo) <= 131072) by (apply IZR_le; lia).
  assert (LR : -65536 <= IZR lo <= 65536) by (split; apply IZR_le; lia).
  assert (BX : Rabs (R32 x) <= mid).
  { apply Rabs_le_inv in D. unfold mid. apply Rabs_le. assert (a * IZR (hi - lo) <= 8 * 131072) by (apply Rmult_le_compat; lra). lra. }
  destruct (unit_real lo hi x L H PX BX) as (_ & _ & ->). set (w := IZR (hi - lo)) in *. clearbody w. set (X := R32 x - IZR lo) in *. clearbody X.
  clear - A D W1 W2. pose proof eta_small as (ET1 & ET2). rewrite huge_big in ET2.
  assert (ET3 : eta32 <= / 1000000000000) by lra.
  assert (I1 : 0 < / w) by (apply Rinv_0_lt_compat; lra).
  assert (I2 : / w <= 1) by (rewrite <- Rinv_1; apply Rinv_le; lra).
  assert (I3 : / 131072 <= / w) by (apply Rinv_le; lra).
  pose proof (RN_err X) as E1. pose proof (RN_err (RN X / w)) as E2. unfold eps32 in E1, E2.
  set (Y := RN X) in *. set (T := RN (Y / w)) in *. clearbody T. clearbody Y.
  assert (B1 : Rabs Y <= Rabs X * (1 + / 16777216) + eta32).
  { replace Y with (Y - X + X) by ring. eapply Rle_trans; [apply Rabs_triang|]. lra. }
  assert (B2 : Rabs T <= Rabs (Y / w) * (1 + / 16777216) + eta32).
  { replace T with (T - Y / w + Y / w) by ring. eapply Rle_trans; [apply Rabs_triang|]. lra. }
  unfold Rdiv in B2. rewrite Rabs_mult, (Rabs_pos_eq (/ w)) in B2 by lra.
  assert (B3 : Rabs X * / w <= a + 24 / 10 * / w).
  { replace (a + 24 / 10 * / w) with ((a * w + 24 / 10) * / w) by (field; lra). apply Rmult_le_compat_r; lra. }
  assert (B4 : Rabs Y * / w <= Rabs X * / w * (1 + / 16777216) + eta32).
  { apply Rle_trans with ((Rabs X * (1 + / 16777216) + eta32) * / w); [apply Rmult_le_compat_r; lra|].
    assert (eta32 * / w <= eta32 * 1) by (apply Rmult_le_compat_l; lra). lra. }
  lra.
Qed.

(** ** Back to the display *)
Lemma part_itself q : valid32 q -> fin32 q -> num (inverse_lerp f32_zero f32_one q) (R32 q).
Proof.
  intros VQ FQ. unfold inverse_lerp.
  assert (N1 : num (f32_sub q f32_zero) (R32 q)).
  { destruct num_f0 as (V0 & F0 & E0). destruct (sub_real q f32_zero VQ V0 FQ F0) as (F & E).
    - rewrite E0, Rminus_0_r. now apply finite_range.
    - rewrite E0, Rminus_0_r, (RN_valid q VQ) in E. split; [now apply sub_valid|]. now split. }
  assert (N2 : num (f32_sub f32_one f32_zero) 1).
  { destruct num_one as (VO & FO & EO). repeat split; vm_compute; try reflexivity. exact EO. }
  destruct N1 as (V1 & F1 & E1), N2 as (V2 & F2 & E2).
  destruct (div_real _ _ V1 V2 F1) as (F & E); [rewrite E2; lra| |].
  - rewrite E1, E2. replace (R32 q / 1) with (R32 q) by field. now apply finite_range.
  - rewrite E1, E2 in E. replace (R32 q / 1) with (R32 q) in E by field. rewrite (RN_valid q VQ) in E. split; [now apply div_valid|]. now split.
Qed.
Definition back_to (lo hi : Z) (q : f32) : f32 := remap f32_zero f32_one (f32_of_Z lo) (f32_of_Z hi) q.
Lemma back_real lo hi q : (- 65536 <= lo < hi)%Z -> (hi <= 65536)%Z -> plain_value q -> Rabs (R32 q) <= 8 ->
  let r := back_to lo hi q in
  plain_value r /\ Rabs (R32 r - (IZR lo + R32 q * IZR (hi - lo))) <= / 4 /\ Rabs (R32 r) <= 1200000.
Proof.
  intros L H (VQ & FQ) BQ r. apply fin_iff in FQ.
  destruct (small_real lo ltac:(lia)) as (VL & FL & EL). destruct (small_real hi ltac:(lia)) as (VH & FH & EH).
  assert (LR : -65536 <= IZR lo <= 65536) by (split; apply IZR_le; lia).
  assert (HR : -65536 <= IZR hi <= 65536) by (split; apply IZR_le; lia).
  pose proof (part_itself q VQ FQ) as NT.
  unfold r, back_to, remap, lerp. set (t := inverse_lerp f32_zero f32_one q) in *. set (T := R32 q) in *.
  pose proof huge_big as HU. pose proof big98 as G98. pose proof big90 as G90.
  destruct NT as (VT & FT & ET). apply Rabs_le_inv in BQ.
  assert (S1 : stands (f32_sub f32_one t) (1 - T) (1001 / 1000) (Rabs (1 - T)) 1 (2 * K20)).
  { destruct num_one as (VO & FO & EO). assert (SO : LineReal.small f32_one) by (split; [exact VO|split; [exact FO|rewrite EO, Rabs_R1; unfold K20; lra]]).
    assert (SQ : LineReal.small t) by (split; [exact VT|split; [exact FT|rewrite ET; unfold K20; apply Rabs_le; lra]]).
    pose proof (stands_diff f32_one t SO SQ) as S. rewrite EO, ET in S. exact S. }
  assert (S1' : stands (f32_sub f32_one t) (1 - T) (1001 / 1000) 9 1 9).
  { destruct S1 as (A & B & C & D & E). repeat split; try assumption; try lra; [|apply Rabs_le; lra].
    eapply Rle_trans; [exact C|]. apply Rplus_le_compat_r. apply Rmult_le_compat_l; [unfold eps32; lra|]. apply Rabs_le. lra. }
  assert (SL : stands (f32_of_Z lo) (IZR lo) 0 65536 0 65536).
  { repeat split; try assumption; try lra; [rewrite EL, Rminus_diag_eq by reflexivity; rewrite Rabs_R0; lra|apply Rabs_le; lra]. }
  assert (SH : stands (f32_of_Z hi) (IZR hi) 0 65536 0 65536).
  { repeat split; try assumption; try lra; [rewrite EH, Rminus_diag_eq by reflexivity; rewrite Rabs_R0; lra|apply Rabs_le; lra]. }
  assert (ST : stands t T 0 8 0 8).
  { repeat split; try assumption; try lra; [rewrite ET, Rminus_diag_eq by reflexivity; rewrite Rabs_R0; lra|apply Rabs_le; lra]. }
  pose proof (stands_mul _ _ _ _ _ _ _ _ _ _ _ _ S1' SL ltac:(lra) ltac:(lra) ltac:(lra) ltac:(lra) ltac:(lra) ltac:(lra) ltac:(lra) ltac:(lra) ltac:(lra) ltac:(lra)) as P1.
  pose proof (stands_mul _ _ _ _ _ _ _ _ _ _ _ _ ST SH ltac:(lra) ltac:(lra) ltac:(lra) ltac:(lra) ltac:(lra) ltac:(lra) ltac:(lra) ltac:(lra) ltac:(lra) ltac:(lra)) as P2.
  pose proof (stands_add _ _ _ _ _ _ _ _ _ _ _ _ P1 P2 ltac:(lra) ltac:(lra) ltac:(lra) ltac:(lra) (2003 / 1000) ltac:(lra) ltac:(lra) ltac:(lra) ltac:(lra)) as P3.
  destruct P3 as (V3 & F3 & D3 & _ & _).
  pose proof eta_small as (ET1 & ET2). rewrite HU in ET2. unfold eps32 in D3.
  assert (D : Rabs (R32 (f32_add (f32_mul (f32_sub f32_one t) (f32_of_Z lo)) (f32_mul t (f32_of_Z hi))) - (IZR lo + T * IZR (hi - lo))) <= / 4).
  { replace (IZR lo + T * IZR (hi - lo)) with ((1 - T) * IZR lo + T * IZR hi) by (rewrite minus_IZR; ring). eapply Rle_trans; [exact D3|]. lra. }
  split; [split; [exact V3|now apply fin_iff]|]. split; [exact D|].
  apply Rabs_le_inv in D. apply Rabs_le.
  assert (Rabs (IZR lo + T * IZR (hi - lo)) <= 1190000); [|apply Rabs_le_inv in H0; lra].
  rewrite minus_IZR. apply Rabs_le. split; nra.
Qed.

(** Two pixels are more than rounding and a pixel of slack take. *)
Lemma two_real : num (f32_of_Z 2) 2.
Proof. destruct (small_real 2 ltac:(lia)) as (V & F & E). now split. Qed.
Lemma margin_low lo hi r q : (- 65536 <= lo < hi)%Z -> (hi <= 65536)%Z -> plain_value r -> plain_value q -> forall b, b <= 8 -> Rabs (R32 r) <= b -> Rabs (R32 q) <= b ->
  R32 r - / IZR (hi - lo) <= R32 q ->
  let m := f32_sub (back_to lo hi r) (f32_of_Z 2) in
  plain_value m /\ Rabs (R32 m - IZR lo) <= b * IZR (hi - lo) + 24 / 10 /\ R32 m <= R32 (back_to lo hi q).
Proof.
  intros L H PR PQ b B8 BRb BQb D m.
  assert (BR : Rabs (R32 r) <= 8) by lra. assert (BQ : Rabs (R32 q) <= 8) by lra.
  assert (BW : Rabs (R32 r * IZR (hi - lo)) <= b * IZR (hi - lo)).
  { rewrite Rabs_mult, (Rabs_pos_eq (IZR (hi - lo))) by (apply IZR_le; lia). apply Rmult_le_compat_r; [apply IZR_le; lia|exact BRb]. }
  destruct (back_real lo hi r L H PR BR) as ((VB & FB) & DB & BB). destruct (back_real lo hi q L H PQ BQ) as (_ & DQ & _).
  apply fin_iff in FB. destruct two_real as (V2 & F2 & E2).
  assert (W1 : 1 <= IZR (hi - lo)) by (apply IZR_le; lia).
  apply Rabs_le_inv in BB.
  destruct (sub_real (back_to lo hi r) (f32_of_Z 2) VB V2 FB F2) as (F & E).
  { rewrite E2. apply (in_range_le _ (2 ^ 22)); [lia|]. change (IZR (2 ^ 22)) with 4194304. apply Rabs_le. lra. }
  pose proof (RN_err (R32 (back_to lo hi r) - R32 (f32_of_Z 2))) as ER. rewrite <- E in ER. fold m in ER, E, F.
  pose proof eta_small as (ET1 & ET2). rewrite huge_big in ET2. unfold eps32 in ER. rewrite E2 in ER.
  assert (AB : Rabs (R32 (back_to lo hi r) - 2) <= 1300000) by (apply Rabs_le; lra).
  assert (ER' : Rabs (R32 m - (R32 (back_to lo hi r) - 2)) <= / 10) by (eapply Rle_trans; [exact ER|]; lra).
  apply Rabs_le_inv in ER', DB, DQ, AB.
  split; [split; [now apply sub_valid|now apply fin_iff]|]. split; [apply Rabs_le_inv in BW; apply Rabs_le; lra|].
  assert (R32 r * IZR (hi - lo) - 1 <= R32 q * IZR (hi - lo)).
  { replace (R32 r * IZR (hi - lo) - 1) with ((R32 r - / IZR (hi - lo)) * IZR (hi - lo)) by (field; lra). apply Rmult_le_compat_r; lra. }
  lra.
Qed.
Lemma margin_high lo hi r q : (- 65536 <= lo < hi)%Z -> (hi <= 65536)%Z -> plain_value r -> plain_value q -> forall b, b <= 8 -> Rabs (R32 r) <= b -> Rabs (R32 q) <= b ->
  R32 q <= R32 r + / IZR (hi - lo) ->
  let m := f32_add (back_to lo hi r) (f32_of_Z 2) in
  plain_value m /\ Rabs (R32 m - IZR lo) <= b * IZR (hi - lo) + 24 / 10 /\ R32 (back_to lo hi q) <= R32 m.
Proof.
  intros L H PR PQ b B8 BRb BQb D m.
  assert (BR : Rabs (R32 r) <= 8) by lra. assert (BQ : Rabs (R32 q) <= 8) by lra.
  assert (BW : Rabs (R32 r * IZR (hi - lo)) <= b * IZR (hi - lo)).
  { rewrite Rabs_mult, (Rabs_pos_eq (IZR (hi - lo))) by (apply IZR_le; lia). apply Rmult_le_compat_r; [apply IZR_le; lia|exact BRb]. }
  destruct (back_real lo hi r L H PR BR) as ((VB & FB) & DB & BB). destruct (back_real lo hi q L H PQ BQ) as (_ & DQ & _).
  apply fin_iff in FB. destruct two_real as (V2 & F2 & E2).
  assert (W1 : 1 <= IZR (hi - lo)) by (apply IZR_le; lia).
  apply Rabs_le_inv in BB.
  destruct (add_real (back_to lo hi r) (f32_of_Z 2) VB V2 FB F2) as (F & E).
  { rewrite E2. apply (in_range_le _ (2 ^ 22)); [lia|]. change (IZR (2 ^ 22)) with 4194304. apply Rabs_le. lra. }
  pose proof (RN_err (R32 (back_to lo hi r) + R32 (f32_of_Z 2))) as ER. rewrite <- E in ER. fold m in ER, E, F.
  pose proof eta_small as (ET1 & ET2). rewrite huge_big in ET2. unfold eps32 in ER. rewrite E2 in ER.
  assert (AB : Rabs (R32 (back_to lo hi r) + 2) <= 1300000) by (apply Rabs_le; lra).
  assert (ER' : Rabs (R32 m - (R32 (back_to lo hi r) + 2)) <= / 10) by (eapply Rle_trans; [exact ER|]; lra).
  apply Rabs_le_inv in ER', DB, DQ, AB.
  split; [split; [now apply add_valid|now apply fin_iff]|]. split; [apply Rabs_le_inv in BW; apply Rabs_le; lra|].
  assert (R32 q * IZR (hi - lo) <= R32 r * IZR (hi - lo) + 1).
  { replace (R32 r * IZR (hi - lo) + 1) with ((R32 r + / IZR (hi - lo)) * IZR (hi - lo)) by (field; lra). apply Rmult_le_compat_r; lra. }
  lra.
Qed.

(** ** One lens, then many *)
Definition from_corner (display : bbox) (b : bboxf) (a : R) : Prop :=
  let w := IZR (max_x display - min_x display) in
  let h := IZR (max_y display - min_y display) in
  Rabs (R32 (fmin_x b) - IZR (min_x display)) <= a * w + 24 / 10 /\ Rabs (R32 (fmin_y b) - IZR (min_y display)) <= a * h + 24 / 10 /\
  Rabs (R32 (fmax_x b) - IZR (min_x display)) <= a * w + 24 / 10 /\ Rabs (R32 (fmax_y b) - IZR (min_y display)) <= a * h + 24 / 10.
Definition moderate (display : bbox) (a : R) (b : bboxf) (q : f32 * f32) : Prop :=
  plain_box b /\ within 0 0 b q /\ from_corner display b a.

Lemma corner_mid lo hi x a : (- 65536 <= lo < hi)%Z -> (hi <= 65536)%Z -> 0 <= a <= 8 ->
  Rabs (R32 x - IZR lo) <= a * IZR (hi - lo) + 24 / 10 -> Rabs (R32 x) <= mid.
Proof.
  intros L H A D. assert (W2 : IZR (hi - lo) <= 131072) by (apply IZR_le; lia). assert (W1 : 1 <= IZR (hi - lo)) by (apply IZR_le; lia).
  assert (LR : -65536 <= IZR lo <= 65536) by (split; apply IZR_le; lia).
  apply Rabs_le_inv in D. unfold mid. apply Rabs_le. assert (a * IZR (hi - lo) <= 8 * 131072) by (apply Rmult_le_compat; lra). lra.
Qed.

Lemma one_lens nx display v box q dis a b : usual_display display -> 0 <= a <= 8 -> 0 <= b <= 8 -> boxes_hold nx display v dis a b ->
  moderate display a box q -> vi v "direction" = (if dis then 1 else 0)%Z ->
  exists b' q', deform_box nx (DTde4 v) box (bboxf_of display) = Ok b' /\ deform_point nx (DTde4 v) (bboxf_of display) false q = Ok q' /\
    moderate display b b' q'.
Proof.
  intros (X1 & X2 & Y1 & Y2) A8 B8 BH ((P1 & P2 & P3 & P4) & (PX & PY & RX & RY) & D1 & D2 & D3 & D4) DIR.
  destruct q as [x y]. cbn [fst snd] in *.
  pose proof (corner_mid _ _ _ _ X1 X2 A8 D1) as B1. pose proof (corner_mid _ _ _ _ Y1 Y2 A8 D2) as B2.
  pose proof (corner_mid _ _ _ _ X1 X2 A8 D3) as B3. pose proof (corner_mid _ _ _ _ Y1 Y2 A8 D4) as B4.
  assert (BX : Rabs (R32 x) <= mid) by (apply Rabs_le_inv in B1, B3; apply Rabs_le; lra).
  assert (BY : Rabs (R32 y) <= mid) by (apply Rabs_le_inv in B2, B4; apply Rabs_le; lra).
  set (ux := fun t => remap (f32_of_Z (min_x display)) (f32_of_Z (max_x display)) f32_zero f32_one t).
  set (uy := fun t => remap (f32_of_Z (min_y display)) (f32_of_Z (max_y display)) f32_zero f32_one t).
  set (u := BBoxF (ux (fmin_x box)) (uy (fmin_y box)) (ux (fmax_x box)) (uy (fmax_y box))).
  assert (PU : plain_box u).
  { split; [exact (unit_plain _ _ _ X1 X2 P1 B1)|]. split; [exact (unit_plain _ _ _ Y1 Y2 P2 B2)|].
    split; [exact (unit_plain _ _ _ X1 X2 P3 B3)|exact (unit_plain _ _ _ Y1 Y2 P4 B4)]. }
  assert (WU : within 0 0 u (ux x, uy y)).
  { split; [exact (unit_plain _ _ _ X1 X2 PX BX)|]. split; [exact (unit_plain _ _ _ Y1 Y2 PY BY)|]. cbn [fst snd u fmin_x fmin_y fmax_x fmax_y].
    rewrite !Rminus_0_r, !Rplus_0_r.
    split; split; [apply (unit_mono _ _ _ _ X1 X2 P1 PX B1 BX)|apply (unit_mono _ _ _ _ X1 X2 PX P3 BX B3)|apply (unit_mono _ _ _ _ Y1 Y2 P2 PY B2 BY)|apply (unit_mono _ _ _ _ Y1 Y2 PY P4 BY B4)]; lra. }
  assert (KX : 0 < pixel_x display) by (apply Rinv_0_lt_compat, IZR_lt; lia).
  assert (KY : 0 < pixel_y display) by (apply Rinv_0_lt_compat, IZR_lt; lia).
  assert (UU : box_up_to (a + 3 * pixel_x display + 3 * pixel_y display) u).
  { pose proof (unit_bound _ _ _ _ X1 X2 P1 A8 D1) as Q1. pose proof (unit_bound _ _ _ _ Y1 Y2 P2 A8 D2) as Q2.
    pose proof (unit_bound _ _ _ _ X1 X2 P3 A8 D3) as Q3. pose proof (unit_bound _ _ _ _ Y1 Y2 P4 A8 D4) as Q4.
    fold (pixel_x display) in Q1, Q3. fold (pixel_y display) in Q2, Q4.
    split; [|split; [|split]]; cbn [u fmin_x fmin_y fmax_x fmax_y]; unfold ux, uy; lra. }
  destruct (BH u (ux x, uy y) PU WU UU) as ((R1 & R2 & R3 & R4) & (C1 & C2 & C3 & C4) & (QX & QY & IX & IY) & C5 & C6).
  set (r := nx_lens_box nx v dis u) in *. set (q' := nx_lens nx v dis (ux x, uy y)) in *.
  exists (BBoxF (f32_sub (back_to (min_x display) (max_x display) (fmin_x r)) (f32_of_Z 2))
                (f32_sub (back_to (min_y display) (max_y display) (fmin_y r)) (f32_of_Z 2))
                (f32_add (back_to (min_x display) (max_x display) (fmax_x r)) (f32_of_Z 2))
                (f32_add (back_to (min_y display) (max_y display) (fmax_y r)) (f32_of_Z 2))),
    (back_to (min_x display) (max_x display) (fst q'), back_to (min_y display) (max_y display) (snd q')).
  split; [|split].
  - cbn [deform_box]. unfold tde4_box. cbn [bboxf_of fmin_x fmin_y fmax_x fmax_y]. rewrite DIR. unfold r. destruct dis; reflexivity.
  - cbn [deform_point]. unfold tde4_apply. cbn [bboxf_of fmin_x fmin_y fmax_x fmax_y]. fold (ux x) (uy y). rewrite DIR.
    unfold q'. destruct dis.
    + change (negb false) with true. destruct (nx_lens nx v true (ux x, uy y)); reflexivity.
    + destruct (nx_lens nx v false (ux x, uy y)); reflexivity.
  - destruct IX as [IX1 IX2], IY as [IY1 IY2].
    destruct (margin_low _ _ (fmin_x r) (fst q') X1 X2 R1 QX b (proj2 B8) C1 C5 IX1) as (M1 & N1 & O1).
    destruct (margin_low _ _ (fmin_y r) (snd q') Y1 Y2 R2 QY b (proj2 B8) C2 C6 IY1) as (M2 & N2 & O2).
    destruct (margin_high _ _ (fmax_x r) (fst q') X1 X2 R3 QX b (proj2 B8) C3 C5 IX2) as (M3 & N3 & O3).
    destruct (margin_high _ _ (fmax_y r) (snd q') Y1 Y2 R4 QY b (proj2 B8) C4 C6 IY2) as (M4 & N4 & O4).
    split; [exact (conj M1 (conj M2 (conj M3 M4)))|].
    split; [|exact (conj N1 (conj N2 (conj N3 N4)))].
    split; [exact (proj1 (back_real _ _ _ X1 X2 QX ltac:(lra)))|]. split; [exact (proj1 (back_real _ _ _ Y1 Y2 QY ltac:(lra)))|]. cbn [fst snd fmin_x fmin_y fmax_x fmax_y]. lra.
Qed.

Lemma many_lenses nx display : usual_display display -> forall ds a b q, 0 <= a <= 8 -> fair_lenses nx display a ds -> moderate display a b q ->
  exists b' q' a', fold_box nx ds b (bboxf_of display) = Ok b' /\ carried nx display ds q = Ok q' /\ 0 <= a' <= 8 /\ moderate display a' b' q'.
Proof.
  intros U ds. induction ds as [|d ds IH]; intros a b q A F M; [exists b, q, a; now split|].
  destruct F as (v & b0 & dis & -> & _ & DIR & BH & B8 & FT).
  destruct (one_lens nx display v b q dis a b0 U A B8 BH M DIR) as (b1 & q1 & E1 & E2 & M1). destruct (IH b0 b1 q1 B8 FT M1) as (b2 & q2 & a2 & E3 & E4 & A2 & M2).
  exists b2, q2, a2. cbn [fold_box carried]. rewrite E1, E2. cbn [bind]. now split.
Qed.

Lemma fair_on nx display ds : forall a, fair_lenses nx display a ds -> enabled ds = ds.
Proof.
  induction ds as [|d ds IH]; intros a F; [reflexivity|]. destruct F as (v & b & dis & -> & E & _ & _ & _ & F).
  unfold enabled in *. cbn [filter def_vals]. rewrite E. cbn [Z.eqb Pos.eqb]. f_equal. exact (IH b F).
Qed.

(** ** Whole pixels around a box *)
Lemma num_value v : fin32 v -> R32 v = IZR (EdgeSpec.num v) / IZR (EdgeSpec.den v) /\ 0 < IZR (EdgeSpec.den v).
Proof.
  destruct v as [s|s| |s m e]; intro F; try discriminate; cbn [EdgeSpec.num EdgeSpec.den].
  - unfold R32. cbn [SF2R]. split; [field|lra].
  - split; [|apply IZR_lt; apply Z.pow_pos_nonneg; lia].
    unfold R32. cbn [SF2R]. unfold F2R. cbn [Fnum Fexp].
    assert (Hm : IZR (cond_Zopp s (Z.pos m)) = IZR (if s then -1 else 1) * IZR (Z.pos m)).
    { rewrite <- mult_IZR. f_equal. destruct s; cbn [cond_Zopp]; lia. }
    rewrite Hm, !mult_IZR. destruct (Z.leb_spec 0 e).
    + rewrite (Z.max_r 0 e), (Z.max_l 0 (- e)) by lia. rewrite Z.pow_0_r.
      change 2%Z with (radix_val radix2). rewrite IZR_Zpower by lia. field.
    + rewrite (Z.max_l 0 e), (Z.max_r 0 (- e)) by lia. rewrite Z.pow_0_r.
      change 2%Z with (radix_val radix2). rewrite IZR_Zpower by lia. rewrite bpow_opp. field. apply Rgt_not_eq, bpow_gt_0.
Qed.
Lemma below_real z v : fin32 v -> EdgeSpec.below z v -> IZR z <= R32 v.
Proof.
  intros F B. destruct (num_value v F) as (-> & D).
  assert (N : (z * EdgeSpec.den v <= EdgeSpec.num v)%Z) by (destruct v; try discriminate F; exact B).
  apply IZR_le in N. rewrite mult_IZR in N. apply Rmult_le_reg_r with (IZR (EdgeSpec.den v)); [exact D|]. unfold Rdiv. rewrite Rmult_assoc, Rinv_l, Rmult_1_r by lra. exact N.
Qed.
Lemma above_real z v : fin32 v -> EdgeSpec.above z v -> R32 v <= IZR z.
Proof.
  intros F B. destruct (num_value v F) as (-> & D).
  assert (N : (EdgeSpec.num v <= z * EdgeSpec.den v)%Z) by (destruct v; try discriminate F; exact B).
  apply IZR_le in N. rewrite mult_IZR in N. apply Rmult_le_reg_r with (IZR (EdgeSpec.den v)); [exact D|]. unfold Rdiv. rewrite Rmult_assoc, Rinv_l, Rmult_1_r by lra. exact N.
Qed.
Lemma greatest_real v z : plain_value v -> Rabs (R32 v) <= mid -> greatest_below v z -> IZR z <= R32 v.
Proof.
  intros (V & F) B (_ & _ & G). apply fin_iff in F. destruct G as (_ & [G|G]); [intros ->; discriminate F|now apply below_real|].
  rewrite G. unfold mid in B. apply Rabs_le_inv in B. change (- two31)%Z with (-2147483648)%Z. lra.
Qed.
Lemma least_real v z : plain_value v -> Rabs (R32 v) <= mid -> least_above v z -> R32 v <= IZR z.
Proof.
  intros (V & F) B (_ & _ & G). apply fin_iff in F. destruct G as (_ & [G|G]); [intros ->; discriminate F|now apply above_real|].
  rewrite G. unfold mid in B. apply Rabs_le_inv in B. change (two31 - 1)%Z with 2147483647%Z. lra.
Qed.

Lemma start_corner display win a : usual_display display -> 0 <= a <= 8 -> reaches display win a ->
  forall q, within 0 0 (bboxf_of win) q -> moderate display a (bboxf_of win) q.
Proof.
  intros (X1 & X2 & Y1 & Y2) A (R1 & R2 & R3 & R4) q W.
  assert (S : forall c lo hi, (- 65536 <= lo < hi)%Z -> (hi <= 65536)%Z -> Rabs (IZR (c - lo)) <= a * IZR (hi - lo) -> (Z.abs c <= 2 ^ 24)%Z).
  { intros c lo hi L H D. assert (W2 : IZR (hi - lo) <= 131072) by (apply IZR_le; lia). assert (W1 : 1 <= IZR (hi - lo)) by (apply IZR_le; lia).
    assert (a * IZR (hi - lo) <= 8 * 131072) by (apply Rmult_le_compat; lra). rewrite <- abs_IZR in D.
    assert (IZR (Z.abs (c - lo)) <= IZR 1048576) by lra. apply le_IZR in H1. lia. }
  assert (G : forall c lo hi, (- 65536 <= lo < hi)%Z -> (hi <= 65536)%Z -> Rabs (IZR (c - lo)) <= a * IZR (hi - lo) ->
    plain_value (f32_of_Z c) /\ Rabs (R32 (f32_of_Z c) - IZR lo) <= a * IZR (hi - lo) + 24 / 10).
  { intros c lo hi L H D. destruct (small_real c) as (V & F & E); [pose proof (S c lo hi L H D); lia|].
    split; [split; [exact V|now apply fin_iff]|]. rewrite E, <- minus_IZR. lra. }
  destruct (G _ _ _ X1 X2 R1) as (P1 & D1). destruct (G _ _ _ X1 X2 R2) as (P2 & D2). destruct (G _ _ _ Y1 Y2 R3) as (P3 & D3). destruct (G _ _ _ Y1 Y2 R4) as (P4 & D4).
  split; [exact (conj P1 (conj P3 (conj P2 P4)))|]. split; [exact W|]. exact (conj D1 (conj D3 (conj D2 D4))).
Qed.

Theorem nothing_cut_off nx p ds display blk win dst w' a : usual_display display -> 0 <= a <= 8 -> reaches display win a ->
  fair_lenses nx display a ds -> deform_pixels nx p ds display blk win = Ok (dst, w') ->
  forall q, within 0 0 (bboxf_of win) q -> exists q', carried nx display ds q = Ok q' /\ inside w' q'.
Proof.
  intros U A RE FL H q W. pose proof (start_corner display win a U A RE q W) as M.
  destruct (many_lenses nx display U ds a (bboxf_of win) q A FL M) as (b & q' & a' & FB & CA & A' & ((P1 & P2 & P3 & P4) & (QX & QY & IX & IY) & D1 & D2 & D3 & D4)).
  exists q'. split; [exact CA|]. rewrite !Rminus_0_r, !Rplus_0_r in *.
  destruct U as (X1 & X2 & Y1 & Y2).
  pose proof (corner_mid _ _ _ _ X1 X2 A' D1) as B1. pose proof (corner_mid _ _ _ _ Y1 Y2 A' D2) as B2.
  pose proof (corner_mid _ _ _ _ X1 X2 A' D3) as B3. pose proof (corner_mid _ _ _ _ Y1 Y2 A' D4) as B4.
  pose proof (fair_on nx display ds a FL) as EN.
  destruct ds as [|d ds].
  { cbn [fold_box] in FB. injection FB as <-. unfold deform_pixels in H. rewrite EN in H. injection H as _ <-.
    cbn [bboxf_of fmin_x fmin_y fmax_x fmax_y] in *.
    assert (S : forall c, (Z.abs c <= 2 ^ 24)%Z -> R32 (f32_of_Z c) = IZR c) by (intros c C; exact (proj2 (proj2 (small_real c C)))).
    clear - IX IY S RE A X1 X2 Y1 Y2.
    assert (T : forall c lo hi, (- 65536 <= lo < hi)%Z -> (hi <= 65536)%Z -> Rabs (IZR (c - lo)) <= a * IZR (hi - lo) -> R32 (f32_of_Z c) = IZR c).
    { intros c lo hi L H D. assert (W2 : IZR (hi - lo) <= 131072) by (apply IZR_le; lia). assert (W1 : 1 <= IZR (hi - lo)) by (apply IZR_le; lia).
      assert (a * IZR (hi - lo) <= 8 * 131072) by (apply Rmult_le_compat; lra). rewrite <- abs_IZR in D.
      assert (I : IZR (Z.abs (c - lo)) <= IZR 1048576) by lra. apply le_IZR in I. apply S. lia. }
    destruct RE as (R1 & R2 & R3 & R4).
    rewrite (T _ _ _ X1 X2 R1), (T _ _ _ X1 X2 R2) in IX. rewrite (T _ _ _ Y1 Y2 R3), (T _ _ _ Y1 Y2 R4) in IY. now split. }
  assert (NE : enabled (d :: ds) <> []) by (rewrite EN; discriminate).
  rewrite <- EN in FB. destruct (window_encloses nx p (d :: ds) display blk win dst w' b NE FB H) as (G1 & G2 & G3 & G4).
  pose proof (greatest_real _ _ P1 B1 G1). pose proof (greatest_real _ _ P2 B2 G2). pose proof (least_real _ _ P3 B3 G3). pose proof (least_real _ _ P4 B4 G4).
  unfold inside. lra.
Qed.

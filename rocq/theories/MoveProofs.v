(** Proofs: where a transform takes a point, and what baking a translation does
    (uses the axioms of Coq's real numbers). *)
From Coq Require String.
Import String.StringSyntax.
From Coq Require Import Reals Floats.SpecFloat Psatz.
From Flocq Require Import Core.Core.
From Verif Require Import Machine FloatModel FloatReal GeomReal UndoReal AttrModel StreamModel GradeModel DeformModel BBoxModel PixelModel PixelSpec MergeSpec BakeSpec
  FloatFacts NodeSpec NodeProofs3 TransformProofs LineReal LineSpec LineProofs MixReal RemapSpec RemapProofs RemapReal RemapKeep MoveReal MoveSpec.
Local Open Scope string_scope.

Lemma small_num v : LineReal.small v -> num v (R32 v).
Proof. intros (V & F & _). now split. Qed.
Lemma plain_num v : plain_value v -> num v (R32 v).
Proof. intros (V & F). apply fin_iff in F. now split. Qed.

(** The unused entries of the turn are numbers. *)
Lemma turn_entry cx cy c s : LineReal.small cx -> LineReal.small cy -> num c (R32 c) -> num s (R32 s) -> (Rabs (R32 c) <= 1)%R -> (Rabs (R32 s) <= 1)%R ->
  num (f32_add (f32_mul cx (f32_sub f32_one c)) (f32_mul cy s)) (R32 (f32_add (f32_mul cx (f32_sub f32_one c)) (f32_mul cy s))) /\
  num (f32_sub (f32_mul cy (f32_sub f32_one c)) (f32_mul cx s)) (R32 (f32_sub (f32_mul cy (f32_sub f32_one c)) (f32_mul cx s))).
Proof.
  intros Hx Hy Nc Ns Bc Bs. pose proof huge_big as HU. pose proof big90 as H90. pose proof big98 as H98. assert (HK : K20 = 1048576%R) by reflexivity.
  assert (H0 : (0 <= 0 <= huge)%R) by (rewrite HU; lra). assert (H1 : (0 <= 1 <= huge)%R) by (rewrite HU; lra).
  assert (So : LineReal.small f32_one) by (destruct one_real as (V & F & E); split; [exact V|split; [exact F|rewrite E, Rabs_R1, HK; lra]]).
  assert (Sc : LineReal.small c) by (destruct Nc as (V & F & _); split; [exact V|split; [exact F|rewrite HK; lra]]).
  assert (Ss : LineReal.small s) by (destruct Ns as (V & F & _); split; [exact V|split; [exact F|rewrite HK; lra]]).
  pose proof (stands_diff f32_one c So Sc) as D.
  assert (MU : forall a, LineReal.small a -> exists N, (0 <= N <= 10 ^ 9)%R /\
    stands (f32_mul a (f32_sub f32_one c)) (R32 a * (R32 f32_one - R32 c)) 3 (Rabs (R32 a) * Rabs (R32 f32_one - R32 c)) N (K20 * (2 * K20))).
  { intros a Sa. pose proof (stands_mul _ _ _ _ _ _ _ _ _ _ _ _ (exact_stands a Sa) D ltac:(lra) ltac:(lra) H0 H1 ltac:(lra)
      ltac:(rewrite HK; lra) ltac:(rewrite HK; lra) ltac:(rewrite HK; lra) ltac:(rewrite HK; lra) ltac:(rewrite HK; lra)) as P.
    eexists. split; [|eapply stands_weaken; [exact P|lra|apply Rle_refl|apply Rle_refl]]. rewrite HK. lra. }
  assert (MS : forall a, LineReal.small a -> exists N, (0 <= N <= 10 ^ 9)%R /\
    stands (f32_mul a s) (R32 a * R32 s) 3 (Rabs (R32 a) * Rabs (R32 s)) N (K20 * K20)).
  { intros a Sa. pose proof (stands_mul _ _ _ _ _ _ _ _ _ _ _ _ (exact_stands a Sa) (exact_stands s Ss) ltac:(lra) ltac:(lra) H0 H0 ltac:(lra)
      ltac:(rewrite HK; lra) ltac:(rewrite HK; lra) ltac:(rewrite HK; lra) ltac:(rewrite HK; lra) ltac:(rewrite HK; lra)) as P.
    eexists. split; [|eapply stands_weaken; [exact P|lra|apply Rle_refl|apply Rle_refl]]. rewrite HK. lra. }
  destruct (MU cx Hx) as (N1 & B1 & P1), (MS cy Hy) as (N2 & B2 & P2), (MU cy Hy) as (N3 & B3 & P3), (MS cx Hx) as (N4 & B4 & P4).
  split; eapply stands_self.
  - eapply (stands_add _ _ _ _ _ _ _ _ _ _ _ _ P1 P2); try (rewrite HU); try (rewrite HK); try lra. apply Rle_refl. lra. lra.
  - eapply (stands_sub _ _ _ _ _ _ _ _ _ _ _ _ P3 P4); try (rewrite HU); try (rewrite HK); try lra. apply Rle_refl. lra. lra.
Qed.

Lemma tiny_move : (10 ^ 9 * eta32 <= / 2 ^ 70)%R.
Proof.
  eapply Rle_trans; [|apply tiny_bound]. apply Rmult_le_compat_r; [left; apply eta_pos|]. lra.
Qed.

Theorem placed nx v win x y :
  usual_transform v win -> fair_turn nx v -> vi v "invert" <= 0 -> modest x -> modest y ->
  let C := R32 (nx_cos nx (radians v)) in
  let S := R32 (nx_sin nx (radians v)) in
  let (x', y') := transform_apply nx v win false (x, y) in
  plain_value x' /\ plain_value y' /\
  (Rabs (R32 x' - placed_x v C S win (R32 x) (R32 y)) <= 7 * / 2 ^ 24 * reach_x v C S win (R32 x) (R32 y) + / 2 ^ 70)%R /\
  (Rabs (R32 y' - placed_y v C S win (R32 x) (R32 y)) <= 7 * / 2 ^ 24 * reach_y v C S win (R32 x) (R32 y) + / 2 ^ 70)%R.
Proof.
  intros (FA & Mn & Mx & WD) (Pc & Bc & Ps & Bs) INV Hx Hy C S.
  assert (HF : forall n, In n ["translate_x"; "translate_y"; "rotate_center_x"; "rotate_center_y"; "scale_x"; "scale_y"; "pivot_x"; "pivot_y"] ->
    LineReal.small (f32_of_bits (vf v n))) by (intros n I; rewrite Forall_forall in FA; now apply modest_small, FA).
  apply modest_small in Mn, Mx, Hx, Hy. rewrite K20_pow in WD.
  apply plain_num in Pc, Ps. fold C in Pc, Bc. fold S in Ps, Bs.
  unfold transform_apply, transform_matrix. cbn [negb]. replace (0 <? vi v "invert") with false by lia.
  unfold transform_srt, rotate_2d. fold (radians v). set (c := nx_cos nx (radians v)) in *. set (s := nx_sin nx (radians v)) in *.
  pose proof (part_stands _ _ _ Mn Mx (HF "translate_x" ltac:(cbn; tauto)) WD) as STX.
  pose proof (part_stands _ _ _ Mn Mx (HF "translate_y" ltac:(cbn; tauto)) WD) as STY.
  set (tx := inverse_lerp (fmin_x win) (fmax_x win) (f32_of_bits (vf v "translate_x"))) in *.
  set (ty := inverse_lerp (fmin_x win) (fmax_x win) (f32_of_bits (vf v "translate_y"))) in *.
  destruct (turn_entry _ _ c s (HF "rotate_center_x" ltac:(cbn; tauto)) (HF "rotate_center_y" ltac:(cbn; tauto)) Pc Ps Bc Bs) as (N0 & N1).
  set (k0 := f32_add (f32_mul (f32_of_bits (vf v "rotate_center_x")) (f32_sub f32_one c)) (f32_mul (f32_of_bits (vf v "rotate_center_y")) s)) in *.
  set (k1 := f32_sub (f32_mul (f32_of_bits (vf v "rotate_center_y")) (f32_sub f32_one c)) (f32_mul (f32_of_bits (vf v "rotate_center_x")) s)) in *.
  pose proof (HF "scale_x" ltac:(cbn; tauto)) as HSX. pose proof (HF "scale_y" ltac:(cbn; tauto)) as HSY.
  pose proof (HF "pivot_x" ltac:(cbn; tauto)) as HPX. pose proof (HF "pivot_y" ltac:(cbn; tauto)) as HPY. clear HF.
  set (sx := f32_of_bits (vf v "scale_x")) in *. set (sy := f32_of_bits (vf v "scale_y")) in *.
  pose proof (whole_rows c s k0 k1 tx ty sx sy _ _ _ _ _ _ _ _ Pc Ps N0 N1 (stands_self _ _ _ _ _ _ STX) (stands_self _ _ _ _ _ _ STY)
    (small_num _ HSX) (small_num _ HSY) Bc Bs (proj2 (proj2 HSX)) (proj2 (proj2 HSY))) as (A00 & A01 & A02 & A03 & A10 & A11 & A12 & A13).
  match goal with |- context [mat_vec ?mm _] => set (m := mm) in * end.
  set (px := f32_of_bits (vf v "pivot_x")) in *. set (py := f32_of_bits (vf v "pivot_y")) in *.
  unfold mat_vec, mat_row.
  pose proof (stands_diff x px Hx HPX) as SX. pose proof (stands_diff y py Hy HPY) as SY.
  pose proof (stands_num _ _ _ _ _ _ _ STX A03) as TX. pose proof (stands_num _ _ _ _ _ _ _ STY A13) as TY.
  pose proof (row_stands _ _ _ _ _ _ _ _ px _ _ _ _ _ _ _ _ _ _ (1002 / 1000) ltac:(lra) A00 A01 TX SX SY _ A02 num_f0 num_one HPX) as RX.
  pose proof (row_stands _ _ _ _ _ _ _ _ py _ _ _ _ _ _ _ _ _ _ (1002 / 1000) ltac:(lra) A10 A11 TY SX SY _ A12 num_f0 num_one HPY) as RY.
  clearbody m. destruct RX as (V1 & F1 & D1 & _ & _), RY as (V2 & F2 & D2 & _ & _).
  apply fin_iff in F1, F2. split; [now split|]. split; [now split|].
  pose proof eps_pow as EP. pose proof tiny_move as TM. pose proof eps_small as ES. split.
  - unfold placed_x, reach_x, setting, width_part. fold px py sx sy. unfold setting.
    match goal with |- (Rabs (?a - ?b) <= _)%R => match type of D1 with (Rabs (_ - ?u) <= _ * _ * ?M + _)%R =>
      replace b with u by (unfold Rdiv; ring); match goal with |- (_ <= _ * _ * ?M' + _)%R => replace M' with M end end end.
    + eapply Rle_trans; [exact D1|]. apply Rplus_le_compat; [|exact TM]. rewrite <- EP.
      apply Rmult_le_compat_r; [|apply Rmult_le_compat_r; lra].
      repeat apply Rplus_le_le_0_compat; try apply Rmult_le_pos; apply Rabs_pos.
    + rewrite <- !Rabs_mult. rewrite <- (Rabs_Ropp (- S * _ * _)). replace (- (- S * R32 sy * (R32 y - R32 py)))%R with (S * (R32 sy * (R32 y - R32 py)))%R by ring.
      rewrite (Rmult_assoc C). ring.
  - unfold placed_y, reach_y, setting, width_part. fold px py sx sy. unfold setting.
    match goal with |- (Rabs (?a - ?b) <= _)%R => match type of D2 with (Rabs (_ - ?u) <= _ * _ * ?M + _)%R =>
      replace b with u by (unfold Rdiv; ring); match goal with |- (_ <= _ * _ * ?M' + _)%R => replace M' with M end end end.
    + eapply Rle_trans; [exact D2|]. apply Rplus_le_compat; [|exact TM]. rewrite <- EP.
      apply Rmult_le_compat_r; [|apply Rmult_le_compat_r; lra].
      repeat apply Rplus_le_le_0_compat; try apply Rmult_le_pos; apply Rabs_pos.
    + rewrite <- !Rabs_mult. rewrite (Rmult_assoc C), (Rmult_assoc S). ring.
Qed.

(** ** Transforms that only translate *)
Lemma plain_of_num v U : num v U -> plain_value v /\ R32 v = U.
Proof. intros (V & F & E). split; [split; [exact V|now apply fin_iff]|exact E]. Qed.
Lemma shift_num m A B i j : shift_matrix m A B -> (i < 4)%nat -> (j < 4)%nat -> num (mat m i j) (shift_entry A B i j).
Proof. intros H Hi Hj. destruct (H i j Hi Hj) as (P & <-). now apply plain_num. Qed.

Lemma shift_built tx ty cx cy nx : nx_cos nx (S754_zero false) = f32_one -> nx_sin nx (S754_zero false) = S754_zero false ->
  num tx (R32 tx) -> num ty (R32 ty) -> LineReal.small cx -> LineReal.small cy ->
  shift_matrix (transform_srt nx tx ty cx cy (S754_zero false) f32_one f32_one) (R32 tx) (R32 ty).
Proof.
  intros HC HS Nx Ny Sx Sy. unfold transform_srt, rotate_2d.
  change (f32_div (f32_mul (S754_zero false) f32_pi) (f32_of_Z 180)) with (S754_zero false). rewrite HC, HS.
  pose proof num_one as NO. pose proof num_f0 as NZ.
  destruct (turn_entry cx cy f32_one (S754_zero false) Sx Sy) as (N0 & N1).
  { destruct NO as (V & F & E). now rewrite E. } { repeat split; reflexivity. }
  { destruct NO as (_ & _ & ->). rewrite Rabs_R1. lra. } { change (R32 (S754_zero false)) with 0%R. rewrite Rabs_R0. lra. }
  match type of N0 with num ?a _ => set (k0 := a) in * end. match type of N1 with num ?a _ => set (k1 := a) in * end.
  destruct (turn_rows f32_one (S754_zero false) k0 k1 tx ty 1 0 _ _ _ _ NO (num_zero false) N0 N1 Nx Ny)
    as (a00 & a01 & a02 & a03 & a10 & a11 & a12 & a13 & r & E & N00 & N01 & N02 & N03 & N10 & N11 & N12 & N13 &
        a20 & a21 & a22 & a23 & a30 & a31 & a32 & a33 & -> & N20 & N21 & N22 & N23 & N30 & N31 & N32 & N33).
  rewrite E. clear E. rewrite Ropp_0 in N01.
  assert (D0 : num (f32_sub f32_one f32_one) 0) by exact num_f0.
  assert (K0 : R32 k0 = 0%R).
  { apply (add0_r _ _ 0%R (mul0_r _ _ _ (small_num _ Sx) D0) (mul0_r _ _ _ (small_num _ Sy) (num_zero false))). }
  assert (K1 : R32 k1 = 0%R).
  { destruct (mul0_r _ _ _ (small_num _ Sy) D0) as (V1 & F1 & E1), (mul0_r _ _ _ (small_num _ Sx) (num_zero false)) as (V2 & F2 & E2).
    unfold k1. destruct (sub_real _ _ V1 V2 F1 F2) as (_ & ->); rewrite E1, E2, Rminus_0_r; [|apply RN_0].
    unfold in_range32. rewrite RN_0, Rabs_R0. apply bpow_gt_0. }
  rewrite K0 in N02. rewrite K1 in N12. clearbody k0 k1.
  assert (mr : forall a A, num a A -> num (f32_mul a f32_one) A) by (intros; now apply mul1_r).
  assert (zr : forall a A, num a A -> num (f32_mul a f32_zero) 0) by (intros; now apply mul0_r with A).
  assert (fst4 : forall a b d e A, num a A -> num b 0 -> num d 0 -> num e 0 -> num (f32_add (f32_add (f32_add a b) d) e) A)
    by (intros; apply add0_r; [apply add0_r; [apply add0_r|]|]; assumption).
  assert (snd4 : forall a b d e A, num a 0 -> num b A -> num d 0 -> num e 0 -> num (f32_add (f32_add (f32_add a b) d) e) A)
    by (intros; apply add0_r; [apply add0_r; [apply add0_l|]|]; assumption).
  assert (third : forall a b d e A, num a 0 -> num b 0 -> num d A -> num e 0 -> num (f32_add (f32_add (f32_add a b) d) e) A)
    by (intros; apply add0_r; [apply add0_l; [apply add0_r|]|]; assumption).
  assert (fourth : forall a b d e A, num a 0 -> num b 0 -> num d 0 -> num e A -> num (f32_add (f32_add (f32_add a b) d) e) A)
    by (intros; apply add0_l; [apply add0_r; [apply add0_r|]|]; assumption).
  intros i j Hi Hj. apply plain_of_num. unfold mat_mul, scale_2d. cbn [flat_map map app].
  do 4 (destruct i as [|i]; [do 4 (destruct j as [|j];
    [unfold mat_row, mat; cbn [nth Nat.mul Nat.add shift_entry Nat.eqb];
     first [solve [apply fst4; eauto]|solve [apply snd4; eauto]|solve [apply third; eauto]|solve [apply fourth; eauto]]|]); lia|]). lia.
Qed.

Lemma stands_neg v w U k M N B : stands v U k M N B -> num w (- R32 v) -> stands w (- U) k M N B.
Proof.
  intros (V & F & D & S & L) (Vw & Fw & Ew). repeat split; auto.
  - rewrite Ew. replace (- R32 v - - U)%R with (- (R32 v - U))%R by ring. now rewrite Rabs_Ropp.
  - now rewrite Rabs_Ropp.
Qed.

(** A point moved by at most a half, apart from rounding. *)
Lemma row_near m a b z t X Y p k T n l :
  m = f32_add (f32_add (f32_add (f32_add (f32_mul a (f32_sub X p)) (f32_mul b Y)) (f32_mul z f32_zero)) (f32_mul t f32_one)) p ->
  num a 1 -> num b 0 -> num z 0 -> stands t T (3006 / 1000) (Rabs T) (10 * K20) (2 * K20 * K20) -> (Rabs T <= / 2)%R ->
  num X (IZR n + / 2)%R -> (0 <= n < 2 ^ 16)%Z -> stands Y l (1001 / 1000) k 1 (2 * K20) -> plain_value p -> (Rabs (R32 p) <= 2 ^ 16)%R ->
  num m (R32 m) /\ (Rabs (R32 m - (IZR n + / 2)) <= 58 / 100)%R.
Proof.
  intros -> Na Nb Nz ST HT NX Hn SY Hp Bp.
  assert (HK : K20 = 1048576%R) by reflexivity. assert (P16 : (2 ^ 16 = 65536)%R) by lra. rewrite P16 in Bp.
  apply plain_num in Hp.
  assert (Sp : LineReal.small p) by (destruct Hp as (V & F & _); split; [exact V|split; [exact F|rewrite HK; lra]]).
  assert (N0 : (0 <= IZR n)%R) by (apply IZR_le; lia). assert (N1 : (IZR n <= 65536)%R) by (apply IZR_le; lia).
  assert (SX : LineReal.small X).
  { destruct NX as (V & F & E). split; [exact V|split; [exact F|rewrite E, HK, Rabs_pos_eq; lra]]. }
  pose proof (stands_diff X p SX Sp) as DX. destruct NX as (_ & _ & EX). rewrite EX in DX.
  assert (SA : stands a 1 1 1 1 K20).
  { pose proof (num_stands a 1 K20 Na) as Q. rewrite Rabs_R1 in Q. eapply stands_weaken; [apply Q; rewrite HK; lra|lra|lra|lra]. }
  assert (SB : stands b 0 1 0 1 K20).
  { pose proof (num_stands b 0 K20 Nb) as Q. rewrite Rabs_R0 in Q. eapply stands_weaken; [apply Q; rewrite HK; lra|lra|lra|lra]. }
  pose proof (row_stands a b z t (f32_sub X p) Y f32_zero f32_one p _ _ _ _ _ _ _ _ _ _ 1 ltac:(lra) SA SB ST DX SY _ Nz num_f0 num_one Sp) as RR.
  set (m := f32_add (f32_add _ _) p) in *. clearbody m. split; [eapply stands_self; exact RR|].
  destruct RR as (_ & _ & D & _ & _). set (e := (IZR n + / 2)%R) in *.
  assert (DB : (Rabs (e - R32 p) <= 131073)%R).
  { unfold Rminus. eapply Rle_trans; [apply Rabs_triang|]. rewrite Rabs_Ropp, (Rabs_pos_eq e) by (unfold e; lra). unfold e. lra. }
  replace (R32 m - e)%R with ((R32 m - (1 * (e - R32 p) + 0 * l + T + R32 p)) + T)%R by ring.
  eapply Rle_trans; [apply Rabs_triang|]. eapply Rle_trans; [apply Rplus_le_compat; [exact D|exact HT]|].
  pose proof tiny_move as TM. assert (T70 : (/ 2 ^ 70 <= / 1000)%R) by (apply Rinv_le_contravar; [lra|]; rewrite (pow_IZR 2 70); apply IZR_le; vm_compute; discriminate).
  assert (EE : eps32 = (/ 16777216)%R) by reflexivity. rewrite EE.
  assert (R : (1 * Rabs (e - R32 p) + 0 * k + Rabs T + Rabs (R32 p) <= 196610)%R) by lra.
  set (M := (1 * Rabs (e - R32 p) + 0 * k + Rabs T + Rabs (R32 p))%R) in *. clearbody M. lra.
Qed.

Lemma row_near' m a b z t X Y p k T n l :
  m = f32_add (f32_add (f32_add (f32_add (f32_mul b Y) (f32_mul a (f32_sub X p))) (f32_mul z f32_zero)) (f32_mul t f32_one)) p ->
  num a 1 -> num b 0 -> num z 0 -> stands t T (3006 / 1000) (Rabs T) (10 * K20) (2 * K20 * K20) -> (Rabs T <= / 2)%R ->
  num X (IZR n + / 2)%R -> (0 <= n < 2 ^ 16)%Z -> stands Y l (1001 / 1000) k 1 (2 * K20) -> plain_value p -> (Rabs (R32 p) <= 2 ^ 16)%R ->
  num m (R32 m) /\ (Rabs (R32 m - (IZR n + / 2)) <= 58 / 100)%R.
Proof.
  intros -> Na Nb Nz ST HT NX Hn SY Hp Bp.
  assert (HK : K20 = 1048576%R) by reflexivity. assert (P16 : (2 ^ 16 = 65536)%R) by lra. rewrite P16 in Bp.
  apply plain_num in Hp.
  assert (Sp : LineReal.small p) by (destruct Hp as (V & F & _); split; [exact V|split; [exact F|rewrite HK; lra]]).
  assert (N0 : (0 <= IZR n)%R) by (apply IZR_le; lia). assert (N1 : (IZR n <= 65536)%R) by (apply IZR_le; lia).
  assert (SX : LineReal.small X).
  { destruct NX as (V & F & E). split; [exact V|split; [exact F|rewrite E, HK, Rabs_pos_eq; lra]]. }
  pose proof (stands_diff X p SX Sp) as DX. destruct NX as (_ & _ & EX). rewrite EX in DX.
  assert (SA : stands a 1 1 1 1 K20).
  { pose proof (num_stands a 1 K20 Na) as Q. rewrite Rabs_R1 in Q. eapply stands_weaken; [apply Q; rewrite HK; lra|lra|lra|lra]. }
  assert (SB : stands b 0 1 0 1 K20).
  { pose proof (num_stands b 0 K20 Nb) as Q. rewrite Rabs_R0 in Q. eapply stands_weaken; [apply Q; rewrite HK; lra|lra|lra|lra]. }
  pose proof (row_stands b a z t Y (f32_sub X p) f32_zero f32_one p _ _ _ _ _ _ _ _ _ _ 1 ltac:(lra) SB SA ST SY DX _ Nz num_f0 num_one Sp) as RR.
  set (m := f32_add (f32_add _ _) p) in *. clearbody m. split; [eapply stands_self; exact RR|].
  destruct RR as (_ & _ & D & _ & _). set (e := (IZR n + / 2)%R) in *.
  assert (DB : (Rabs (e - R32 p) <= 131073)%R).
  { unfold Rminus. eapply Rle_trans; [apply Rabs_triang|]. rewrite Rabs_Ropp, (Rabs_pos_eq e) by (unfold e; lra). unfold e. lra. }
  replace (R32 m - e)%R with ((R32 m - (0 * l + 1 * (e - R32 p) + T + R32 p)) + T)%R by ring.
  eapply Rle_trans; [apply Rabs_triang|]. eapply Rle_trans; [apply Rplus_le_compat; [exact D|exact HT]|].
  pose proof tiny_move as TM. assert (T70 : (/ 2 ^ 70 <= / 1000)%R) by (apply Rinv_le_contravar; [lra|]; rewrite (pow_IZR 2 70); apply IZR_le; vm_compute; discriminate).
  assert (EE : eps32 = (/ 16777216)%R) by reflexivity. rewrite EE.
  assert (R : (0 * k + 1 * Rabs (e - R32 p) + Rabs T + Rabs (R32 p) <= 196610)%R) by lra.
  set (M := (0 * k + 1 * Rabs (e - R32 p) + Rabs T + Rabs (R32 p))%R) in *. clearbody M. lra.
Qed.

Section Bake.
Variable nx : numerics.
Variable v : vals.
Variables w h : Z.
Hypothesis OT : only_translates v w.
Hypothesis ES : exact_shifts nx.
Hypothesis Hw : (1 <= w <= 2 ^ 16)%Z.
Hypothesis Hh : (1 <= h <= 2 ^ 16)%Z.

Lemma looked_at k l qx qy : (0 <= k < w)%Z -> (0 <= l < h)%Z ->
  transform_apply nx v (bboxf_of (BBox 0 0 w h)) true (centre k, centre l) = (qx, qy) ->
  num qx (R32 qx) /\ num qy (R32 qy) /\ (Rabs (R32 qx - (IZR k + / 2)) <= 58 / 100)%R /\ (Rabs (R32 qy - (IZR l + / 2)) <= 58 / 100)%R.
Proof.
  intros Hk Hl. destruct OT as (I & RO & SX & SY & AL & TX & TY). destruct ES as (EC & ESi & EI).
  assert (P16 : (2 ^ 16 = 65536)%R) by lra. assert (HK : K20 = 1048576%R) by reflexivity.
  assert (SM : forall n, In n ["translate_x"; "translate_y"; "rotate_center_x"; "rotate_center_y"; "pivot_x"; "pivot_y"] -> LineReal.small (f32_of_bits (vf v n))).
  { intros n H. destruct (AL n H) as ((V & F) & B). apply fin_iff in F. unfold setting in B. rewrite P16 in B. split; [exact V|split; [exact F|rewrite HK; lra]]. }
  destruct (small_real w ltac:(lia)) as (Vw & Fw & Ew). destruct (small_real 0 ltac:(lia)) as (V0 & F0 & E0).
  assert (W1 : (1 <= IZR w)%R) by (apply IZR_le; lia). assert (W2 : (IZR w <= 65536)%R) by (apply IZR_le; lia).
  assert (S0 : LineReal.small (f32_of_Z 0)) by (split; [exact V0|split; [exact F0|rewrite E0, Rabs_R0, HK; lra]]).
  assert (Sw : LineReal.small (f32_of_Z w)) by (split; [exact Vw|split; [exact Fw|rewrite Ew, Rabs_pos_eq, HK; lra]]).
  assert (WD : (/ K20 <= Rabs (R32 (f32_of_Z w) - R32 (f32_of_Z 0)))%R).
  { rewrite Ew, E0, Rminus_0_r, Rabs_pos_eq by lra. rewrite HK. lra. }
  unfold transform_apply, transform_matrix. cbn [negb bboxf_of fmin_x fmax_x min_x max_x]. rewrite I. cbn [Z.eqb].
  rewrite RO, SX, SY. change (f32_of_bits 0) with (S754_zero false). change (f32_of_bits 1065353216) with f32_one.
  pose proof (part_stands _ _ _ S0 Sw (SM "translate_x" ltac:(cbn; tauto)) WD) as STX.
  pose proof (part_stands _ _ _ S0 Sw (SM "translate_y" ltac:(cbn; tauto)) WD) as STY.
  rewrite Ew, E0, !Rminus_0_r in STX, STY. fold (setting v "translate_x") in STX. fold (setting v "translate_y") in STY.
  set (tx := inverse_lerp (f32_of_Z 0) (f32_of_Z w) (f32_of_bits (vf v "translate_x"))) in *.
  set (ty := inverse_lerp (f32_of_Z 0) (f32_of_Z w) (f32_of_bits (vf v "translate_y"))) in *.
  set (PX := (setting v "translate_x" / IZR w)%R) in *. set (PY := (setting v "translate_y" / IZR w)%R) in *.
  assert (HX : (Rabs PX <= / 2)%R).
  { unfold PX. rewrite abs_div by lra. apply Rmult_le_reg_r with (IZR w); [lra|]. unfold Rdiv. rewrite Rmult_assoc, Rinv_l by lra. lra. }
  assert (HY : (Rabs PY <= / 2)%R).
  { unfold PY. rewrite abs_div by lra. apply Rmult_le_reg_r with (IZR w); [lra|]. unfold Rdiv. rewrite Rmult_assoc, Rinv_l by lra. lra. }
  pose proof (shift_built tx ty _ _ nx EC ESi (stands_self _ _ _ _ _ _ STX) (stands_self _ _ _ _ _ _ STY)
    (SM "rotate_center_x" ltac:(cbn; tauto)) (SM "rotate_center_y" ltac:(cbn; tauto))) as SHM.
  set (m0 := transform_srt nx _ _ _ _ _ _ _) in *.
  set (m := match nx_inverse nx m0 with Some i => i | None => m0 end).
  assert (EX : exists A B TA TB, shift_matrix m A B /\ (Rabs TA <= / 2)%R /\ (Rabs TB <= / 2)%R /\
    (forall a, num a A -> stands a TA (3006 / 1000) (Rabs TA) (10 * K20) (2 * K20 * K20)) /\
    (forall a, num a B -> stands a TB (3006 / 1000) (Rabs TB) (10 * K20) (2 * K20 * K20))).
  { specialize (EI m0 _ _ SHM). unfold m. destruct (nx_inverse nx m0) as [i|].
    - exists (- R32 tx)%R, (- R32 ty)%R, (- PX)%R, (- PY)%R. rewrite !Rabs_Ropp. split; [exact EI|]. split; [exact HX|]. split; [exact HY|].
      split; intros a Na; [now apply stands_neg with tx|now apply stands_neg with ty].
    - exists (R32 tx), (R32 ty), PX, PY. split; [exact SHM|]. split; [exact HX|]. split; [exact HY|].
      split; intros a Na; [now apply stands_num with tx|now apply stands_num with ty]. }
  destruct EX as (A & B & TA & TB & SH & BA & BB & QA & QB). clearbody m. clear SHM EI STX STY.
  destruct (centre_real k ltac:(lia)) as (Vk & Fk & Ek). destruct (centre_real l ltac:(lia)) as (Vl & Fl & El).
  destruct (AL "pivot_x" ltac:(cbn; tauto)) as (Ppx & Bpx). destruct (AL "pivot_y" ltac:(cbn; tauto)) as (Ppy & Bpy).
  pose proof (SM "pivot_x" ltac:(cbn; tauto)) as Spx. pose proof (SM "pivot_y" ltac:(cbn; tauto)) as Spy.
  unfold setting in Bpx, Bpy. set (px := f32_of_bits (vf v "pivot_x")) in *. set (py := f32_of_bits (vf v "pivot_y")) in *.
  assert (Sk : LineReal.small (centre k)).
  { split; [exact Vk|split; [exact Fk|]]. rewrite Ek, HK. assert (0 <= IZR k)%R by (apply IZR_le; lia). assert (IZR k <= 65536)%R by (apply IZR_le; lia). rewrite Rabs_pos_eq; lra. }
  assert (Sl : LineReal.small (centre l)).
  { split; [exact Vl|split; [exact Fl|]]. rewrite El, HK. assert (0 <= IZR l)%R by (apply IZR_le; lia). assert (IZR l <= 65536)%R by (apply IZR_le; lia). rewrite Rabs_pos_eq; lra. }
  pose proof (stands_diff _ _ Sk Spx) as DX. pose proof (stands_diff _ _ Sl Spy) as DY.
  unfold mat_vec, mat_row. intro EQ. injection EQ as <- <-.
  pose proof (fun i j Hi Hj => shift_num m A B i j SH Hi Hj) as SN.
  destruct (row_near _ _ _ _ _ (centre k) (f32_sub (centre l) py) px _ TA k _ eq_refl (SN 0 0 ltac:(lia) ltac:(lia))%nat (SN 0 1 ltac:(lia) ltac:(lia))%nat
    (SN 0 2 ltac:(lia) ltac:(lia))%nat (QA _ (SN 0 3 ltac:(lia) ltac:(lia)))%nat BA (conj Vk (conj Fk Ek)) ltac:(lia) DY Ppx Bpx) as (R1 & R2).
  destruct (row_near' _ _ _ _ _ (centre l) (f32_sub (centre k) px) py _ TB l _ eq_refl (SN 1 1 ltac:(lia) ltac:(lia))%nat (SN 1 0 ltac:(lia) ltac:(lia))%nat
    (SN 1 2 ltac:(lia) ltac:(lia))%nat (QB _ (SN 1 3 ltac:(lia) ltac:(lia)))%nat BB (conj Vl (conj Fl El)) ltac:(lia) DX Ppy Bpy) as (R3 & R4).
  split; [exact R1|]. split; [exact R3|]. now split.
Qed.

(** A position near the middle of a pixel leads to that pixel or a neighbour. *)
Lemma neighbour n q k k' : (1 <= n <= 2 ^ 16)%Z -> (0 <= k < n)%Z -> num q (R32 q) -> (Rabs (R32 q - (IZR k + / 2)) <= 58 / 100)%R ->
  picked (stretched 0 n 0 (n - 1) q) n k' -> (Z.abs (k' - k) <= 1)%Z.
Proof.
  intros Hn Hk Nq D P. assert (HK : K20 = 1048576%R) by reflexivity.
  destruct (small_real n ltac:(lia)) as (Vn & Fn & En). destruct (small_real 0 ltac:(lia)) as (V0 & F0 & E0).
  destruct (small_real (n - 1) ltac:(lia)) as (Vl & Fl & El).
  assert (W1 : (1 <= IZR n)%R) by (apply IZR_le; lia). assert (W2 : (IZR n <= 65536)%R) by (apply IZR_le; lia).
  assert (K0 : (0 <= IZR k)%R) by (apply IZR_le; lia). assert (K1 : (IZR k <= IZR n - 1)%R) by (rewrite <- minus_IZR; apply IZR_le; lia).
  apply Rabs_le_inv in D.
  assert (S0 : LineReal.small (f32_of_Z 0)) by (split; [exact V0|split; [exact F0|rewrite E0, Rabs_R0, HK; lra]]).
  assert (Sn : LineReal.small (f32_of_Z n)) by (split; [exact Vn|split; [exact Fn|rewrite En, Rabs_pos_eq, HK; lra]]).
  assert (Sl : LineReal.small (f32_of_Z (n - 1))).
  { split; [exact Vl|split; [exact Fl|]]. rewrite El, minus_IZR, Rabs_pos_eq, HK; lra. }
  assert (Sq : LineReal.small q).
  { destruct Nq as (V & F & _). split; [exact V|split; [exact F|]]. rewrite HK. apply Rabs_le. lra. }
  assert (WD : (/ K20 <= Rabs (R32 (f32_of_Z n) - R32 (f32_of_Z 0)))%R).
  { rewrite En, E0, Rminus_0_r, Rabs_pos_eq by lra. rewrite HK. lra. }
  pose proof (part_stands _ _ _ S0 Sn Sq WD) as ST. rewrite En, E0, !Rminus_0_r in ST.
  unfold stretched, remap, lerp in P. set (mix := inverse_lerp (f32_of_Z 0) (f32_of_Z n) q) in *. clearbody mix.
  set (U := (R32 q / IZR n)%R) in *.
  assert (HU1 : (U * IZR n = R32 q)%R) by (unfold U, Rdiv; rewrite Rmult_assoc, Rinv_l by lra; ring).
  assert (UB : (-8 / 100 <= U <= 108 / 100)%R).
  { split; apply Rmult_le_reg_r with (IZR n); try lra; rewrite HU1; lra. }
  pose proof huge_big as HUG. pose proof big90 as H90.
  destruct (stands_size _ _ _ _ _ _ ST ltac:(lra) ltac:(rewrite HUG, HK; lra)) as (_ & MS & MT).
  assert (AU : (Rabs U <= 108 / 100)%R) by (apply Rabs_le; lra).
  assert (Sm : LineReal.small mix) by (destruct ST as (V & F & _); split; [exact V|split; [exact F|rewrite HK; lra]]).
  assert (So : LineReal.small f32_one) by (destruct one_real as (V & F & E); split; [exact V|split; [exact F|rewrite E, Rabs_R1, HK; lra]]).
  pose proof (stands_diff f32_one mix So Sm) as DM.
  assert (NZ : num (f32_mul (f32_sub f32_one mix) (f32_of_Z 0)) 0).
  { eapply mul0_r; [eapply stands_self; exact DM|]. split; [exact V0|now split]. }
  pose proof (stands_mul _ _ _ _ _ _ _ _ _ _ _ _ ST (exact_stands _ Sl) ltac:(lra) ltac:(lra) ltac:(rewrite HUG, HK; lra) ltac:(rewrite HUG; lra)
    ltac:(lra) ltac:(rewrite HK; lra) ltac:(rewrite HK; lra) ltac:(rewrite HK; lra) ltac:(rewrite HK; lra) ltac:(rewrite HK; lra)) as PM.
  rewrite El, minus_IZR in PM.
  pose proof (stands_num _ (f32_add (f32_mul (f32_sub f32_one mix) (f32_of_Z 0)) (f32_mul mix (f32_of_Z (n - 1)))) _ _ _ _ _ PM
    (add0_l _ _ _ NZ (stands_self _ _ _ _ _ _ PM))) as PA.
  set (r := f32_add _ _) in *. clearbody r. clear PM.
  assert (CL : (Rabs (R32 r - U * (IZR n - 1)) <= 1 / 10)%R).
  { destruct PA as (_ & _ & DD & _ & _). eapply Rle_trans; [exact DD|].
    assert (M1 : (Rabs U * Rabs (IZR n - 1) <= 108 / 100 * 65536)%R).
    { apply Rmult_le_compat; try apply Rabs_pos; [exact AU|]. rewrite Rabs_pos_eq; lra. }
    set (M := (Rabs U * Rabs (IZR n - 1))%R) in *. assert (M0 : (0 <= M)%R) by (apply Rmult_le_pos; apply Rabs_pos).
    assert (EE : eps32 = (/ 16777216)%R) by reflexivity. rewrite EE. destruct eta_small as (T0 & T1). rewrite HUG in T1. rewrite HK.
    clearbody M. lra. }
  apply Rabs_le_inv in CL. replace (U * (IZR n - 1))%R with (R32 q - U)%R in CL by (rewrite <- HU1; ring).
  assert (FR : fin32 r) by (now destruct PA as (_ & F & _)). clear PA.
  assert (X : exists g, rounds_to r g /\ k' = Z.max 0 (Z.min (n - 1) g)) by (destruct r; try discriminate; exact P).
  destruct X as (g & RG & ->). destruct (rounds_real r g FR RG) as (BG & _). apply Rabs_le_inv in BG.
  assert (g < k + 2)%Z by (apply lt_IZR; rewrite plus_IZR; lra).
  assert (k - 2 < g)%Z by (apply lt_IZR; rewrite minus_IZR; lra).
  lia.
Qed.

Theorem hardly_moved p blk :
  float_picture blk -> bs_w (pb_size blk) = w -> bs_h (pb_size blk) = h ->
  vi v "enable" = 1%Z ->
  exists dst, deform_pixels nx p [DTransform v] (BBox 0 0 w h) blk (BBox 0 0 w h) = Ok (dst, BBox 0 0 w h) /\
  forall x y, (0 <= x < w)%Z -> (0 <= y < h)%Z -> exists sx sy,
    (Z.abs (sx - x) <= 1)%Z /\ (Z.abs (sy - y) <= 1)%Z /\ fetched blk dst (BBox 0 0 w h) x y sx sy.
Proof.
  intros FP Ew Eh EN. set (win := BBox 0 0 w h) in *. set (ds := [DTransform v]).
  assert (ED : enabled ds = ds) by (unfold enabled, ds; cbn [filter def_vals]; now rewrite EN).
  pose proof FP as ((l & Hl) & WF & Hnc & _ & _ & F). rewrite Ew, Eh in *.
  assert (NE : enabled ds <> []) by (rewrite ED; discriminate).
  assert (CS : coords_small win) by (unfold coords_small, win; cbn [min_x max_x min_y max_y]; lia).
  assert (NE' : forall u, ~ In (DTde4 u) (enabled ds)) by (rewrite ED; intros u [H|[]]; discriminate).
  pose proof (fold_box_plain nx (enabled ds) (bboxf_of win) (bboxf_of win) NE') as FB.
  assert (WE : BBox (f32_floor_as_i32 (fmin_x (bboxf_of win))) (f32_floor_as_i32 (fmin_y (bboxf_of win)))
                    (f32_ceil_as_i32 (fmax_x (bboxf_of win))) (f32_ceil_as_i32 (fmax_y (bboxf_of win))) = win).
  { unfold win. cbn [bboxf_of fmin_x fmin_y fmax_x fmax_y min_x min_y max_x max_y].
    rewrite !floor_of_Z, !ceil_of_Z by (unfold FloatFacts.small; lia). reflexivity. }
  assert (TB : forall x y, taken_back nx win (enabled ds) (centre x, centre y) = Ok (transform_apply nx v (bboxf_of win) true (centre x, centre y))).
  { intros x y. rewrite ED. unfold ds. cbn [taken_back deform_point bind]. reflexivity. }
  destruct (deform_pixels_runs nx p ds win blk win _ NE FP CS FB) as (dst & E); rewrite ?WE.
  { unfold win; cbn [min_x max_x]; lia. }
  { unfold win; cbn [min_y max_y]; lia. }
  { unfold win; cbn [min_x max_x min_y max_y]. rewrite !Z.sub_0_r. exact F. }
  { intros x y Hx Hy. eexists. apply TB. }
  rewrite WE in E.
  destruct (deform_pixels_moved nx p ds win blk win dst win NE FP CS E) as (_ & _ & _ & _ & _ & M);
    try (unfold win; cbn [min_x max_x min_y max_y]; lia).
  exists dst. split; [exact E|]. intros x y Hx Hy.
  destruct (M x y) as (qx & qy & sx & sy & TQ & PX & PY & FE); try (unfold win; cbn [min_x max_x min_y max_y]; lia).
  rewrite TB in TQ. assert (TQ' : forall a b : f32 * f32, Ok a = Ok b -> a = b) by (intros a b H; congruence). apply TQ' in TQ. destruct (looked_at x y qx qy Hx Hy TQ) as (N1 & N2 & D1 & D2).
  unfold win in PX, PY. cbn [min_x max_x min_y max_y] in PX, PY. rewrite Ew in PX. rewrite Eh in PY.
  exists sx, sy. split; [exact (neighbour w qx x sx Hw Hx N1 D1 PX)|]. split; [exact (neighbour h qy y sy Hh Hy N2 D2 PY)|exact FE].
Qed.
End Bake.

(** ** The points of a mesh *)
Lemma each_point (g : f32 * f32 -> f32 * f32) l l' : map_xy3 (fun q => Ok (g q)) l = Ok l' ->
  length l' = length l /\
  forall i x y z, nth_error l (3 * i) = Some x -> nth_error l (3 * i + 1) = Some y -> nth_error l (3 * i + 2) = Some z ->
    nth_error l' (3 * i) = Some (fst (g (x, y))) /\ nth_error l' (3 * i + 1) = Some (snd (g (x, y))) /\ nth_error l' (3 * i + 2) = Some z.
Proof.
  revert l'. assert (W : forall n l, (length l <= n)%nat -> forall l', map_xy3 (fun q => Ok (g q)) l = Ok l' ->
    length l' = length l /\ forall i x y z, nth_error l (3 * i) = Some x -> nth_error l (3 * i + 1) = Some y -> nth_error l (3 * i + 2) = Some z ->
    nth_error l' (3 * i) = Some (fst (g (x, y))) /\ nth_error l' (3 * i + 1) = Some (snd (g (x, y))) /\ nth_error l' (3 * i + 2) = Some z).
  { clear l. induction n as [|n IH]; intros l L l' E.
    { destruct l; [|cbn in L; lia]. injection E as <-. split; [reflexivity|]. intros i x y z H. destruct (3 * i)%nat; discriminate. }
    assert (short : forall t, (length t < 3)%nat -> map_xy3 (fun q => Ok (g q)) t = Ok t) by (intros [|? [|? [|? ?]]] H; cbn in H; reflexivity || lia).
    destruct (Nat.lt_ge_cases (length l) 3) as [LT|GE].
    { rewrite (short l LT) in E. injection E as <-. split; [reflexivity|]. intros i x y z _ _ H. exfalso.
      assert (3 * i + 2 < length l)%nat by (apply nth_error_Some; congruence). lia. }
    destruct l as [|x0 [|y0 [|z0 t]]]; try (cbn in GE; lia). cbn [map_xy3] in E. destruct (g (x0, y0)) as [gx gy] eqn:G. cbn [bind] in E.
    destruct (map_xy3 (fun q => Ok (g q)) t) as [t'|] eqn:Et; cbn [bind] in E; [|discriminate]. injection E as <-.
    destruct (IH t ltac:(cbn in L; lia) t' Et) as (Lt & It). split; [cbn [length]; lia|].
    intros [|i] x y z H1 H2 H3.
    - cbn in H1, H2, H3. injection H1 as <-. injection H2 as <-. injection H3 as <-. rewrite G. repeat split; reflexivity.
    - replace (3 * Datatypes.S i)%nat with (Datatypes.S (Datatypes.S (Datatypes.S (3 * i)))) in * by lia. cbn [Nat.add nth_error] in *. now apply It. }
  exact (W (length l) l (le_n _)).
Qed.

Theorem placed_points nx v win buf buf' i x y z :
  usual_transform v win -> fair_turn nx v -> vi v "enable" = 1%Z -> (vi v "invert" <= 0)%Z ->
  deform_positions nx [DTransform v] win buf = Ok buf' ->
  nth_error buf (3 * i) = Some x -> nth_error buf (3 * i + 1) = Some y -> nth_error buf (3 * i + 2) = Some z -> modest x -> modest y ->
  let C := R32 (nx_cos nx (radians v)) in
  let S := R32 (nx_sin nx (radians v)) in
  exists x' y', nth_error buf' (3 * i) = Some x' /\ nth_error buf' (3 * i + 1) = Some y' /\ nth_error buf' (3 * i + 2) = Some z /\
  plain_value x' /\ plain_value y' /\
  (Rabs (R32 x' - placed_x v C S win (R32 x) (R32 y)) <= 7 * / 2 ^ 24 * reach_x v C S win (R32 x) (R32 y) + / 2 ^ 70)%R /\
  (Rabs (R32 y' - placed_y v C S win (R32 x) (R32 y)) <= 7 * / 2 ^ 24 * reach_y v C S win (R32 x) (R32 y) + / 2 ^ 70)%R.
Proof.
  intros UT FT EN IV E H1 H2 H3 Mx My C S. unfold deform_positions in E.
  replace (enabled [DTransform v]) with [DTransform v] in E by (unfold enabled; cbn [filter def_vals]; now rewrite EN).
  cbn [apply_each] in E.
  assert (Em : exists r, map_xy3 (fun q => Ok (transform_apply nx v win false q)) buf = Ok r /\ r = buf').
  { destruct (map_xy3 (deform_point nx (DTransform v) win false) buf) as [r|] eqn:M; cbn [bind] in E; [|discriminate].
    exists r. split; [exact M|]. congruence. }
  destruct Em as (r & Em & ->). destruct (each_point _ _ _ Em) as (_ & P). destruct (P i x y z H1 H2 H3) as (Q1 & Q2 & Q3).
  pose proof (placed nx v win x y UT FT IV Mx My) as PL. cbv zeta in PL. destruct (transform_apply nx v win false (x, y)) as [x' y'].
  exists x', y'. split; [exact Q1|]. split; [exact Q2|]. split; [exact Q3|exact PL].
Qed.

(** ** Default settings in any window *)
Lemma window_num z : Z.abs z <= 2 ^ 20 -> modest (f32_of_Z z) /\ R32 (f32_of_Z z) = IZR z.
Proof.
  intros H. destruct (small_real z ltac:(lia)) as (V & F & E). split; [|exact E]. split; [split; [exact V|now apply fin_iff]|].
  rewrite E, <- abs_IZR. apply Rle_trans with (IZR (2 ^ 20)); [now apply IZR_le|]. rewrite (pow_IZR 2 20). apply Rle_refl.
Qed.

Theorem offset nx v w x y : unit_transform v -> nx_cos nx (S754_zero false) = f32_one -> nx_sin nx (S754_zero false) = S754_zero false ->
  modest (f32_of_bits (vf v "pivot_x")) -> modest (f32_of_bits (vf v "pivot_y")) -> modest x -> modest y ->
  Z.abs (min_x w) <= 2 ^ 20 -> Z.abs (max_x w) <= 2 ^ 20 -> min_x w < max_x w ->
  let off := (IZR (min_x w) / IZR (max_x w - min_x w))%R in
  let (x', y') := transform_apply nx v (bboxf_of w) false (x, y) in
  (Rabs (R32 x' - (R32 x - off)) <=
   7 * / 2 ^ 24 * (Rabs (setting v "pivot_x") + Rabs (R32 x - setting v "pivot_x") + Rabs off) + / 2 ^ 70)%R /\
  (Rabs (R32 y' - (R32 y - off)) <=
   7 * / 2 ^ 24 * (Rabs (setting v "pivot_y") + Rabs (R32 y - setting v "pivot_y") + Rabs off) + / 2 ^ 70)%R.
Proof.
  intros (IV & Z0 & SX & SY) CO SI PX PY MX MY W0 W1 LT off.
  assert (ZERO : forall n, In n ["translate_x"; "translate_y"; "rotate"; "rotate_center_x"; "rotate_center_y"] -> f32_of_bits (vf v n) = f32_zero)
    by (intros n H; rewrite (Z0 n H); reflexivity).
  assert (M0 : modest f32_zero) by exact (modest_Z 0 ltac:(lia)).
  assert (M1 : modest f32_one) by exact (modest_Z 1 ltac:(lia)).
  assert (RD : radians v = S754_zero false) by (unfold radians; rewrite ZERO by (cbn; tauto); vm_compute; reflexivity).
  destruct (window_num _ W0) as (MM & EM). destruct (window_num _ W1) as (MN & EN).
  assert (WD : (1 <= IZR (max_x w) - IZR (min_x w))%R) by (rewrite <- minus_IZR; apply IZR_le; lia).
  assert (E1 : R32 f32_one = 1%R) by apply one_real.
  assert (EZ : R32 f32_zero = 0%R) by reflexivity.
  assert (S1 : f32_of_bits (vf v "scale_x") = f32_one) by (rewrite SX; reflexivity).
  assert (S2 : f32_of_bits (vf v "scale_y") = f32_one) by (rewrite SY; reflexivity).
  assert (UT : usual_transform v (bboxf_of w)).
  { split.
    - repeat apply Forall_cons; try apply Forall_nil; try (rewrite ZERO by (cbn; tauto); exact M0); try assumption; rewrite ?S1, ?S2; exact M1.
    - cbn [bboxf_of fmin_x fmax_x]. split; [exact MM|]. split; [exact MN|]. rewrite EM, EN, Rabs_pos_eq by lra.
      apply Rle_trans with 1%R; [|exact WD]. apply Rinv_le_1 || (rewrite <- Rinv_1; apply Rinv_le_contravar; [lra|apply pow_R1_Rle; lra]). }
  assert (FT : fair_turn nx v).
  { unfold fair_turn. rewrite RD, CO, SI. change (R32 (S754_zero false)) with 0%R. rewrite E1, Rabs_R0, Rabs_R1.
    split; [apply M1|]. split; [lra|]. split; [split; reflexivity|lra]. }
  pose proof (placed nx v (bboxf_of w) x y UT FT ltac:(rewrite IV; lia) MX MY) as PL. cbv zeta in PL.
  destruct (transform_apply nx v (bboxf_of w) false (x, y)) as [x' y']. destruct PL as (_ & _ & A & B).
  rewrite RD, CO, SI in A, B. change (R32 (S754_zero false)) with 0%R in A, B. rewrite E1 in A, B.
  assert (OF : forall n, In n ["translate_x"; "translate_y"] -> width_part v n (bboxf_of w) = (- off)%R).
  { intros n H. unfold width_part, setting, off. rewrite ZERO by (cbn in *; tauto). cbn [bboxf_of fmin_x fmax_x]. rewrite EM, EN, EZ, minus_IZR. field. lra. }
  unfold placed_x, reach_x, placed_y, reach_y in A, B. rewrite (OF "translate_x") in A by (cbn; tauto). rewrite (OF "translate_y") in B by (cbn; tauto).
  assert (X1 : setting v "scale_x" = 1%R) by (unfold setting; rewrite S1; exact E1).
  assert (X2 : setting v "scale_y" = 1%R) by (unfold setting; rewrite S2; exact E1).
  rewrite X1, X2 in A, B. rewrite !Rmult_1_l, !Rmult_0_l, Rabs_R0, Rabs_Ropp in A, B.
  split.
  - replace (R32 x' - (R32 x - off))%R with (R32 x' - (setting v "pivot_x" + (R32 x - setting v "pivot_x" - 0) + - off))%R by ring.
    eapply Rle_trans; [exact A|]. right. ring.
  - replace (R32 y' - (R32 y - off))%R with (R32 y' - (setting v "pivot_y" + (0 + (R32 y - setting v "pivot_y")) + - off))%R by ring.
    eapply Rle_trans; [exact B|]. right. ring.
Qed.

(** Where a transform takes a point: error bounds (uses the axioms of Coq's
    real numbers). *)
From Coq Require Import Reals Floats.SpecFloat Psatz.
From Flocq Require Import Core.Core IEEE754.BinarySingleNaN.
From Verif Require Import Machine FloatModel FloatReal GeomReal UndoReal StreamModel GradeModel DeformModel LineReal MixReal.
Local Open Scope R_scope.

(** ** Values that are exactly a number *)
Definition num (v : f32) (U : R) : Prop := valid32 v /\ fin32 v /\ R32 v = U.

Lemma finite_range v : valid32 v -> fin32 v -> in_range32 (R32 v).
Proof.
  intros V F. unfold in_range32. rewrite (RN_valid v V). destruct (to_bf v V) as (b & -> & E & Fb). rewrite E.
  apply abs_B2R_lt_emax.
Qed.
Lemma num_mul a b U V W : num a U -> num b V -> U * V = W -> (W = 0 \/ W = U \/ W = V) -> num (f32_mul a b) W.
Proof.
  intros (Va & Fa & Ea) (Vb & Fb & Eb) E H. rewrite <- Ea, <- Eb in *.
  assert (O : in_range32 W /\ RN W = W).
  { destruct H as [-> | [-> | ->]].
    - split; [|apply RN_0]. unfold in_range32. rewrite RN_0, Rabs_R0. apply bpow_gt_0.
    - split; [now apply finite_range|now apply RN_valid].
    - split; [now apply finite_range|now apply RN_valid]. }
  destruct O as (O & Q). rewrite <- E in O. destruct (mul_real a b Va Vb Fa Fb O) as (F & M).
  split; [now apply mul_valid|]. split; [exact F|]. now rewrite M, E.
Qed.
Lemma num_add a b U V W : num a U -> num b V -> U + V = W -> (W = U \/ W = V) -> num (f32_add a b) W.
Proof.
  intros (Va & Fa & Ea) (Vb & Fb & Eb) E H. rewrite <- Ea, <- Eb in *.
  assert (O : in_range32 W /\ RN W = W).
  { destruct H as [-> | ->].
    - split; [now apply finite_range|now apply RN_valid].
    - split; [now apply finite_range|now apply RN_valid]. }
  destruct O as (O & Q). rewrite <- E in O. destruct (add_real a b Va Vb Fa Fb O) as (F & M).
  split; [now apply add_valid|]. split; [exact F|]. now rewrite M, E.
Qed.
Lemma num_self v : valid32 v -> fin32 v -> num v (R32 v).
Proof. intros. now split. Qed.
Lemma num_zero s : num (S754_zero s) 0.
Proof. repeat split; destruct s; reflexivity. Qed.
Lemma num_f0 : num f32_zero 0.
Proof. apply num_zero. Qed.
Lemma num_one : num f32_one 1.
Proof. destruct one_real as (V & F & E). now split. Qed.
Lemma num_neg v U : num v U -> num (f32_neg v) (- U).
Proof. intros (V & F & E). destruct (neg_real v) as (N & NF & NV). split; [now apply NV|]. split; [now apply NF|]. now rewrite N, E. Qed.

Lemma mul0_l a b V : num a 0 -> num b V -> num (f32_mul a b) 0.
Proof. intros H K. eapply num_mul; [exact H|exact K|ring|now left]. Qed.
Lemma mul0_r a b U : num a U -> num b 0 -> num (f32_mul a b) 0.
Proof. intros H K. eapply num_mul; [exact H|exact K|ring|now left]. Qed.
Lemma mul1_l a b V : num a 1 -> num b V -> num (f32_mul a b) V.
Proof. intros H K. eapply num_mul; [exact H|exact K|ring|now right; right]. Qed.
Lemma mul1_r a b U : num a U -> num b 1 -> num (f32_mul a b) U.
Proof. intros H K. eapply num_mul; [exact H|exact K|ring|now right; left]. Qed.
Lemma add0_l a b V : num a 0 -> num b V -> num (f32_add a b) V.
Proof. intros H K. eapply num_add; [exact H|exact K|ring|now right]. Qed.
Lemma add0_r a b U : num a U -> num b 0 -> num (f32_add a b) U.
Proof. intros H K. eapply num_add; [exact H|exact K|ring|now left]. Qed.

Lemma stands_num v w U k M N B : stands v U k M N B -> num w (R32 v) -> stands w U k M N B.
Proof. intros (V & F & D & S & L) (Vw & Fw & Ew). repeat split; auto. now rewrite Ew. Qed.
Lemma num_stands v U B : num v U -> Rabs U <= B -> stands v U 0 (Rabs U) 0 B.
Proof. intros (V & F & E) H. rewrite <- E in *. now apply stands_exact. Qed.
Lemma stands_self v U k M N B : stands v U k M N B -> num v (R32 v).
Proof. intros (V & F & _). now split. Qed.

(** ** A translation as a part of the width *)
Lemma part_stands mn mx t : small mn -> small mx -> small t -> / K20 <= Rabs (R32 mx - R32 mn) ->
  let T := (R32 t - R32 mn) / (R32 mx - R32 mn) in
  stands (inverse_lerp mn mx t) T (3006 / 1000) (Rabs T) (10 * K20) (2 * K20 * K20).
Proof.
  intros Hn Hx Ht HD T. pose proof huge_big as HU. pose proof big98 as H98.
  pose proof (stands_diff t mn Ht Hn) as (Vm & Fm & Dm & Um & Bm).
  destruct Hx as (Vw & Fw & Bw), Hn as (Vb & Fb & Bb).
  destruct (divisor mx mn Vw Fw Vb Fb Bw Bb HD) as (Vd & Fd & Nd & Bd & Dd).
  unfold inverse_lerp. set (m := f32_sub t mn) in *. set (d := f32_sub mx mn) in *. set (U := R32 t - R32 mn) in *. set (D := R32 mx - R32 mn) in *.
  assert (DK : Rabs (/ D) <= K20).
  { rewrite Rabs_inv, <- (Rinv_inv K20). apply Rinv_le_contravar; [|exact HD]. apply Rinv_0_lt_compat. unfold K20. lra. }
  pose proof (close_mul (R32 m) (/ R32 d) U (/ D) (1001 / 1000) (1002 / 1000) (Rabs U) (Rabs (/ D)) 1 0 (2 * K20) K20
    Um Bm (Rle_refl _) DK ltac:(lra) ltac:(lra) ltac:(rewrite HU; lra) ltac:(rewrite HU; lra) ltac:(unfold K20; lra)
    ltac:(unfold K20; lra) Dm Dd) as C.
  assert (ES : U * / D = T) by reflexivity. rewrite ES in C.
  assert (MS : Rabs U * Rabs (/ D) = Rabs T) by (rewrite <- Rabs_mult; reflexivity). rewrite MS in C.
  assert (SB : Rabs T <= 2 * K20 * K20) by (rewrite <- MS; apply Rmult_le_compat; try apply Rabs_pos; assumption).
  assert (W : Rabs (R32 m / R32 d) <= bpow radix2 100).
  { unfold Rdiv. replace (R32 m * / R32 d) with (T + (R32 m * / R32 d - T)) by ring. eapply Rle_trans; [apply Rabs_triang|].
    assert (Rabs (R32 m * / R32 d - T) <= Rabs T + 1).
    { eapply Rle_trans; [exact C|]. apply Rplus_le_compat.
      - rewrite <- (Rmult_1_l (Rabs T)) at 2. apply Rmult_le_compat_r; [apply Rabs_pos|]. pose proof eps_small. lra.
      - destruct eta_small as (T0 & T1). rewrite HU in T1. unfold K20. lra. }
    apply Rle_trans with (bpow radix2 98); [|apply bpow_le; lia]. unfold K20 in SB. lra. }
  destruct (div_real m d Vm Vd Fm Nd (within _ 100 ltac:(lia) W)) as (F & E).
  split; [now apply div_valid|]. split; [exact F|]. rewrite E. split; [|split; [lra|exact SB]].
  pose proof (round_close _ _ _ _ _ C (Rle_refl _) ltac:(lra) ltac:(unfold K20; lra)) as R1.
  eapply Rle_trans; [exact R1|]. apply Rplus_le_compat; [|apply Rmult_le_compat_r; [left; apply eta_pos|unfold K20; lra]].
  apply Rmult_le_compat_r; [apply Rabs_pos|]. apply Rmult_le_compat_r; [left; apply eps_small|lra].
Qed.

(** ** One row of the matrix and the way back from the pivot *)
Section Row.
Variables a b z t X Y o w p : f32.
Variables A B T XX YY MA MB MT MX MY k : R.
Hypothesis Hk : 1 <= k <= 11 / 10.
Hypothesis SA : stands a A k MA 1 K20.
Hypothesis SB : stands b B k MB 1 K20.
Hypothesis ST : stands t T (3006 / 1000) MT (10 * K20) (2 * K20 * K20).
Hypothesis SX : stands X XX (1001 / 1000) MX 1 (2 * K20).
Hypothesis SY : stands Y YY (1001 / 1000) MY 1 (2 * K20).
Variable ZZ : R.
Hypothesis NZ : num z ZZ.
Hypothesis NO : num o 0.
Hypothesis NW : num w 1.
Hypothesis SP : small p.

Lemma row_stands :
  stands (f32_add (f32_add (f32_add (f32_add (f32_mul a X) (f32_mul b Y)) (f32_mul z o)) (f32_mul t w)) p)
    (A * XX + B * YY + T + R32 p) (k + 5007 / 1000) (MA * MX + MB * MY + MT + Rabs (R32 p)) (10 ^ 9) (10 * K20 * K20).
Proof.
  pose proof huge_big as HU. pose proof big90 as H90. pose proof big98 as H98. assert (HK : K20 = 1048576) by reflexivity.
  assert (H1 : 0 <= 1 <= huge) by (rewrite HU; lra).
  pose proof (stands_mul a X _ _ _ _ _ _ _ _ _ _ SA SX ltac:(lra) ltac:(lra) H1 H1 ltac:(lra) ltac:(lra) ltac:(lra) ltac:(rewrite HK; lra) ltac:(lra) ltac:(lra)) as P1.
  pose proof (stands_mul b Y _ _ _ _ _ _ _ _ _ _ SB SY ltac:(lra) ltac:(lra) H1 H1 ltac:(lra) ltac:(lra) ltac:(lra) ltac:(rewrite HK; lra) ltac:(lra) ltac:(lra)) as P2.
  set (N := 4 * (1 * (2 * K20) + 1 * K20) + 1) in *. assert (HN : 0 <= N <= 20000000) by (unfold N; rewrite HK; lra).
  assert (HB : K20 * (2 * K20) = 2199023255552) by (rewrite HK; ring).
  pose proof (stands_add _ _ _ _ _ _ _ _ _ _ _ _ P1 P2 ltac:(lra) ltac:(lra) ltac:(rewrite HU; lra) ltac:(rewrite HU; lra) _ (Rle_refl _) (Rle_refl _) ltac:(lra) ltac:(lra)) as P3.
  set (s1 := f32_add (f32_mul a X) (f32_mul b Y)) in *. clearbody s1.
  pose proof (stands_num _ (f32_add s1 (f32_mul z o)) _ _ _ _ _ P3 (add0_r _ _ _ (stands_self _ _ _ _ _ _ P3) (mul0_r _ _ _ NZ NO))) as P4.
  set (s2 := f32_add s1 (f32_mul z o)) in *. clearbody s2.
  pose proof (stands_num _ (f32_mul t w) _ _ _ _ _ ST (mul1_r _ _ _ (stands_self _ _ _ _ _ _ ST) NW)) as T1.
  set (tw := f32_mul t w) in *. clearbody tw.
  assert (HB2 : 2 * K20 * K20 = 2199023255552) by (rewrite HK; ring).
  pose proof (stands_add _ _ _ _ _ _ _ _ _ _ _ _ P4 T1 ltac:(lra) ltac:(lra) ltac:(rewrite HU; lra) ltac:(rewrite HU, HK; lra)
    (k + 1001 / 1000 + 1002 / 1000 + 1001 / 1000) ltac:(lra) ltac:(lra) ltac:(lra) ltac:(lra)) as P5.
  pose proof (stands_add _ _ _ _ _ _ _ _ _ _ _ _ P5 (exact_stands p SP) ltac:(lra) ltac:(lra) ltac:(rewrite HU, HK; lra) ltac:(rewrite HU; lra)
    (k + 1001 / 1000 + 1002 / 1000 + 1001 / 1000 + 1001 / 1000) ltac:(lra) ltac:(lra) ltac:(lra) ltac:(rewrite HK in *; lra)) as P6.
  eapply stands_weaken; [exact P6|lra| |].
  - rewrite HK in *. lra.
  - rewrite HK in *. lra.
Qed.
End Row.

(** ** The matrix *)
Section Matrix.
Variables c s k0 k1 tx ty sx sy : f32.
Variables C S K0 K1 TX TY SX SY : R.
Hypothesis Nc : num c C.
Hypothesis Ns : num s S.
Hypothesis Nk0 : num k0 K0.
Hypothesis Nk1 : num k1 K1.
Hypothesis Ntx : num tx TX.
Hypothesis Nty : num ty TY.
Hypothesis Nsx : num sx SX.
Hypothesis Nsy : num sy SY.
Let z := f32_zero.
Let o := f32_one.
Let rot : mat4 := [c; f32_neg s; k0; z; s; c; k1; z; z; z; o; z; z; z; z; o].
Let m := mat_mul (mat_mul (translate_2d tx ty) rot) (scale_2d sx sy).

Ltac row := unfold mat_row, mat; cbn [nth Nat.mul Nat.add].
Ltac zeros :=
  repeat first
    [ eassumption | apply num_f0 | apply num_one
    | eapply mul0_r; [|apply num_f0] | eapply mul0_l; [apply num_f0|] ].

Lemma turn_rows : exists a00 a01 a02 a03 a10 a11 a12 a13 r,
  mat_mul (translate_2d tx ty) rot = a00 :: a01 :: a02 :: a03 :: a10 :: a11 :: a12 :: a13 :: r /\
  num a00 C /\ num a01 (- S) /\ num a02 K0 /\ num a03 TX /\ num a10 S /\ num a11 C /\ num a12 K1 /\ num a13 TY /\
  exists a20 a21 a22 a23 a30 a31 a32 a33, r = [a20; a21; a22; a23; a30; a31; a32; a33] /\
  num a20 0 /\ num a21 0 /\ num a22 1 /\ num a23 0 /\ num a30 0 /\ num a31 0 /\ num a32 0 /\ num a33 1.
Proof.
  pose proof (num_neg s S Ns) as Nn. pose proof num_f0 as NZ. pose proof num_one as NO.
  unfold mat_mul, translate_2d, rot. cbn [flat_map map app].
  do 9 eexists. split; [reflexivity|]. row. fold z o in NZ, NO |- *.
  assert (first : forall a b d e A, num (f32_mul o a) A -> num (f32_mul z b) 0 -> num (f32_mul z d) 0 -> num e 0 ->
    num (f32_add (f32_add (f32_add (f32_mul o a) (f32_mul z b)) (f32_mul z d)) e) A)
    by (intros; apply add0_r; [apply add0_r; [apply add0_r|]|]; assumption).
  assert (second : forall a b d e A, num (f32_mul z a) 0 -> num (f32_mul o b) A -> num (f32_mul z d) 0 -> num e 0 ->
    num (f32_add (f32_add (f32_add (f32_mul z a) (f32_mul o b)) (f32_mul z d)) e) A)
    by (intros; apply add0_r; [apply add0_r; [apply add0_l|]|]; assumption).
  assert (third : forall a b d e A, num a 0 -> num b 0 -> num d A -> num e 0 ->
    num (f32_add (f32_add (f32_add a b) d) e) A)
    by (intros; apply add0_r; [apply add0_l; [apply add0_r|]|]; assumption).
  assert (fourth : forall a b d e A, num a 0 -> num b 0 -> num d 0 -> num e A ->
    num (f32_add (f32_add (f32_add a b) d) e) A)
    by (intros; apply add0_l; [apply add0_r; [apply add0_r|]|]; assumption).
  assert (ml : forall a A, num a A -> num (f32_mul o a) A) by (intros; now apply mul1_l).
  assert (mr : forall a A, num a A -> num (f32_mul a o) A) by (intros; now apply mul1_r).
  assert (zl : forall a A, num a A -> num (f32_mul z a) 0) by (intros; now apply mul0_l with A).
  assert (zr : forall a A, num a A -> num (f32_mul a z) 0) by (intros; now apply mul0_r with A).
  split; [apply first; eauto|]. split; [apply first; eauto|]. split; [apply first; eauto|]. split; [apply fourth; eauto|].
  split; [apply second; eauto|]. split; [apply second; eauto|]. split; [apply second; eauto|]. split; [apply fourth; eauto|].
  do 8 eexists. split; [reflexivity|].
  split; [apply fourth; eauto|]. split; [apply fourth; eauto|]. split; [apply third; eauto|]. split; [apply fourth; eauto|].
  split; [apply fourth; eauto|]. split; [apply fourth; eauto|]. split; [apply fourth; eauto|]. apply fourth; eauto.
Qed.

Hypothesis Bc : Rabs C <= 1.
Hypothesis Bs : Rabs S <= 1.
Hypothesis Bx : Rabs SX <= K20.
Hypothesis By : Rabs SY <= K20.

Lemma scaled a b A B : num a A -> num b B -> Rabs A <= 1 -> Rabs B <= K20 ->
  stands (f32_mul a b) (A * B) (1002 / 1000) (Rabs (A * B)) 1 K20.
Proof.
  intros Na Nb HA HB. pose proof huge_big as HU. pose proof big90 as H90.
  pose proof (stands_mul _ _ _ _ _ _ _ _ _ _ _ _ (num_stands _ _ _ Na HA) (num_stands _ _ _ Nb HB) ltac:(lra) ltac:(lra)
    ltac:(rewrite HU; lra) ltac:(rewrite HU; lra) ltac:(lra) ltac:(lra) ltac:(unfold K20; lra) ltac:(unfold K20; lra) ltac:(lra) ltac:(unfold K20; lra)) as P.
  rewrite <- Rabs_mult in P. eapply stands_weaken; [exact P|lra|lra|lra].
Qed.

Lemma whole_rows :
  stands (mat m 0 0) (C * SX) (1002 / 1000) (Rabs (C * SX)) 1 K20 /\
  stands (mat m 0 1) (- S * SY) (1002 / 1000) (Rabs (- S * SY)) 1 K20 /\
  num (mat m 0 2) K0 /\ num (mat m 0 3) TX /\
  stands (mat m 1 0) (S * SX) (1002 / 1000) (Rabs (S * SX)) 1 K20 /\
  stands (mat m 1 1) (C * SY) (1002 / 1000) (Rabs (C * SY)) 1 K20 /\
  num (mat m 1 2) K1 /\ num (mat m 1 3) TY.
Proof.
  unfold m. destruct turn_rows as (a00 & a01 & a02 & a03 & a10 & a11 & a12 & a13 & r & -> & N00 & N01 & N02 & N03 & N10 & N11 & N12 & N13 & _).
  unfold mat_mul, scale_2d. cbn [flat_map map app]. row. fold z o.
  pose proof num_f0 as NZ. pose proof num_one as NO. fold z in NZ. fold o in NO. clearbody z o.
  assert (mr : forall a A, num a A -> num (f32_mul a o) A) by (intros; now apply mul1_r).
  assert (zr : forall a A, num a A -> num (f32_mul a z) 0) by (intros; now apply mul0_r with A).
  assert (BS : Rabs (- S) <= 1) by (rewrite Rabs_Ropp; exact Bs).
  assert (head : forall a b d e A B k M N L, stands (f32_mul a b) (A * B) k M N L -> num d 0 -> num e 0 -> forall g, num g 0 ->
     stands (f32_add (f32_add (f32_add (f32_mul a b) d) e) g) (A * B) k M N L).
  { intros a b d e A B k M N L H Hd He g Hg. eapply stands_num; [exact H|]. apply add0_r; [apply add0_r; [apply add0_r|]|]; try assumption.
    eapply stands_self; exact H. }
  assert (next : forall a b d e A B k M N L, stands (f32_mul a b) (A * B) k M N L -> num d 0 -> num e 0 -> forall g, num g 0 ->
     stands (f32_add (f32_add (f32_add d (f32_mul a b)) e) g) (A * B) k M N L).
  { intros a b d e A B k M N L H Hd He g Hg. eapply stands_num; [exact H|]. apply add0_r; [apply add0_r; [apply add0_l|]|]; try assumption.
    eapply stands_self; exact H. }
  assert (third : forall a b d e A, num a 0 -> num b 0 -> num d A -> num e 0 ->
    num (f32_add (f32_add (f32_add a b) d) e) A)
    by (intros; apply add0_r; [apply add0_l; [apply add0_r|]|]; assumption).
  assert (fourth : forall a b d e A, num a 0 -> num b 0 -> num d 0 -> num e A ->
    num (f32_add (f32_add (f32_add a b) d) e) A)
    by (intros; apply add0_l; [apply add0_r; [apply add0_r|]|]; assumption).
  split; [apply head; [now apply scaled|eauto..]|]. split; [apply next; [now apply scaled|eauto..]|].
  split; [apply third; eauto|]. split; [apply fourth; eauto|].
  split; [apply head; [now apply scaled|eauto..]|]. split; [apply next; [now apply scaled|eauto..]|].
  split; [apply third; eauto|]. apply fourth; eauto.
Qed.
End Matrix.

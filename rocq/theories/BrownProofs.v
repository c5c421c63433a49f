From Coq Require String.
Import String.StringSyntax.
From Coq Require Import Reals Floats.SpecFloat Psatz.
From Flocq Require Import Core.Core IEEE754.BinarySingleNaN.
From Verif Require Import Machine FloatModel FloatReal GeomReal UndoReal BBoxModel PixelModel AttrModel StreamModel GradeModel DeformModel MergeSpec BakeSpec LineReal LineProofs MixReal CoverSpec CoverProofs TripSpec TripProofs BrownSpec UndoPower MoveReal.
Local Open Scope string_scope.
Local Open Scope R_scope.

(** ** Sizes *)
Definition sized (v : f32) (e : Z) : Prop := valid32 v /\ fin32 v /\ Rabs (R32 v) <= bpow radix2 e.
Lemma RN_bpow x e : (-149 <= e)%Z -> Rabs x <= bpow radix2 e -> Rabs (RN x) <= bpow radix2 e.
Proof.
  intros H L. unfold RN. apply abs_round_le_generic; [apply FLT_exp_valid; reflexivity|apply _| |exact L].
  change (SpecFloat.fexp prec32 emax32) with (FLT_exp (-149) 24). apply generic_format_FLT_bpow; [reflexivity|exact H].
Qed.
Lemma sized_mul a b i j : sized a i -> sized b j -> (-149 <= i + j < 128)%Z -> sized (f32_mul a b) (i + j).
Proof.
  intros (V & F & B) (V' & F' & B') H.
  assert (M : Rabs (R32 a * R32 b) <= bpow radix2 (i + j)) by (rewrite Rabs_mult, bpow_plus; apply Rmult_le_compat; try apply Rabs_pos; assumption).
  destruct (mul_real a b V V' F F' (in_range_bpow _ (i + j) ltac:(lia) ltac:(lia) M)) as (FF & E).
  split; [now apply mul_valid|]. split; [exact FF|]. rewrite E. apply RN_bpow; [lia|exact M].
Qed.
Lemma sized_add a b i : sized a i -> sized b i -> (-149 <= i < 127)%Z -> sized (f32_add a b) (i + 1).
Proof.
  intros (V & F & B) (V' & F' & B') H.
  assert (M : Rabs (R32 a + R32 b) <= bpow radix2 (i + 1)).
  { rewrite bpow_plus. change (bpow radix2 1) with 2. eapply Rle_trans; [apply Rabs_triang|]. lra. }
  destruct (add_real a b V V' F F' (in_range_bpow _ (i + 1) ltac:(lia) ltac:(lia) M)) as (FF & E).
  split; [now apply add_valid|]. split; [exact FF|]. rewrite E. apply RN_bpow; [lia|exact M].
Qed.
Lemma sized_sub a b i : sized a i -> sized b i -> (-149 <= i < 127)%Z -> sized (f32_sub a b) (i + 1).
Proof.
  intros (V & F & B) (V' & F' & B') H.
  assert (M : Rabs (R32 a - R32 b) <= bpow radix2 (i + 1)).
  { rewrite bpow_plus. change (bpow radix2 1) with 2. unfold Rminus. eapply Rle_trans; [apply Rabs_triang|]. rewrite Rabs_Ropp. lra. }
  destruct (sub_real a b V V' F F' (in_range_bpow _ (i + 1) ltac:(lia) ltac:(lia) M)) as (FF & E).
  split; [now apply sub_valid|]. split; [exact FF|]. rewrite E. apply RN_bpow; [lia|exact M].
Qed.
Lemma sized_root v i : sized v (2 * i) -> 0 <= R32 v -> (0 <= i < 60)%Z -> sized (f32_sqrt v) i.
Proof.
  intros (V & F & B) P H. destruct (Req_dec (R32 v) 0) as [Z|Z].
  - assert (exists s, v = S754_zero s) as (s & ->).
    { destruct v as [s| | |s m e]; try discriminate F; [now exists s|]. exfalso. unfold R32 in Z. cbn [SF2R] in Z. apply eq_0_F2R in Z. destruct s; discriminate Z. }
    change (f32_sqrt (S754_zero s)) with (S754_zero s). split; [exact V|]. split; [exact F|]. rewrite Z, Rabs_R0. apply bpow_ge_0.
  - assert (PV : plain_value v) by (split; [exact V|now apply fin_iff]). change (f32_sqrt v) with (root v).
    destruct (root_real v PV ltac:(lra)) as (V' & F' & E). split; [exact V'|]. split; [exact F'|]. rewrite E. apply RN_bpow; [lia|].
    rewrite Rabs_pos_eq by apply sqrt_pos. rewrite Rabs_pos_eq in B by exact P.
    replace (bpow radix2 i) with (sqrt (bpow radix2 (2 * i))); [now apply sqrt_le_1_alt|].
    replace (2 * i)%Z with (i + i)%Z by lia. rewrite bpow_plus. apply sqrt_square, bpow_ge_0.
Qed.
Lemma square_pos a : valid32 a -> fin32 a -> in_range32 (R32 a * R32 a) -> 0 <= R32 (f32_mul a a).
Proof.
  intros V F O. destruct (mul_real a a V V F F O) as (_ & E). rewrite E, <- RN_0. apply RN_mono. apply Rle_0_sqr.
Qed.

(** ** No coefficients, no movement *)
Theorem nothing_moved nx v display inverse side q : 1 <= side <= 65536 -> near_display side display -> around display q ->
  plain_value (field v "xc") -> plain_value (field v "yc") -> Rabs (R32 (field v "xc")) <= 1024 * 1024 -> Rabs (R32 (field v "yc")) <= 1024 * 1024 ->
  R32 (field v "k1") = 0 -> plain_value (field v "k1") -> R32 (field v "k2") = 0 -> plain_value (field v "k2") ->
  exists q', deform_point nx (DBrownian v) (bboxf_of display) inverse q = Ok q' /\ close_by (side / 131072) q' q.
Proof.
  intros S (LX & LY & BX1 & BX2 & BY1 & BY2) (PX & PY & AX & AY) PXC PYC BXC BYC K1 PK1 K2 PK2. destruct q as [x y]. cbn [fst snd] in *.
  cbn [deform_point]. eexists. split; [reflexivity|]. unfold brownian_apply. cbn [bboxf_of fmin_x fmin_y fmax_x fmax_y].
  fold (field v "xc") (field v "yc") (field v "k1") (field v "k2").
  set (xc := field v "xc") in *. set (yc := field v "yc") in *. set (k1 := field v "k1") in *. set (k2 := field v "k2") in *. clearbody xc yc k1 k2.
  destruct (TripProofs.there _ _ _ LX S BX1 BX2 x PX AX) as (PU & BU & EU). destruct (TripProofs.there _ _ _ LY S BY1 BY2 y PY AY) as (PV & BV & EV).
  set (ux := remap (f32_of_Z (min_x display)) (f32_of_Z (max_x display)) f32_zero f32_one x) in *.
  set (uy := remap (f32_of_Z (min_y display)) (f32_of_Z (max_y display)) f32_zero f32_one y) in *.
  assert (D : forall lo hi t, (lo < hi)%Z -> Rabs (IZR lo) <= side -> Rabs (IZR hi) <= side -> plain_value t -> Rabs (R32 t - IZR lo) <= 6 * IZR (hi - lo) -> sized t 21).
  { intros lo hi t L B1 B2 (V & F) A. split; [exact V|]. split; [now apply fin_iff|]. pose proof (axis_width lo hi side L B1 B2) as (W1 & W2).
    change (bpow radix2 21) with 2097152. apply Rabs_le_inv in A, B1. apply Rabs_le. lra. }
  pose proof (D _ _ x LX BX1 BX2 PX AX) as SX. pose proof (D _ _ y LY BY1 BY2 PY AY) as SY.
  assert (SC : forall t, plain_value t -> Rabs (R32 t) <= 1024 * 1024 -> sized t 21).
  { intros t (V & F) B. split; [exact V|]. split; [now apply fin_iff|]. change (bpow radix2 21) with 2097152. lra. }
  pose proof (sized_sub x xc 21 SX (SC _ PXC BXC) ltac:(lia)) as DX. pose proof (sized_sub y yc 21 SY (SC _ PYC BYC) ltac:(lia)) as DY.
  set (dx := f32_sub x xc) in *. set (dy := f32_sub y yc) in *. change (21 + 1)%Z with 22%Z in *.
  pose proof (sized_mul dx dx 22 22 DX DX ltac:(lia)) as QX. pose proof (sized_mul dy dy 22 22 DY DY ltac:(lia)) as QY. change (22 + 22)%Z with 44%Z in *.
  assert (PP : forall t, sized t 22 -> 0 <= R32 (f32_mul t t)).
  { intros t (V & F & B). apply square_pos; try assumption. apply (in_range_bpow _ 44); [lia|lia|]. change 44%Z with (22 + 22)%Z. rewrite Rabs_mult, bpow_plus. apply Rmult_le_compat; try apply Rabs_pos; assumption. }
  pose proof (PP dx DX) as PPX. pose proof (PP dy DY) as PPY.
  pose proof (sized_add _ _ 44 QX QY ltac:(lia)) as SS. change (44 + 1)%Z with 45%Z in SS.
  assert (PS : 0 <= R32 (f32_add (f32_mul dx dx) (f32_mul dy dy))).
  { destruct QX as (V & F & B), QY as (V' & F' & B'). destruct (add_real _ _ V V' F F') as (_ & E).
    - apply (in_range_bpow _ 45); [lia|lia|]. change 45%Z with (44 + 1)%Z. rewrite bpow_plus. change (bpow radix2 1) with 2. eapply Rle_trans; [apply Rabs_triang|]. lra.
    - rewrite E, <- RN_0. apply RN_mono. lra. }
  unfold f32_powi4, f32_powi2 in *. set (s := f32_add (f32_mul dx dx) (f32_mul dy dy)) in *.
  assert (SS' : sized s (2 * 23)).
  { destruct SS as (V & F & B). split; [exact V|]. split; [exact F|]. eapply Rle_trans; [exact B|]. apply bpow_le. lia. }
  pose proof (sized_root s 23 SS' PS ltac:(lia)) as SR. set (r := f32_sqrt s) in *.
  pose proof (sized_mul r r 23 23 SR SR ltac:(lia)) as R2. change (23 + 23)%Z with 46%Z in R2.
  pose proof (sized_mul _ _ 46 46 R2 R2 ltac:(lia)) as R4. change (46 + 46)%Z with 92%Z in R4.
  assert (S2 : sized (f32_of_Z 2) 1).
  { destruct two_real as (V & F & E). split; [exact V|]. split; [exact F|]. rewrite E. change (bpow radix2 1) with 2. rewrite Rabs_pos_eq; lra. }
  pose proof (sized_mul _ _ 92 1 R4 S2 ltac:(lia)) as R8.
  set (r2 := f32_mul r r) in *. set (r4 := f32_mul (f32_mul r2 r2) (f32_of_Z 2)) in *. clearbody r2 r4. clear - S LX LY BX1 BX2 BY1 BY2 PU BU EU PV BV EV K1 PK1 K2 PK2 R2 R8 PXC PYC BXC BYC.
  assert (NN : forall t, plain_value t -> num t (R32 t)) by (intros t (V & F); split; [exact V|split; [now apply fin_iff|reflexivity]]).
  assert (NK1 : num k1 0) by (rewrite <- K1; exact (NN _ PK1)). assert (NK2 : num k2 0) by (rewrite <- K2; exact (NN _ PK2)).
  assert (N2 : num r2 (R32 r2)) by (destruct R2 as (V & F & _); now split). assert (N4 : num r4 (R32 r4)) by (destruct R8 as (V & F & _); now split).
  assert (NK : num (f32_add (f32_mul k1 r2) (f32_mul k2 r4)) 0) by (apply add0_l; eapply mul0_l; eassumption).
  set (k := f32_add (f32_mul k1 r2) (f32_mul k2 r4)) in *. clearbody k.
  assert (ST : forall u c, plain_value u -> Rabs (R32 u) <= 7 -> plain_value c -> Rabs (R32 c) <= 1024 * 1024 ->
     let t := f32_mul (f32_sub u c) k in num (if inverse then f32_sub u t else f32_add u t) (R32 u)).
  { intros u c PU' BU' PC BC t.
    assert (SU : sized u 21) by (destruct PU' as (V & F); split; [exact V|split; [now apply fin_iff|change (bpow radix2 21) with 2097152; lra]]).
    assert (SC : sized c 21) by (destruct PC as (V & F); split; [exact V|split; [now apply fin_iff|change (bpow radix2 21) with 2097152; lra]]).
    destruct (sized_sub u c 21 SU SC ltac:(lia)) as (V & F & _).
    assert (NT : num t 0) by (apply (mul0_r _ _ (R32 (f32_sub u c))); [now split|exact NK]).
    pose proof (NN u PU') as NU. destruct inverse.
    - destruct NU as (Vu & Fu & _), NT as (Vt & Ft & Et). destruct (sub_real u t Vu Vt Fu Ft) as (FF & E).
      + rewrite Et, Rminus_0_r. now apply finite_range.
      + rewrite Et, Rminus_0_r, (RN_valid u Vu) in E. split; [now apply sub_valid|]. now split.
    - apply (num_add _ _ (R32 u) 0); [exact NU|exact NT|ring|now left]. }
  destruct (ST ux xc PU BU PXC BXC) as (V1 & F1 & E1). destruct (ST uy yc PV BV PYC BYC) as (V2 & F2 & E2).
  split; cbn [fst snd].
  - replace (side / 131072) with (0 + 2 * (side / 262144)) by field.
    apply (TripProofs.home _ _ _ LX S BX1 BX2 x ux); [exact EU|split; [exact V1|now apply fin_iff]|rewrite E1; lra|rewrite E1, Rminus_diag_eq by reflexivity; rewrite Rabs_R0; lra].
  - replace (side / 131072) with (0 + 2 * (side / 262144)) by field.
    apply (TripProofs.home _ _ _ LY S BY1 BY2 y uy); [exact EV|split; [exact V2|now apply fin_iff]|rewrite E2; lra|rewrite E2, Rminus_diag_eq by reflexivity; rewrite Rabs_R0; lra].
Qed.

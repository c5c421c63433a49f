(** Proofs: merging in exact numbers (uses the axioms of Coq's real numbers). *)
From Coq Require Import Reals Floats.SpecFloat Lia Psatz.
From Flocq Require Import Core.Core.
From Verif Require Import Machine FloatModel FloatReal GeomReal UndoReal LineReal LineProofs BBoxModel BBoxSpec PixelModel PixelSpec MergeModel MergeSpec MergeProofs LawSpec LawProofs MixSpec MixReal.

Lemma shade_stands im x y c : modest_picture im -> 0 <= c -> stands (channel_at im x y c) (shade im x y c) 0 (Rabs (shade im x y c)) 0 K20.
Proof.
  intros M C. destruct (M x y c C) as (V & F & B). apply stands_exact; [exact V|now apply fin_iff|]. rewrite <- K20_pow. exact B.
Qed.
Lemma zero_stands k N L : (0 <= N -> 0 <= L -> stands (S754_zero false) 0 k 0 N L)%R.
Proof.
  intros HN HL. split; [reflexivity|]. split; [reflexivity|]. change (R32 (S754_zero false)) with 0%R. rewrite Rminus_0_r, Rabs_R0, Rmult_0_r.
  pose proof eta_pos. split; [|split; [apply Rle_refl|exact HL]]. rewrite Rplus_0_l. apply Rmult_le_pos; lra.
Qed.

(** Sizes of standing values, everywhere. *)
Section Level.
Variables mode : merge_mode.
Variables mix : f32.
Variables a b r : image.
Hypothesis KM : known_mode mode.
Hypothesis MR : merged mode mix a b r.
Hypothesis SM : stands mix (R32 mix) 0 (Rabs (R32 mix)) 0 1.
Variables x y c : Z.
Hypothesis HC : 0 <= c < bs_nc (pb_size (im_block r)).
Variables A B C kA kB kC MA MB MC N L k : R.
Hypothesis SA : stands (channel_at a x y c) A kA MA N L.
Hypothesis SB : stands (channel_at b x y c) B kB MB N L.
Hypothesis SC : stands (channel_at a x y 3) C kC MC N L.
Hypothesis ZA : ~ in_box (im_data a) x y -> (A = 0 /\ MA = 0)%R.
Hypothesis ZB : ~ in_box (im_data b) x y -> (B = 0 /\ MB = 0)%R.
Hypothesis KA : (0 <= kA)%R. Hypothesis KB : (0 <= kB)%R. Hypothesis KC : (0 <= kC)%R.
Hypothesis KAB : (kA + kB <= k)%R. Hypothesis KBC : (kB + kC <= k)%R. Hypothesis K5 : (k <= 5)%R.
Hypothesis HN : (0 <= N <= 10 ^ 10)%R.
Hypothesis HL : (1 <= L <= 10 ^ 13)%R.
Lemma level_stands :
  stands (channel_at r x y c) (exact_merge mode (R32 mix) C A B) (k + 401 / 100) (size_of mode (Rabs (R32 mix)) MC MA MB) (100 * ((N + 1) * L)) (4 * (L * L)) /\
  (~ in_box (im_data r) x y -> (exact_merge mode (R32 mix) C A B = 0 /\ size_of mode (Rabs (R32 mix)) MC MA MB = 0)%R).
Proof.
  assert (Z0 : ~ in_box (im_data r) x y -> (exact_merge mode (R32 mix) C A B = 0 /\ size_of mode (Rabs (R32 mix)) MC MA MB = 0)%R).
  { intros O. destruct MR as (((I1 & I2 & I3 & I4) & (J1 & J2 & J3 & J4) & _) & _).
    destruct ZA as (-> & ->); [intros I; apply O; unfold in_box in *; lia|]. destruct ZB as (-> & ->); [intros I; apply O; unfold in_box in *; lia|].
    destruct KM as [->|[->| ->]]; cbn [exact_merge size_of]; split; ring. }
  split; [|exact Z0]. destruct (in_box_dec (im_data r) x y) as [I|O].
  - rewrite (merged_channel _ _ _ _ _ _ _ _ MR I HC). eapply composite_stands; eassumption.
  - destruct (Z0 O) as (-> & ->). rewrite channel_outside by exact O.
    assert (0 <= (N + 1) * L)%R by (apply Rmult_le_pos; lra). assert (0 <= L * L)%R by (apply Rmult_le_pos; lra).
    apply zero_stands; lra.
Qed.
End Level.

Lemma outside_shade im x y c : ~ in_box (im_data im) x y -> (shade im x y c = 0 /\ Rabs (shade im x y c) = 0)%R.
Proof. intros O. unfold shade. rewrite channel_outside by exact O. change (R32 (S754_zero false)) with 0%R. rewrite Rabs_R0. split; reflexivity. Qed.

Lemma tiny2 : (100 * ((100 * ((0 + 1) * K20) + 1) * (4 * (K20 * K20))) * eta32 <= / 2 ^ 71)%R.
Proof.
  apply Rle_trans with (10 ^ 23 / 2 * eta32)%R; [apply Rmult_le_compat_r; [left; apply eta_pos|unfold K20; lra]|].
  pose proof tiny_bound as T. replace (/ 2 ^ 71)%R with (/ 2 ^ 70 / 2)%R by (field). lra.
Qed.
Lemma K_one : (1 <= K20 <= 10 ^ 13)%R. Proof. unfold K20. lra. Qed.

Lemma formula_near p mode a b mix o : known_mode mode -> float_image a -> float_image b -> well_formed (im_data a) -> well_formed (im_data b) ->
  merge_fits (im_data a) (im_data b) -> modest_picture a -> modest_picture b ->
  f32_ok mix -> f32_finite mix -> (0 <= R32 mix <= 1)%R ->
  exists r, merge p mode a b mix o = Ok (Some r) /\ least_window (im_data a) (im_data b) (im_data r) /\
  bs_nc (pb_size (im_block r)) = bs_nc (pb_size (im_block b)) /\
  forall x y c, 0 <= c < bs_nc (pb_size (im_block r)) -> f32_finite (channel_at r x y c) /\
    (Rabs (shade r x y c - exact_merge mode (R32 mix) (shade a x y 3) (shade a x y c) (shade b x y c))
     <= 5 * / 2 ^ 24 * merge_size mode (R32 mix) (shade a x y 3) (shade a x y c) (shade b x y c) + / 2 ^ 70)%R.
Proof.
  intros KM FA FB WA WB F MA MB VM NM HM. destruct (merge_exact p mode a b mix o KM FA FB WA WB F) as (r & E & R).
  exists r. split; [exact E|]. split; [apply R|]. split; [apply R|]. intros x y c C.
  assert (SM : stands mix (R32 mix) 0 (Rabs (R32 mix)) 0 1).
  { apply stands_exact; [exact VM|now apply fin_iff|]. rewrite Rabs_pos_eq; lra. }
  pose proof K_one as HK.
  destruct (level_stands mode mix a b r KM R SM x y c C _ _ _ 0 0 0 _ _ _ 0 K20 0 (shade_stands a x y c MA ltac:(lia)) (shade_stands b x y c MB ltac:(lia))
    (shade_stands a x y 3 MA ltac:(lia)) (outside_shade a x y c) (outside_shade b x y c) ltac:(lra) ltac:(lra) ltac:(lra) ltac:(lra) ltac:(lra) ltac:(lra) ltac:(lra) HK) as ((_ & S2 & S3 & S4 & _) & _).
  split; [now apply fin_iff|]. fold (shade r x y c) in S3. rewrite <- eps_pow.
  assert (ES : size_of mode (Rabs (R32 mix)) (Rabs (shade a x y 3)) (Rabs (shade a x y c)) (Rabs (shade b x y c)) = merge_size mode (R32 mix) (shade a x y 3) (shade a x y c) (shade b x y c)).
  { destruct KM as [->|[->| ->]]; reflexivity. }
  rewrite ES in *. eapply Rle_trans; [exact S3|]. apply Rplus_le_compat.
  - apply Rmult_le_compat_r; [eapply Rle_trans; [apply Rabs_pos|exact S4]|]. apply Rmult_le_compat_r; [left; apply eps_small|lra].
  - eapply Rle_trans; [|exact tiny_bound]. apply Rmult_le_compat_r; [left; apply eta_pos|]. unfold K20. lra.
Qed.

Lemma least_grouped a b c u v r s : least_window a b u -> least_window b c v -> least_window u c r -> least_window a v s -> r = s.
Proof.
  intros ((A1 & A2 & A3 & A4) & (B1 & B2 & B3 & B4) & L1) ((C1 & C2 & C3 & C4) & (D1 & D2 & D3 & D4) & L2)
         ((E1 & E2 & E3 & E4) & (F1 & F2 & F3 & F4) & L3) ((G1 & G2 & G3 & G4) & (H1 & H2 & H3 & H4) & L4).
  assert (R1 : window_in u s) by (apply L1; unfold window_in; lia).
  assert (R2 : window_in v r) by (apply L2; unfold window_in; lia).
  assert (R3 : window_in r s) by (apply L3; [exact R1|unfold window_in; lia]).
  assert (R4 : window_in s r) by (apply L4; [unfold window_in in *; lia|exact R2]).
  unfold window_in in *. destruct r, s. cbn in *. f_equal; lia.
Qed.
Lemma least_well a b u : well_formed a -> window_in a u -> window_in b u -> well_formed u.
Proof. unfold well_formed, window_in. lia. Qed.

Lemma grouping p mode a b c o1 o2 o3 o4 : known_mode mode ->
  float_image a -> float_image b -> float_image c ->
  bs_nc (pb_size (im_block a)) = 4 -> bs_nc (pb_size (im_block b)) = 4 -> bs_nc (pb_size (im_block c)) = 4 ->
  well_formed (im_data a) -> well_formed (im_data b) -> well_formed (im_data c) ->
  three_fit (im_data a) (im_data b) (im_data c) ->
  modest_picture a -> modest_picture b -> modest_picture c ->
  exists ab bc r s,
    merge p mode a b (f32_of_Z 1) o1 = Ok (Some ab) /\ merge p mode ab c (f32_of_Z 1) o2 = Ok (Some r) /\
    merge p mode b c (f32_of_Z 1) o3 = Ok (Some bc) /\ merge p mode a bc (f32_of_Z 1) o4 = Ok (Some s) /\
    im_data r = im_data s /\
    forall x y ch, 0 <= ch < 4 -> f32_finite (channel_at r x y ch) /\ f32_finite (channel_at s x y ch) /\
      (Rabs (shade r x y ch - shade s x y ch)
       <= 17 * / 2 ^ 24 * three_size mode (shade a x y 3) (shade b x y 3) (shade a x y ch) (shade b x y ch) (shade c x y ch) + / 2 ^ 70)%R.
Proof.
  intros KM FA FB FC NA NB NC WA WB WC (F1 & F2 & F3) MA MB MC.
  destruct (merge_exact p mode a b (f32_of_Z 1) o1 KM FA FB WA WB F1) as (ab & E1 & R1).
  destruct (merge_exact p mode b c (f32_of_Z 1) o3 KM FB FC WB WC F2) as (bc & E3 & R3).
  pose proof R1 as (L1 & _ & FAB & N1 & _). pose proof R3 as (L3 & _ & FBC & N3 & _).
  destruct (F3 _ _ L1 L3) as (F4 & F5).
  destruct (merge_exact p mode ab c (f32_of_Z 1) o2 KM FAB FC (least_well _ _ _ WA (proj1 L1) (proj1 (proj2 L1))) WC F4) as (r & E2 & R2).
  destruct (merge_exact p mode a bc (f32_of_Z 1) o4 KM FA FBC WA (least_well _ _ _ WB (proj1 L3) (proj1 (proj2 L3))) F5) as (s & E4 & R4).
  pose proof R2 as (L2 & _ & _ & N2 & _). pose proof R4 as (L4 & _ & _ & N4 & _).
  exists ab, bc, r, s. split; [exact E1|]. split; [exact E2|]. split; [exact E3|]. split; [exact E4|].
  split; [exact (least_grouped _ _ _ _ _ _ _ L1 L3 L2 L4)|]. intros x y ch H.
  destruct one_real as (V1 & FI1 & RE1). change f32_one with (f32_of_Z 1) in *.
  assert (SM : stands (f32_of_Z 1) (R32 (f32_of_Z 1)) 0 (Rabs (R32 (f32_of_Z 1))) 0 1).
  { apply stands_exact; [exact V1|exact FI1|]. rewrite RE1, Rabs_R1. lra. }
  pose proof K_one as HK.
  assert (P1 : forall i, 0 <= i < 4 -> _) by (intros i HI; exact (level_stands mode (f32_of_Z 1) a b ab KM R1 SM x y i ltac:(lia) _ _ _ 0 0 0 _ _ _ 0 K20 0
    (shade_stands a x y i MA ltac:(lia)) (shade_stands b x y i MB ltac:(lia)) (shade_stands a x y 3 MA ltac:(lia)) (outside_shade a x y i) (outside_shade b x y i)
    ltac:(lra) ltac:(lra) ltac:(lra) ltac:(lra) ltac:(lra) ltac:(lra) ltac:(lra) HK)).
  assert (P3 : forall i, 0 <= i < 4 -> _) by (intros i HI; exact (level_stands mode (f32_of_Z 1) b c bc KM R3 SM x y i ltac:(lia) _ _ _ 0 0 0 _ _ _ 0 K20 0
    (shade_stands b x y i MB ltac:(lia)) (shade_stands c x y i MC ltac:(lia)) (shade_stands b x y 3 MB ltac:(lia)) (outside_shade b x y i) (outside_shade c x y i)
    ltac:(lra) ltac:(lra) ltac:(lra) ltac:(lra) ltac:(lra) ltac:(lra) ltac:(lra) HK)).
  destruct (P1 ch H) as (Q1 & Z1). destruct (P1 3 ltac:(lia)) as (Q1a & _). destruct (P3 ch H) as (Q3 & Z3).
  set (NN := (100 * ((0 + 1) * K20))%R) in *. set (LL := (4 * (K20 * K20))%R) in *.
  assert (HN : (0 <= NN <= 10 ^ 10)%R) by (unfold NN, K20; lra). assert (HL : (1 <= LL <= 10 ^ 13)%R) by (unfold LL, K20; lra).
  assert (WK : forall im i, modest_picture im -> 0 <= i -> stands (channel_at im x y i) (shade im x y i) 0 (Rabs (shade im x y i)) NN LL).
  { intros im i MI HI. eapply stands_weaken; [exact (shade_stands im x y i MI HI)|lra|lra|unfold LL, K20; lra]. }
  destruct (level_stands mode (f32_of_Z 1) ab c r KM R2 SM x y ch ltac:(lia) _ _ _ _ 0 _ _ _ _ NN LL (0 + 401 / 100) Q1 (WK c ch MC ltac:(lia)) Q1a Z1 (outside_shade c x y ch)
    ltac:(lra) ltac:(lra) ltac:(lra) ltac:(lra) ltac:(lra) ltac:(lra) HN HL) as ((_ & T2 & T3 & T4 & _) & _).
  destruct (level_stands mode (f32_of_Z 1) a bc s KM R4 SM x y ch ltac:(lia) _ _ _ 0 _ 0 _ _ _ NN LL (0 + 401 / 100) (WK a ch MA ltac:(lia)) Q3 (WK a 3 MA ltac:(lia)) (outside_shade a x y ch) Z3
    ltac:(lra) ltac:(lra) ltac:(lra) ltac:(lra) ltac:(lra) ltac:(lra) HN HL) as ((_ & U2 & U3 & U4 & _) & _).
  split; [now apply fin_iff|]. split; [now apply fin_iff|]. fold (shade r x y ch) in T3. fold (shade s x y ch) in U3.
  rewrite RE1, Rabs_R1 in *.
  set (e1 := exact_merge _ _ _ (exact_merge _ _ _ _ _) _) in T3, T4. set (e2 := exact_merge _ _ _ _ (exact_merge _ _ _ _ _)) in U3, U4.
  assert (EE : e1 = e2) by (unfold e1, e2; destruct KM as [->|[->| ->]]; cbn [exact_merge]; ring).
  set (m1 := size_of _ _ _ (size_of _ _ _ _ _) _) in T3, T4. set (m2 := size_of _ _ _ _ (size_of _ _ _ _ _)) in U3, U4.
  set (t := three_size mode _ _ _ _ _).
  assert (M1 : m1 = t) by (unfold m1, t; destruct KM as [->|[->| ->]]; cbn [size_of three_size]; ring).
  assert (M2 : m2 = t) by (unfold m2, t; destruct KM as [->|[->| ->]]; cbn [size_of three_size]; ring).
  rewrite M1 in T3, T4. rewrite M2 in U3, U4. rewrite <- EE in U3.
  pose proof tiny2 as TY. fold NN LL in TY.
  assert (T0 : (0 <= t)%R) by (eapply Rle_trans; [apply Rabs_pos|exact T4]).
  pose proof eps_small as EP. assert (ET : (0 <= eps32 * t)%R) by (apply Rmult_le_pos; lra).
  replace (shade r x y ch - shade s x y ch)%R with ((shade r x y ch - e1) - (shade s x y ch - e1))%R by ring.
  unfold Rminus at 1. eapply Rle_trans; [apply Rabs_triang|]. rewrite Rabs_Ropp, <- eps_pow.
  assert (H70 : (/ 2 ^ 71 + / 2 ^ 71 = / 2 ^ 70)%R) by field.
  rewrite <- H70. replace (17 * eps32 * t)%R with (17 * (eps32 * t))%R by ring.
  assert (X : forall u, (u <= (0 + 401 / 100 + 401 / 100) * eps32 * t + 100 * ((NN + 1) * LL) * eta32 -> u <= 802 / 100 * (eps32 * t) + / 2 ^ 71)%R).
  { intros u HU. eapply Rle_trans; [exact HU|]. apply Rplus_le_compat; [|exact TY]. right. field. }
  apply X in T3, U3. lra.
Qed.

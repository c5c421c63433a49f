(** Proofs: an inverted transform undoes the transform (uses the axioms of Coq's
    real numbers). *)
From Coq Require String.
Import String.StringSyntax.
From Coq Require Import Reals Floats.SpecFloat Psatz.
From Flocq Require Import Core.Core.
From Verif Require Import Machine FloatModel FloatReal GeomReal UndoReal AttrModel StreamModel GradeModel DeformModel MergeSpec BakeSpec
  FloatFacts TransformProofs LineReal LineSpec LineProofs MixReal MoveReal MoveSpec MoveProofs BackSpec.
Local Open Scope string_scope.
Local Open Scope R_scope.

Lemma exact_weak v B : valid32 v -> fin32 v -> Rabs (R32 v) <= B -> stands v (R32 v) 1 (Rabs (R32 v)) 1 B.
Proof. intros V F H. eapply stands_weaken; [apply stands_exact; eassumption|lra|lra|lra]. Qed.

(** One application of any matrix about a pivot. *)
Definition about (m : mat4) (px py x y : f32) : f32 * f32 :=
  let '(a, b, _, _) := mat_vec m (f32_sub x px, f32_sub y py, f32_zero, f32_one) in (f32_add a px, f32_add b py).

Lemma row_close m i px py p x y : LineReal.small px -> LineReal.small py -> LineReal.small p -> LineReal.small x -> LineReal.small y ->
  plain_value (mat m i 2) -> (forall j, In j [0; 1; 3]%nat -> plain_value (mat m i j) /\ Rabs (R32 (mat m i j)) <= K20) ->
  let v := f32_add (mat_row m i (f32_sub x px, f32_sub y py, f32_zero, f32_one)) p in
  let X := R32 x - R32 px in let Y := R32 y - R32 py in
  plain_value v /\
  Rabs (R32 v - (R32 (mat m i 0) * X + R32 (mat m i 1) * Y + R32 (mat m i 3) + R32 p)) <=
    7 * / 2 ^ 24 * (Rabs (R32 (mat m i 0)) * Rabs X + Rabs (R32 (mat m i 1)) * Rabs Y + Rabs (R32 (mat m i 3)) + Rabs (R32 p)) + / 2 ^ 70.
Proof.
  intros Hpx Hpy Hp Hx Hy P2 H. cbv zeta. unfold mat_row.
  destruct (H 0%nat ltac:(cbn; tauto)) as ((V0 & F0) & B0). destruct (H 1%nat ltac:(cbn; tauto)) as ((V1 & F1) & B1).
  destruct (H 3%nat ltac:(cbn; tauto)) as ((V3 & F3) & B3). apply fin_iff in F0, F1, F3. apply plain_num in P2.
  pose proof (stands_diff x px Hx Hpx) as SX. pose proof (stands_diff y py Hy Hpy) as SY.
  assert (T3 : stands (mat m i 3) (R32 (mat m i 3)) (3006 / 1000) (Rabs (R32 (mat m i 3))) (10 * K20) (2 * K20 * K20)).
  { eapply stands_weaken; [exact (stands_exact _ _ V3 F3 B3)|lra|unfold K20; lra|unfold K20; lra]. }
  pose proof (row_stands _ _ _ _ _ _ _ _ p _ _ _ _ _ _ _ _ _ _ 1 ltac:(lra) (exact_weak _ _ V0 F0 B0) (exact_weak _ _ V1 F1 B1) T3 SX SY _ P2 num_f0 num_one Hp) as R.
  destruct R as (V & F & D & _ & _). apply fin_iff in F. split; [now split|].
  pose proof eps_pow as EP. pose proof tiny_move as TM. pose proof eps_small as ES.
  eapply Rle_trans; [exact D|]. apply Rplus_le_compat; [|exact TM]. rewrite <- EP.
  apply Rmult_le_compat_r; [|apply Rmult_le_compat_r; lra].
  repeat apply Rplus_le_le_0_compat; try apply Rmult_le_pos; apply Rabs_pos.
Qed.

Lemma tri3 a b c : Rabs (a + b + c) <= Rabs a + Rabs b + Rabs c.
Proof. eapply Rle_trans; [apply Rabs_triang|]. apply Rplus_le_compat_r, Rabs_triang. Qed.

(** There and back. *)
Lemma there_and_back m m' px py x y K d :
  LineReal.small px -> LineReal.small py -> LineReal.small x -> LineReal.small y -> 1 <= K -> tame K m -> tame K m' -> takes_back d m' m ->
  let L := Rabs (R32 x - R32 px) + Rabs (R32 y - R32 py) + 1 in
  let P := Rabs (R32 px) + Rabs (R32 py) in
  K * L + P <= 2 ^ 19 ->
  let (qx, qy) := about m px py x y in
  let (x', y') := about m' px py qx qy in
  plain_value x' /\ plain_value y' /\
  Rabs (R32 x' - R32 x) <= d * L + 60 * / 2 ^ 24 * (K * K * (L + P)) + / 2 ^ 40 /\
  Rabs (R32 y' - R32 y) <= d * L + 60 * / 2 ^ 24 * (K * K * (L + P)) + / 2 ^ 40.
Proof.
  intros Hpx Hpy Hx Hy HK TM TM' TB L P HL.
  set (X := R32 x - R32 px). set (Y := R32 y - R32 py). fold X Y in L.
  assert (L1 : 1 <= L) by (unfold L; pose proof (Rabs_pos X); pose proof (Rabs_pos Y); lra).
  assert (P0 : 0 <= P) by (unfold P; pose proof (Rabs_pos (R32 px)); pose proof (Rabs_pos (R32 py)); lra).
  assert (K19 : K <= 2 ^ 19) by (clear - HL L1 P0 HK; nra).
  assert (KK : K <= K20) by (unfold K20; lra).
  assert (SM : forall m i, tame K m -> (i < 2)%nat -> plain_value (mat m i 2) /\ forall j, In j [0; 1; 3]%nat -> plain_value (mat m i j) /\ Rabs (R32 (mat m i j)) <= K20).
  { intros m0 i T I. destruct (T i I) as (A & B). split; [exact A|]. intros j J. destruct (B j J) as (B1 & B2). split; [exact B1|lra]. }
  assert (EN : forall m i j, tame K m -> (i < 2)%nat -> In j [0; 1; 3]%nat -> Rabs (R32 (mat m i j)) <= K).
  { intros m0 i j T I J. apply (proj2 (T i I) j J). }
  unfold about, mat_vec.
  destruct (SM m 0%nat TM ltac:(lia)) as (A2 & AA). destruct (SM m 1%nat TM ltac:(lia)) as (B2 & BB).
  destruct (row_close m 0 px py px x y Hpx Hpy Hpx Hx Hy A2 AA) as (Pq & Dq).
  destruct (row_close m 1 px py py x y Hpx Hpy Hpy Hx Hy B2 BB) as (Pr & Dr).
  fold X Y in Dq, Dr.
  set (qx := f32_add (mat_row m 0 _) px) in *. set (qy := f32_add (mat_row m 1 _) py) in *. clearbody qx qy.
  fold (moved_x m X Y) in Dq. fold (moved_y m X Y) in Dr.
  set (MX := moved_x m X Y) in *. set (MY := moved_y m X Y) in *.
  assert (mm : forall a b c, Rabs a <= K -> Rabs b <= K -> Rabs c <= K -> Rabs a * Rabs X + Rabs b * Rabs Y + Rabs c <= K * L).
  { intros a b c Ha Hb Hc. unfold L. pose proof (Rabs_pos X) as X0. pose proof (Rabs_pos Y) as Y0.
    pose proof (Rmult_le_compat_r _ _ _ X0 Ha). pose proof (Rmult_le_compat_r _ _ _ Y0 Hb). lra. }
  pose proof (mm _ _ _ (EN m 0 0 TM ltac:(lia) ltac:(cbn; tauto)) (EN m 0 1 TM ltac:(lia) ltac:(cbn; tauto)) (EN m 0 3 TM ltac:(lia) ltac:(cbn; tauto)))%nat as SX.
  pose proof (mm _ _ _ (EN m 1 0 TM ltac:(lia) ltac:(cbn; tauto)) (EN m 1 1 TM ltac:(lia) ltac:(cbn; tauto)) (EN m 1 3 TM ltac:(lia) ltac:(cbn; tauto)))%nat as SY.
  assert (BX : Rabs MX <= K * L).
  { unfold MX, moved_x. eapply Rle_trans; [apply tri3|]. rewrite !Rabs_mult. exact SX. }
  assert (BY : Rabs MY <= K * L).
  { unfold MY, moved_y. eapply Rle_trans; [apply tri3|]. rewrite !Rabs_mult. exact SY. }
  assert (PX : Rabs (R32 px) <= P) by (unfold P; pose proof (Rabs_pos (R32 py)); lra).
  assert (PY : Rabs (R32 py) <= P) by (unfold P; pose proof (Rabs_pos (R32 px)); lra).
  set (E := / 2 ^ 24) in *. assert (HE : E = / 16777216) by (unfold E; f_equal; lra).
  set (t70 := / 2 ^ 70) in *. assert (HT : 0 < t70 <= / 2 ^ 69) by (unfold t70; lra).
  set (F := K * L + P) in *. assert (F1 : 1 <= F) by (unfold F; clear - HK L1 P0; nra).
  assert (EX : Rabs (R32 qx - R32 px - MX) <= 7 * E * F + t70).
  { replace (R32 qx - R32 px - MX) with (R32 qx - (MX + R32 px)) by ring. eapply Rle_trans; [exact Dq|]. apply Rplus_le_compat_r.
    apply Rmult_le_compat_l; [rewrite HE; lra|]. unfold F. lra. }
  assert (EY : Rabs (R32 qy - R32 py - MY) <= 7 * E * F + t70).
  { replace (R32 qy - R32 py - MY) with (R32 qy - (MY + R32 py)) by ring. eapply Rle_trans; [exact Dr|]. apply Rplus_le_compat_r.
    apply Rmult_le_compat_l; [rewrite HE; lra|]. unfold F. lra. }
  clear Dq Dr.
  assert (SE : 7 * E * F + t70 <= 1) by (rewrite HE; lra).
  assert (QX : Rabs (R32 qx - R32 px) <= K * L + 1).
  { replace (R32 qx - R32 px) with (MX + (R32 qx - R32 px - MX)) by ring. eapply Rle_trans; [apply Rabs_triang|]. lra. }
  assert (QY : Rabs (R32 qy - R32 py) <= K * L + 1).
  { replace (R32 qy - R32 py) with (MY + (R32 qy - R32 py - MY)) by ring. eapply Rle_trans; [apply Rabs_triang|]. lra. }
  assert (Sq : LineReal.small qx).
  { destruct Pq as (V & Fi). apply fin_iff in Fi. split; [exact V|]. split; [exact Fi|]. unfold K20.
    replace (R32 qx) with (R32 px + (R32 qx - R32 px)) by ring. eapply Rle_trans; [apply Rabs_triang|]. unfold F in HL. lra. }
  assert (Sr : LineReal.small qy).
  { destruct Pr as (V & Fi). apply fin_iff in Fi. split; [exact V|]. split; [exact Fi|]. unfold K20.
    replace (R32 qy) with (R32 py + (R32 qy - R32 py)) by ring. eapply Rle_trans; [apply Rabs_triang|]. unfold F in HL. lra. }
  destruct (SM m' 0%nat TM' ltac:(lia)) as (A2' & AA'). destruct (SM m' 1%nat TM' ltac:(lia)) as (B2' & BB').
  destruct (row_close m' 0 px py px qx qy Hpx Hpy Hpx Sq Sr A2' AA') as (Px' & Dx').
  destruct (row_close m' 1 px py py qx qy Hpx Hpy Hpy Sq Sr B2' BB') as (Py' & Dy').
  set (x' := f32_add (mat_row m' 0 _) px) in *. set (y' := f32_add (mat_row m' 1 _) py) in *. clearbody x' y'.
  fold E t70 in Dx', Dy'.
  split; [exact Px'|]. split; [exact Py'|]. destruct (TB X Y) as (TX & TY). fold MX MY in TX, TY. fold L in TX, TY.
  (* one coordinate *)
  assert (G : forall a b c p w W (r : f32), Rabs a <= K -> Rabs b <= K -> Rabs c <= K -> Rabs p <= P ->
     Rabs (R32 r - (a * (R32 qx - R32 px) + b * (R32 qy - R32 py) + c + p)) <=
       7 * E * (Rabs a * Rabs (R32 qx - R32 px) + Rabs b * Rabs (R32 qy - R32 py) + Rabs c + Rabs p) + t70 ->
     Rabs (a * MX + b * MY + c - W) <= d * L -> w = W + p ->
     Rabs (R32 r - w) <= d * L + 60 * E * (K * K * (L + P)) + / 2 ^ 40).
  { intros a b c p w W r Ha Hb Hc Hp D TD ->.
    replace (R32 r - (W + p)) with
      ((R32 r - (a * (R32 qx - R32 px) + b * (R32 qy - R32 py) + c + p)) + (a * MX + b * MY + c - W)
       + (a * (R32 qx - R32 px - MX) + b * (R32 qy - R32 py - MY))) by ring.
    eapply Rle_trans; [apply tri3|].
    assert (Z1 : Rabs (a * (R32 qx - R32 px - MX) + b * (R32 qy - R32 py - MY)) <= 2 * K * (7 * E * F + t70)).
    { eapply Rle_trans; [apply Rabs_triang|]. rewrite !Rabs_mult.
      pose proof (Rmult_le_compat _ _ _ _ (Rabs_pos _) (Rabs_pos _) Ha EX). pose proof (Rmult_le_compat _ _ _ _ (Rabs_pos _) (Rabs_pos _) Hb EY). lra. }
    assert (Z2 : Rabs a * Rabs (R32 qx - R32 px) + Rabs b * Rabs (R32 qy - R32 py) + Rabs c + Rabs p <= 2 * (K * (K * L + 1)) + K + P).
    { pose proof (Rmult_le_compat _ _ _ _ (Rabs_pos _) (Rabs_pos _) Ha QX). pose proof (Rmult_le_compat _ _ _ _ (Rabs_pos _) (Rabs_pos _) Hb QY). lra. }
    assert (Z3 : 7 * E * (Rabs a * Rabs (R32 qx - R32 px) + Rabs b * Rabs (R32 qy - R32 py) + Rabs c + Rabs p) <= 7 * E * (2 * (K * (K * L + 1)) + K + P)).
    { apply Rmult_le_compat_l; [rewrite HE; lra|exact Z2]. }
    assert (KP : 2 * K * t70 <= / 2 ^ 41).
    { apply Rle_trans with (2 * 2 ^ 19 * t70); [apply Rmult_le_compat_r; lra|]. unfold t70. lra. }
    assert (U1 : 2 * (K * (K * L + 1)) + K + P + 2 * K * F <= 60 / 7 * (K * K * (L + P))).
    { unfold F. assert (J1 : K * 1 <= K * K * L) by (rewrite Rmult_assoc; apply Rmult_le_compat_l; [lra|]; clear - HK L1; nra).
      assert (J2 : K * P <= K * K * P) by (apply Rmult_le_compat_r; [exact P0|]; clear - HK; nra).
      assert (J3 : P <= K * P) by (clear - HK P0; nra).
      assert (J4 : 0 <= K * K * L) by (clear - HK L1; apply Rmult_le_pos; nra).
      assert (J5 : 0 <= K * K * P) by (clear - HK P0; apply Rmult_le_pos; nra).
      replace (2 * (K * (K * L + 1)) + K + P + 2 * K * (K * L + P)) with (4 * (K * K * L) + 3 * (K * 1) + P + 2 * (K * P)) by ring.
      replace (60 / 7 * (K * K * (L + P))) with (60 / 7 * (K * K * L) + 60 / 7 * (K * K * P)) by ring. lra. }
    assert (U2 : 7 * E * (2 * (K * (K * L + 1)) + K + P) + 2 * K * (7 * E * F) <= 60 * E * (K * K * (L + P))).
    { replace (7 * E * (2 * (K * (K * L + 1)) + K + P) + 2 * K * (7 * E * F)) with (7 * E * (2 * (K * (K * L + 1)) + K + P + 2 * K * F)) by ring.
      replace (60 * E * (K * K * (L + P))) with (7 * E * (60 / 7 * (K * K * (L + P)))) by field. apply Rmult_le_compat_l; [rewrite HE; lra|exact U1]. }
    replace (2 * K * (7 * E * F + t70)) with (2 * K * (7 * E * F) + 2 * K * t70) in Z1 by ring.
    assert (t70 <= / 2 ^ 41) by (unfold t70; lra). lra. }
  split.
  - apply (G _ _ _ (R32 px) _ X x' (EN m' 0 0 TM' ltac:(lia) ltac:(cbn; tauto))%nat (EN m' 0 1 TM' ltac:(lia) ltac:(cbn; tauto))%nat (EN m' 0 3 TM' ltac:(lia) ltac:(cbn; tauto))%nat PX Dx' TX).
    unfold X. ring.
  - apply (G _ _ _ (R32 py) _ Y y' (EN m' 1 0 TM' ltac:(lia) ltac:(cbn; tauto))%nat (EN m' 1 1 TM' ltac:(lia) ltac:(cbn; tauto))%nat (EN m' 1 3 TM' ltac:(lia) ltac:(cbn; tauto))%nat PY Dy' TY).
    unfold Y. ring.
Qed.

Lemma apply_about nx v win inverse x y :
  transform_apply nx v win inverse (x, y) = about (transform_matrix nx v win inverse) (f32_of_bits (vf v "pivot_x")) (f32_of_bits (vf v "pivot_y")) x y.
Proof. reflexivity. Qed.

(** The matrix of the reversed transform. *)
Lemma reversed_matrix nx v v' win : reversed v' v ->
  transform_matrix nx v' win false = match nx_inverse nx (transform_matrix nx v win false) with Some m => m | None => transform_matrix nx v win false end.
Proof.
  intros (H & L & G). unfold transform_matrix. cbn [negb]. replace (0 <? vi v "invert")%Z with false by lia.
  replace (0 <? vi v' "invert")%Z with true by lia. now rewrite !H.
Qed.

Theorem undone_point nx v v' win m' K d x y :
  reversed v' v -> modest (f32_of_bits (vf v "pivot_x")) -> modest (f32_of_bits (vf v "pivot_y")) -> modest x -> modest y ->
  let m := transform_matrix nx v win false in
  nx_inverse nx m = Some m' -> 1 <= K -> tame K m -> tame K m' -> takes_back d m' m ->
  let L := off_pivot v (R32 x) (R32 y) in
  K * L + pivot_off v <= 2 ^ 19 ->
  let (x', y') := transform_apply nx v' win false (transform_apply nx v win false (x, y)) in
  plain_value x' /\ plain_value y' /\
  Rabs (R32 x' - R32 x) <= d * L + 60 * / 2 ^ 24 * (K * K * (L + pivot_off v)) + / 2 ^ 40 /\
  Rabs (R32 y' - R32 y) <= d * L + 60 * / 2 ^ 24 * (K * K * (L + pivot_off v)) + / 2 ^ 40.
Proof.
  intros RV MPX MPY Mx My m I HK T T' TB L HL. apply modest_small in MPX, MPY, Mx, My.
  pose proof (there_and_back m m' _ _ x y K d MPX MPY Mx My HK T T' TB HL) as R.
  rewrite apply_about. fold m. destruct (about m _ _ x y) as [qx qy]. rewrite apply_about, (reversed_matrix nx v v' win RV). fold m. rewrite I.
  destruct RV as (H & _). rewrite !H. exact R.
Qed.

Theorem undone nx v v' win m' K d buf buf' i x y z :
  reversed v' v -> vi v "enable" = 1%Z -> vi v' "enable" = 1%Z ->
  modest (f32_of_bits (vf v "pivot_x")) -> modest (f32_of_bits (vf v "pivot_y")) -> modest x -> modest y ->
  let m := transform_matrix nx v win false in
  nx_inverse nx m = Some m' -> 1 <= K -> tame K m -> tame K m' -> takes_back d m' m ->
  let L := off_pivot v (R32 x) (R32 y) in
  K * L + pivot_off v <= 2 ^ 19 ->
  deform_positions nx [DTransform v; DTransform v'] win buf = Ok buf' ->
  nth_error buf (3 * i) = Some x -> nth_error buf (3 * i + 1) = Some y -> nth_error buf (3 * i + 2) = Some z ->
  exists x' y', nth_error buf' (3 * i) = Some x' /\ nth_error buf' (3 * i + 1) = Some y' /\ nth_error buf' (3 * i + 2) = Some z /\
  Rabs (R32 x' - R32 x) <= d * L + 60 * / 2 ^ 24 * (K * K * (L + pivot_off v)) + / 2 ^ 40 /\
  Rabs (R32 y' - R32 y) <= d * L + 60 * / 2 ^ 24 * (K * K * (L + pivot_off v)) + / 2 ^ 40.
Proof.
  intros RV EN EN' MPX MPY Mx My m I HK T T' TB L HL E H1 H2 H3. unfold deform_positions in E.
  replace (enabled [DTransform v; DTransform v']) with [DTransform v; DTransform v'] in E
    by (unfold enabled; cbn [filter def_vals]; now rewrite EN, EN').
  cbn [apply_each] in E.
  change (map_xy3 (deform_point nx (DTransform v) win false) buf) with (map_xy3 (fun q => Ok (transform_apply nx v win false q)) buf) in E.
  destruct (map_xy3 (fun q => Ok (transform_apply nx v win false q)) buf) as [b1|] eqn:E1; cbn [bind] in E; [|discriminate].
  change (map_xy3 (deform_point nx (DTransform v') win false) b1) with (map_xy3 (fun q => Ok (transform_apply nx v' win false q)) b1) in E.
  destruct (map_xy3 (fun q => Ok (transform_apply nx v' win false q)) b1) as [b2|] eqn:E2; cbn [bind] in E; [|discriminate].
  injection E as ->. destruct (each_point _ _ _ E1) as (_ & P). destruct (P i x y z H1 H2 H3) as (Q1 & Q2 & Q3).
  pose proof (undone_point nx v v' win m' K d x y RV MPX MPY Mx My I HK T T' TB HL) as U.
  destruct (transform_apply nx v win false (x, y)) as [qx qy] eqn:A1. cbn [fst snd] in Q1, Q2.
  destruct (each_point _ _ _ E2) as (_ & P'). destruct (P' i qx qy z Q1 Q2 Q3) as (Q1' & Q2' & Q3').
  destruct (transform_apply nx v' win false (qx, qy)) as [x' y'] eqn:A2. cbn [fst snd] in Q1', Q2'.
  exists x', y'. destruct U as (_ & _ & U1 & U2). auto.
Qed.

(** Baking looks for the source of a pixel with the matrix the other way round. *)
Theorem fetched_point nx v win m' K d x y :
  vi v "invert" = 0%Z -> modest (f32_of_bits (vf v "pivot_x")) -> modest (f32_of_bits (vf v "pivot_y")) -> modest x -> modest y ->
  let m := transform_matrix nx v win false in
  nx_inverse nx m = Some m' -> 1 <= K -> tame K m -> tame K m' -> takes_back d m' m ->
  let L := off_pivot v (R32 x) (R32 y) in
  K * L + pivot_off v <= 2 ^ 19 ->
  let (x', y') := transform_apply nx v win true (transform_apply nx v win false (x, y)) in
  plain_value x' /\ plain_value y' /\
  Rabs (R32 x' - R32 x) <= d * L + 60 * / 2 ^ 24 * (K * K * (L + pivot_off v)) + / 2 ^ 40 /\
  Rabs (R32 y' - R32 y) <= d * L + 60 * / 2 ^ 24 * (K * K * (L + pivot_off v)) + / 2 ^ 40.
Proof.
  intros IV MPX MPY Mx My m I HK T T' TB L HL. apply modest_small in MPX, MPY, Mx, My.
  pose proof (there_and_back m m' _ _ x y K d MPX MPY Mx My HK T T' TB HL) as R.
  rewrite apply_about. fold m. destruct (about m _ _ x y) as [qx qy]. rewrite apply_about.
  replace (transform_matrix nx v win true) with m'; [exact R|]. revert I. unfold m, transform_matrix. cbn [negb]. rewrite IV.
  change (0 <? 0)%Z with false. change (0 =? 0)%Z with true. cbv iota. now intros ->.
Qed.

(** Without an inverse the reversed transform is the transform itself. *)
Theorem not_undone nx v v' win xy : reversed v' v -> nx_inverse nx (transform_matrix nx v win false) = None ->
  transform_apply nx v' win false xy = transform_apply nx v win false xy.
Proof.
  intros RV N. destruct xy as [x y]. rewrite !apply_about, (reversed_matrix nx v v' win RV), N. destruct RV as (H & _). now rewrite !H.
Qed.

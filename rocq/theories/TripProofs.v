From Coq Require String.
Import String.StringSyntax.
From Coq Require Import Reals Floats.SpecFloat Psatz.
From Flocq Require Import Core.Core IEEE754.BinarySingleNaN.
From Verif Require Import Machine FloatModel FloatReal GeomReal UndoReal BBoxModel PixelModel AttrModel StreamModel GradeModel DeformModel MergeSpec BakeSpec LineReal LineProofs MixReal CoverSpec CoverProofs TripSpec MoveReal.
Local Open Scope string_scope.
Local Open Scope R_scope.

Section Axis.
Variables (lo hi : Z) (side : R).
Hypothesis LH : (lo < hi)%Z.
Hypothesis S1 : 1 <= side <= 65536.
Hypothesis BL : Rabs (IZR lo) <= side.
Hypothesis BH : Rabs (IZR hi) <= side.
Local Notation w := (IZR (hi - lo)).
Local Notation e := (side / 262144).

Lemma axis_ints : (- 65536 <= lo < hi)%Z /\ (hi <= 65536)%Z.
Proof.
  apply Rabs_le_inv in BL, BH. assert (IZR (-65536) <= IZR lo) by lra. assert (IZR hi <= IZR 65536) by lra. apply le_IZR in H, H0. lia.
Qed.
Lemma axis_width : 1 <= w <= 2 * side.
Proof. split; [apply IZR_le; lia|]. rewrite minus_IZR. apply Rabs_le_inv in BL, BH. lra. Qed.

(** To the unit square with an error of [e] pixels. *)
Lemma to_unit x : plain_value x -> Rabs (R32 x - IZR lo) <= 8 * w ->
  let u := remap (f32_of_Z lo) (f32_of_Z hi) f32_zero f32_one x in
  plain_value u /\ Rabs (R32 u * w - (R32 x - IZR lo)) <= e.
Proof.
  intros PX D u. destruct axis_ints as (L & H). pose proof axis_width as (W1 & W2).
  assert (BX : Rabs (R32 x) <= mid).
  { apply Rabs_le_inv in D, BL. unfold mid. apply Rabs_le. lra. }
  split; [exact (unit_plain lo hi x L H PX BX)|].
  destruct (unit_real lo hi x L H PX BX) as (_ & _ & E). fold u in E. rewrite E. clear E. set (W := w) in *. clearbody W. set (X := R32 x - IZR lo) in *. clearbody X.
  clear - D W1 W2 S1. pose proof eta_small as (ET1 & ET2). rewrite huge_big in ET2.
  assert (ET3 : eta32 <= / 1000000000000) by lra.
  pose proof (RN_err X) as E1. pose proof (RN_err (RN X / W)) as E2. unfold eps32 in E1, E2.
  set (Y := RN X) in *. set (T := RN (Y / W)) in *. clearbody T. clearbody Y.
  assert (B1 : Rabs Y <= Rabs X * (1 + / 16777216) + eta32).
  { replace Y with (Y - X + X) by ring. eapply Rle_trans; [apply Rabs_triang|]. lra. }
  assert (E3 : Rabs (T * W - Y) <= / 16777216 * Rabs Y + eta32 * W).
  { replace (T * W - Y) with ((T - Y / W) * W) by (field; lra). rewrite Rabs_mult, (Rabs_pos_eq W) by lra.
    apply Rle_trans with ((/ 16777216 * Rabs (Y / W) + eta32) * W); [apply Rmult_le_compat_r; lra|].
    right. unfold Rdiv. rewrite Rabs_mult, (Rabs_pos_eq (/ W)) by (left; apply Rinv_0_lt_compat; lra). field. lra. }
  replace (T * W - X) with ((T * W - Y) + (Y - X)) by ring. eapply Rle_trans; [apply Rabs_triang|].
  assert (eta32 * W <= / 1000000000000 * (2 * side)) by (apply Rmult_le_compat; lra).
  lra.
Qed.

(** And back with the same. *)
Lemma from_unit q : plain_value q -> Rabs (R32 q) <= 8 ->
  let r := remap f32_zero f32_one (f32_of_Z lo) (f32_of_Z hi) q in
  plain_value r /\ Rabs (R32 r - (IZR lo + R32 q * w)) <= e.
Proof.
  intros PQ BQ r. destruct axis_ints as (L & H).
  split; [exact (proj1 (back_real lo hi q L H PQ BQ))|]. destruct PQ as (VQ & FQ). apply fin_iff in FQ.
  destruct (small_real lo ltac:(lia)) as (VL & FL & EL). destruct (small_real hi ltac:(lia)) as (VH & FH & EH).
  pose proof (part_itself q VQ FQ) as NT.
  unfold r, remap, lerp. set (t := inverse_lerp f32_zero f32_one q) in *. set (T := R32 q) in *.
  pose proof huge_big as HU. pose proof big98 as G98. pose proof big90 as G90.
  destruct NT as (VT & FT & ET). apply Rabs_le_inv in BQ.
  assert (S1' : stands (f32_sub f32_one t) (1 - T) (1001 / 1000) 9 1 9).
  { destruct num_one as (VO & FO & EO).
    assert (SO : LineReal.small f32_one) by (split; [exact VO|split; [exact FO|rewrite EO, Rabs_R1; unfold K20; lra]]).
    assert (SQ : LineReal.small t) by (split; [exact VT|split; [exact FT|rewrite ET; unfold K20; apply Rabs_le; lra]]).
    pose proof (stands_diff f32_one t SO SQ) as S. rewrite EO, ET in S.
    destruct S as (A & B & C & D & E). repeat split; try assumption; try lra; [|apply Rabs_le; lra].
    eapply Rle_trans; [exact C|]. apply Rplus_le_compat_r. apply Rmult_le_compat_l; [unfold eps32; lra|]. apply Rabs_le. lra. }
  assert (SL : stands (f32_of_Z lo) (IZR lo) 0 side 0 65536).
  { repeat split; try assumption; try lra. rewrite EL, Rminus_diag_eq by reflexivity; rewrite Rabs_R0. lra. }
  assert (SH : stands (f32_of_Z hi) (IZR hi) 0 side 0 65536).
  { repeat split; try assumption; try lra. rewrite EH, Rminus_diag_eq by reflexivity; rewrite Rabs_R0; lra. }
  assert (ST : stands t T 0 8 0 8).
  { repeat split; try assumption; try lra; [rewrite ET, Rminus_diag_eq by reflexivity; rewrite Rabs_R0; lra|apply Rabs_le; lra]. }
  pose proof (stands_mul _ _ _ _ _ _ _ _ _ _ _ _ S1' SL ltac:(lra) ltac:(lra) ltac:(lra) ltac:(lra) ltac:(lra) ltac:(lra) ltac:(lra) ltac:(lra) ltac:(lra) ltac:(lra)) as P1.
  pose proof (stands_mul _ _ _ _ _ _ _ _ _ _ _ _ ST SH ltac:(lra) ltac:(lra) ltac:(lra) ltac:(lra) ltac:(lra) ltac:(lra) ltac:(lra) ltac:(lra) ltac:(lra) ltac:(lra)) as P2.
  pose proof (stands_add _ _ _ _ _ _ _ _ _ _ _ _ P1 P2 ltac:(lra) ltac:(lra) ltac:(lra) ltac:(lra) (2003 / 1000) ltac:(lra) ltac:(lra) ltac:(lra) ltac:(lra)) as P3.
  destruct P3 as (V3 & F3 & D3 & _ & _).
  pose proof eta_small as (ET1 & ET2). rewrite HU in ET2. unfold eps32 in D3.
  replace (IZR lo + T * w) with ((1 - T) * IZR lo + T * IZR hi) by (rewrite minus_IZR; ring). eapply Rle_trans; [exact D3|]. lra.
Qed.

(** [r] is the plug-in's answer to the unit value of [x]; it is found again. *)
Lemma there x : plain_value x -> Rabs (R32 x - IZR lo) <= 6 * w ->
  let u := remap (f32_of_Z lo) (f32_of_Z hi) f32_zero f32_one x in
  plain_value u /\ Rabs (R32 u) <= 7 /\ Rabs (R32 u * w - (R32 x - IZR lo)) <= e.
Proof.
  intros PX D u. pose proof axis_width as (W1 & W2). destruct (to_unit x PX ltac:(lra)) as (PU & E). split; [exact PU|]. split; [|exact E].
  fold u in E. apply Rabs_le_inv in D, E. apply Rabs_le.
  assert (B : -(7 * w) <= R32 u * w <= 7 * w) by lra.
  split; apply Rmult_le_reg_r with w; lra.
Qed.
Lemma again r : plain_value r -> Rabs (R32 r) <= 7 ->
  let x := remap f32_zero f32_one (f32_of_Z lo) (f32_of_Z hi) r in
  let u := remap (f32_of_Z lo) (f32_of_Z hi) f32_zero f32_one x in
  plain_value u /\ Rabs (R32 u) <= 8 /\ Rabs (R32 u - R32 r) * w <= 2 * e.
Proof.
  intros PR B x u. pose proof axis_width as (W1 & W2). destruct (from_unit r PR ltac:(lra)) as (PX & E). fold x in PX, E.
  assert (RW : Rabs (R32 r * w) <= 7 * w) by (rewrite Rabs_mult, (Rabs_pos_eq w) by lra; apply Rmult_le_compat_r; lra).
  apply Rabs_le_inv in RW, E.
  assert (D : Rabs (R32 x - IZR lo) <= 8 * w) by (apply Rabs_le; lra).
  destruct (to_unit x PX D) as (PU & E'). fold u in PU, E'. apply Rabs_le_inv in E'. split; [exact PU|].
  assert (C : Rabs (R32 u * w - R32 r * w) <= 2 * e) by (apply Rabs_le; lra).
  split.
  - apply Rabs_le_inv in C. apply Rabs_le. split; apply Rmult_le_reg_r with w; lra.
  - rewrite <- (Rabs_pos_eq w) at 1 by lra. rewrite <- Rabs_mult. replace ((R32 u - R32 r) * w) with (R32 u * w - R32 r * w) by ring. exact C.
Qed.
Lemma home x u r err : Rabs (R32 u * w - (R32 x - IZR lo)) <= e -> plain_value r -> Rabs (R32 r) <= 8 -> Rabs (R32 r - R32 u) * w <= err ->
  let x' := remap f32_zero f32_one (f32_of_Z lo) (f32_of_Z hi) r in Rabs (R32 x' - R32 x) <= err + 2 * e.
Proof.
  intros D PR B A x'. pose proof axis_width as (W1 & W2). destruct (from_unit r PR B) as (_ & E). fold x' in E.
  rewrite <- (Rabs_pos_eq w) in A at 1 by lra. rewrite <- Rabs_mult in A. apply Rabs_le_inv in A, E, D. apply Rabs_le. lra.
Qed.
End Axis.

Theorem round_trip nx display v fwd k err side q : 1 <= side <= 65536 -> near_display side display -> 0 <= k ->
  vi v "direction" = (if fwd : bool then 1 else 0)%Z -> takes_back nx display v fwd k err -> around display q ->
  exists q1 q2, deform_point nx (DTde4 v) (bboxf_of display) false q = Ok q1 /\
    deform_point nx (DTde4 v) (bboxf_of display) true q1 = Ok q2 /\ close_by (2 * err + (k + 1) * (side / 131072)) q2 q.
Proof.
  intros S (LX & LY & BX1 & BX2 & BY1 & BY2) K DIR (T1 & T2 & T3 & T4) (PX & PY & AX & AY). destruct q as [x y]. cbn [fst snd] in *.
  destruct (there _ _ _ LX S BX1 BX2 x PX AX) as (PU & BU & EU). destruct (there _ _ _ LY S BY1 BY2 y PY AY) as (PV & BV & EV).
  set (ux := remap (f32_of_Z (min_x display)) (f32_of_Z (max_x display)) f32_zero f32_one x) in *.
  set (uy := remap (f32_of_Z (min_y display)) (f32_of_Z (max_y display)) f32_zero f32_one y) in *.
  assert (U7 : unit_point 7 (ux, uy)) by (repeat (split; [assumption|]); assumption).
  pose proof (T1 _ U7) as R7. pose proof (T3 _ U7) as RT.
  set (r := nx_lens nx v fwd (ux, uy)) in *. destruct R7 as (PRX & PRY & BRX & BRY).
  destruct (again _ _ _ LX S BX1 BX2 (fst r) PRX BRX) as (PA & BA & EA). destruct (again _ _ _ LY S BY1 BY2 (snd r) PRY BRY) as (PB & BB & EB).
  set (x1 := remap f32_zero f32_one (f32_of_Z (min_x display)) (f32_of_Z (max_x display)) (fst r)) in *.
  set (y1 := remap f32_zero f32_one (f32_of_Z (min_y display)) (f32_of_Z (max_y display)) (snd r)) in *.
  set (u1 := remap (f32_of_Z (min_x display)) (f32_of_Z (max_x display)) f32_zero f32_one x1) in *.
  set (v1 := remap (f32_of_Z (min_y display)) (f32_of_Z (max_y display)) f32_zero f32_one y1) in *.
  assert (U8 : unit_point 8 (u1, v1)) by (repeat (split; [assumption|]); assumption).
  assert (R8 : unit_point 8 r) by (split; [exact PRX|split; [exact PRY|split; lra]]).
  destruct (T2 _ U8) as (PHX & PHY & BHX & BHY).
  pose proof (T4 (u1, v1) r (2 * (side / 262144)) U8 R8 (conj EA EB)) as LT.
  set (h := nx_lens nx v (negb fwd) (u1, v1)) in *. set (g := nx_lens nx v (negb fwd) r) in *.
  assert (HU : Rabs (R32 (fst h) - R32 ux) * IZR (max_x display - min_x display) <= 2 * err + k * (2 * (side / 262144))).
  { destruct LT as (LT & _), RT as (RT & _). cbn [fst] in RT. assert (0 <= IZR (max_x display - min_x display)) by (apply IZR_le; lia).
    replace (R32 (fst h) - R32 ux) with ((R32 (fst h) - R32 (fst g)) + (R32 (fst g) - R32 ux)) by ring.
    apply Rle_trans with ((Rabs (R32 (fst h) - R32 (fst g)) + Rabs (R32 (fst g) - R32 ux)) * IZR (max_x display - min_x display)); [apply Rmult_le_compat_r; [assumption|apply Rabs_triang]|]. lra. }
  assert (HV : Rabs (R32 (snd h) - R32 uy) * IZR (max_y display - min_y display) <= 2 * err + k * (2 * (side / 262144))).
  { destruct LT as (_ & LT), RT as (_ & RT). cbn [snd] in RT. assert (0 <= IZR (max_y display - min_y display)) by (apply IZR_le; lia).
    replace (R32 (snd h) - R32 uy) with ((R32 (snd h) - R32 (snd g)) + (R32 (snd g) - R32 uy)) by ring.
    apply Rle_trans with ((Rabs (R32 (snd h) - R32 (snd g)) + Rabs (R32 (snd g) - R32 uy)) * IZR (max_y display - min_y display)); [apply Rmult_le_compat_r; [assumption|apply Rabs_triang]|]. lra. }
  pose proof (home _ _ _ LX S BX1 BX2 x ux (fst h) _ EU PHX BHX HU) as FX. pose proof (home _ _ _ LY S BY1 BY2 y uy (snd h) _ EV PHY BHY HV) as FY.
  exists (x1, y1), (remap f32_zero f32_one (f32_of_Z (min_x display)) (f32_of_Z (max_x display)) (fst h),
                    remap f32_zero f32_one (f32_of_Z (min_y display)) (f32_of_Z (max_y display)) (snd h)).
  split; [|split].
  - cbn [deform_point]. unfold tde4_apply. cbn [bboxf_of fmin_x fmin_y fmax_x fmax_y]. fold ux uy. rewrite DIR. unfold x1, y1, r.
    destruct fwd; [change (negb false) with true; destruct (nx_lens nx v true (ux, uy)); reflexivity|destruct (nx_lens nx v false (ux, uy)); reflexivity].
  - cbn [deform_point]. unfold tde4_apply. cbn [bboxf_of fmin_x fmin_y fmax_x fmax_y]. fold u1 v1. rewrite DIR. unfold h.
    destruct fwd; [change (negb true) with false; destruct (nx_lens nx v false (u1, v1)); reflexivity|change (negb false) with true; destruct (nx_lens nx v true (u1, v1)); reflexivity].
  - split; cbn [fst snd]; lra.
Qed.

(** The lens turned round is the lens the other way. *)
Lemma turned nx v v' fwd win q : vi v "direction" = (if fwd : bool then 1 else 0)%Z -> vi v' "direction" = (if fwd then 0 else 1)%Z ->
  (forall there u, nx_lens nx v' there u = nx_lens nx v there u) ->
  deform_point nx (DTde4 v') win false q = deform_point nx (DTde4 v) win true q.
Proof.
  intros D D' A. cbn [deform_point]. unfold tde4_apply. destruct q as [x y]. rewrite D, D'. destruct fwd; cbn [Z.eqb Pos.eqb negb]; rewrite A; reflexivity.
Qed.
Theorem opposite_lenses nx display v v' fwd k err side q : 1 <= side <= 65536 -> near_display side display -> 0 <= k ->
  vi v "direction" = (if fwd : bool then 1 else 0)%Z -> vi v' "direction" = (if fwd then 0 else 1)%Z ->
  (forall there u, nx_lens nx v' there u = nx_lens nx v there u) -> takes_back nx display v fwd k err -> around display q ->
  exists q', carried nx display [DTde4 v; DTde4 v'] q = Ok q' /\ close_by (2 * err + (k + 1) * (side / 131072)) q' q.
Proof.
  intros S N K D D' A T Q. destruct (round_trip nx display v fwd k err side q S N K D T Q) as (q1 & q2 & E1 & E2 & C).
  exists q2. split; [|exact C]. unfold carried. rewrite E1. cbn [bind]. rewrite (turned nx v v' fwd _ _ D D' A), E2. reflexivity.
Qed.

(** The direction of a lens node is not told to the plug-in. *)
From Verif Require Import NodeModel LensModel LensSpec.
Lemma make_fields L (P : plugin L) v v' : (forall n, vf v n = vf v' n) ->
  match make P v, make P v' with Ok d, Ok d' => ln_plugin d = ln_plugin d' | Panic, Panic => True | _, _ => False end.
Proof.
  intro F. unfold make, commit. cbn [ln_vals ln_plugin].
  assert (S : forall ps l, set_all P v ps l = set_all P v' ps l).
  { induction ps as [|[n f] ps IH]; intro l; [reflexivity|]. cbn [set_all]. rewrite F. destruct (pg_set P l n (vf v' f)); [apply IH|reflexivity]. }
  rewrite S. destruct (set_all P v' parameters (pg_new P)) as [l|]; cbn [bind]; [|exact I]. destruct (pg_init P l); [reflexivity|exact I].
Qed.
Lemma same_plugin L (P : plugin L) nx v v' : (forall n, vf v n = vf v' n) ->
  forall there u, nx_lens (with_lens nx P) v' there u = nx_lens (with_lens nx P) v there u.
Proof.
  intros F there u. pose proof (make_fields L P v v' F) as M. cbn [nx_lens with_lens].
  destruct (make P v), (make P v'); try contradiction; [now rewrite M|reflexivity].
Qed.
Lemma lens_floats b b' : (forall n, b_f32 b n = b_f32 b' n) -> forall n, vf (lens_op b) n = vf (lens_op b') n.
Proof.
  intros F n. unfold vf, lens_op. cbn [v_f32]. f_equal. f_equal. unfold copy_attrs. apply map_ext. intro a. f_equal.
  unfold gf, blk_get_f32. destruct (arm _ _); [apply F|reflexivity].
Qed.
Theorem opposite_nodes L (P : plugin L) nx display b b' (fwd : bool) k err side q : 1 <= side <= 65536 -> near_display side display -> 0 <= k ->
  b_i32 b "direction" = (if fwd then 1 else 0)%Z -> b_i32 b' "direction" = (if fwd then 0 else 1)%Z -> (forall n, b_f32 b n = b_f32 b' n) ->
  takes_back (with_lens nx P) display (lens_op b) fwd k err -> around display q ->
  exists q', carried (with_lens nx P) display [DTde4 (lens_op b); DTde4 (lens_op b')] q = Ok q' /\ close_by (2 * err + (k + 1) * (side / 131072)) q' q.
Proof.
  intros S N K D D' F T Q.
  exact (opposite_lenses (with_lens nx P) display (lens_op b) (lens_op b') fwd k err side q S N K D D' (same_plugin L P nx _ _ (lens_floats b b' F)) T Q).
Qed.

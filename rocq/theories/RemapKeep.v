(** Baking deformations that move nothing: proofs. *)
From Coq Require String.
Import String.StringSyntax.
From Coq Require Import Reals Floats.SpecFloat.
From Flocq Require Import Core.Core IEEE754.BinarySingleNaN.
From Verif Require Import Machine Loops FloatModel BBoxModel PixelModel PixelSpec PixelProofs PixelProofs2 MergeSpec MergeProofs
  AttrModel StreamModel GradeModel DeformModel BakeSpec BakeProofs TransformProofs FloatFacts FloatReal
  RemapSpec RemapProofs RemapReal NodeSpec NodeProofs3.
Local Open Scope string_scope.
Local Open Scope Z_scope.

Lemma list_ext {A} (l k : list A) : zlen l = zlen k -> (forall i, 0 <= i < zlen l -> at_z l i = at_z k i) -> l = k.
Proof.
  revert k. induction l as [|a l IH]; intros [|b k] L H; try reflexivity; unfold zlen in *; cbn [length] in *; try lia.
  pose proof (H 0 ltac:(lia)) as E. injection E as ->. f_equal. apply IH; [lia|]. intros i Hi.
  specialize (H (i + 1) ltac:(lia)). unfold at_z in *. replace (0 <=? i + 1) with true in H by lia.
  replace (0 <=? i) with true by lia. replace (Z.to_nat (i + 1)) with (S (Z.to_nat i)) in H by lia. exact H.
Qed.

Lemma list_eq_dec_nil {A} (l : list A) : {l = []} + {l <> []}.
Proof. destruct l; [now left|right; discriminate]. Qed.

Theorem kept nx p ds blk w h :
  float_picture blk -> bs_w (pb_size blk) = w -> bs_h (pb_size blk) = h -> w <= 2 ^ 22 -> h <= 2 ^ 22 ->
  (forall v, In (DTde4 v) ds -> vi v "enable" <> 1) ->
  (forall x y, 0 <= x < w -> 0 <= y < h ->
     taken_back nx (BBox 0 0 w h) (enabled ds) (centre x, centre y) = Ok (centre x, centre y)) ->
  deform_pixels nx p ds (BBox 0 0 w h) blk (BBox 0 0 w h) = Ok (blk, BBox 0 0 w h).
Proof.
  intros FP Ew Eh Bw Bh NL TB. set (win := BBox 0 0 w h) in *.
  destruct (list_eq_dec_nil (enabled ds)) as [EN|NE].
  { unfold deform_pixels. now rewrite EN. }
  pose proof FP as ((l & Hl) & WF & Hnc & Hw & Hh & F). rewrite Ew, Eh in *.
  assert (CS : coords_small win) by (unfold coords_small, win; cbn [min_x max_x min_y max_y]; lia).
  assert (NE' : forall v, ~ In (DTde4 v) (enabled ds)).
  { intros v I. apply filter_In in I. destruct I as [I J]. apply (NL v I). now apply Z.eqb_eq in J. }
  pose proof (fold_box_plain nx (enabled ds) (bboxf_of win) (bboxf_of win) NE') as FB.
  assert (WE : BBox (f32_floor_as_i32 (fmin_x (bboxf_of win))) (f32_floor_as_i32 (fmin_y (bboxf_of win)))
                    (f32_ceil_as_i32 (fmax_x (bboxf_of win))) (f32_ceil_as_i32 (fmax_y (bboxf_of win))) = win).
  { unfold win. cbn [bboxf_of fmin_x fmin_y fmax_x fmax_y min_x min_y max_x max_y].
    rewrite !floor_of_Z, !ceil_of_Z by (unfold small; lia). reflexivity. }
  destruct (deform_pixels_runs nx p ds win blk win _ NE FP CS FB) as (dst & E); rewrite ?WE.
  { unfold win; cbn [min_x max_x]; lia. }
  { unfold win; cbn [min_y max_y]; lia. }
  { unfold win; cbn [min_x max_x min_y max_y]. rewrite !Z.sub_0_r. exact F. }
  { intros x y Hx Hy. eexists. apply TB; assumption. }
  rewrite WE in E.
  destruct (deform_pixels_moved nx p ds win blk win dst win NE FP CS E) as (_ & _ & Sz & WF' & (l' & Hl') & M);
    try (unfold win; cbn [min_x max_x min_y max_y]; lia).
  rewrite E. do 2 f_equal.
  assert (SZ : pb_size dst = pb_size blk).
  { rewrite Sz. unfold win. cbn [min_x max_x min_y max_y]. rewrite !Z.sub_0_r, <- Ew, <- Eh. now destruct (pb_size blk). }
  assert (LL : l' = l).
  { destruct WF as (_ & _ & _ & L), WF' as (_ & _ & _ & L'). rewrite Hl in L. rewrite Hl' in L'.
    cbn [db_len] in L, L'. rewrite SZ in L'. rewrite Ew, Eh in *. apply list_ext; [congruence|].
    intros i Hi. set (nc := bs_nc (pb_size blk)) in *. assert (Hn : 3 <= nc) by (unfold nc; lia).
    assert (Hi' : 0 <= i < w * h * nc) by (rewrite L' in Hi; exact Hi).
    set (q := i / nc). set (c := i mod nc). set (y := q / w). set (x := q mod w).
    assert (Ei : i = q * nc + c) by (unfold q, c; rewrite Z.mul_comm; apply Z.div_mod; lia).
    assert (Cb : 0 <= c < nc) by (apply Z.mod_pos_bound; lia).
    assert (Eq : q = y * w + x) by (unfold y, x; rewrite Z.mul_comm; apply Z.div_mod; lia).
    assert (Xb : 0 <= x < w) by (apply Z.mod_pos_bound; lia).
    assert (Qb : 0 <= q < w * h).
    { unfold q. split; [apply Z.div_pos; lia|]. apply Z.div_lt_upper_bound; [lia|]. lia. }
    assert (Yb : 0 <= y < h).
    { unfold y. split; [apply Z.div_pos; lia|]. apply Z.div_lt_upper_bound; lia. }
    clearbody q c x y. subst q i.
    destruct (M x y) as (qx & qy & sx & sy & T & P1 & P2 & FE); try (unfold win; cbn [min_x max_x min_y max_y]; lia).
    rewrite TB in T by lia. apply RemapProofs.Ok_inj in T. injection T as <- <-.
    unfold win in P1, P2. cbn [min_x max_x min_y max_y] in P1, P2. rewrite ?Ew in P1. rewrite ?Eh in P2.
    apply own_pixel in P1; [|lia|lia]. apply own_pixel in P2; [|lia|lia]. subst sx sy.
    destruct (FE c Cb) as (v & V1 & V2). unfold pixel_val, offset in V1. rewrite Hl', SZ in V1. rewrite Hl in V2.
    unfold win in V1. cbn [elems min_x max_x min_y max_y] in V1, V2. rewrite !Z.sub_0_r in V1. fold nc in V1, V2. rewrite ?Ew in V2.
    assert (K : forall (k : list spec_float) i, at_z (map EF k) i = Some v -> exists u, at_z k i = Some u /\ v = EF u).
    { intros k i. unfold at_z. destruct (0 <=? i); [|discriminate]. rewrite nth_error_map.
      destruct (nth_error k (Z.to_nat i)) as [u|]; cbn [option_map]; [|intro X; discriminate X]. intro X. exists u. split; [reflexivity|congruence]. }
    apply K in V1, V2. destruct V1 as (u1 & A1 & E1), V2 as (u2 & A2 & E2).
    assert (u1 = u2) by congruence. subst u2. transitivity (Some u1); [exact A1|symmetry; exact A2]. }
  subst l'. destruct dst as [sd dd], blk as [sb db]. cbn [pb_size pb_data] in *. congruence.
Qed.

(** ** Transforms at rest *)
Lemma rest_matrix nx v w :
  exact_at_rest nx -> unit_transform v -> min_x w = 0 -> 0 < max_x w < 2 ^ 24 ->
  unit_matrix (transform_matrix nx v (bboxf_of w) true).
Proof.
  intros (C & S & INV) (I & Z & SX & SY) M0 M1.
  assert (ZF : forall n, In n ["translate_x"; "translate_y"; "rotate"; "rotate_center_x"; "rotate_center_y"] ->
     f32_of_bits (vf v n) = S754_zero false) by (intros n H; now rewrite (Z n H)).
  unfold transform_matrix. rewrite !ZF by (cbn; tauto). rewrite I, SX, SY.
  cbn [negb Z.eqb bboxf_of fmin_x fmax_x]. rewrite M0.
  change (f32_of_bits 1065353216) with f32_one. change (f32_of_Z 0) with (S754_zero false).
  assert (T : exists t, inverse_lerp (S754_zero false) (f32_of_Z (max_x w)) (S754_zero false) = S754_zero t).
  { unfold inverse_lerp. change (f32_sub (S754_zero false) (S754_zero false)) with (S754_zero false).
    destruct (f32_of_small (max_x w)) as (s & m & e & E & _); [unfold small; lia|lia|]. rewrite E.
    replace (f32_sub (S754_finite s m e) (S754_zero false)) with (S754_finite s m e) by reflexivity.
    apply zero_div; [exact Logic.I|discriminate]. }
  destruct T as [t ->]. unfold transform_srt.
  set (A := rotate_2d nx (S754_zero false) (S754_zero false) (S754_zero false)).
  assert (EA : A = [f32_one; S754_zero true; S754_zero false; S754_zero false;
                    S754_zero false; f32_one; S754_zero false; S754_zero false;
                    S754_zero false; S754_zero false; f32_one; S754_zero false;
                    S754_zero false; S754_zero false; S754_zero false; f32_one]).
  { unfold A, rotate_2d. change (f32_div (f32_mul (S754_zero false) f32_pi) (f32_of_Z 180)) with (S754_zero false).
    rewrite C, S. reflexivity. }
  rewrite EA. clear EA A.
  match goal with |- context [nx_inverse nx ?m] => set (mm := m) end.
  assert (U : unit_matrix mm).
  { intros i j Hi Hj. subst mm. destruct t;
    (destruct i as [|[|[|[|i]]]]; [..|lia]; destruct j as [|[|[|[|j]]]]; try lia);
    cbn [Nat.eqb]; first [vm_compute; reflexivity | exists true; vm_compute; reflexivity | exists false; vm_compute; reflexivity]. }
  specialize (INV mm U). destruct (nx_inverse nx mm); assumption.
Qed.

Lemma rest_point m x y : unit_matrix m -> plain_value x -> plain_value y ->
  let '(x', y', _, _) := mat_vec m (x, y, f32_zero, f32_one) in same_number x' x /\ same_number y' y.
Proof.
  intros U [PX1 PX2] [PY1 PY2]. unfold mat_vec, mat_row. unfold unit_matrix in U.
  rewrite (U 0 0)%nat, (U 1 1)%nat by lia.
  destruct (U 0 1)%nat as [a ->]; [lia..|]. destruct (U 0 2)%nat as [b ->]; [lia..|]. destruct (U 0 3)%nat as [c ->]; [lia..|].
  destruct (U 1 0)%nat as [d ->]; [lia..|]. destruct (U 1 2)%nat as [e ->]; [lia..|]. destruct (U 1 3)%nat as [f ->]; [lia..|].
  unfold f32_one. rewrite (f32_one_mul x), (f32_one_mul y) by assumption. unfold f32_zero.
  destruct (mul_zero_l a y PY2) as [ty ->]. destruct (mul_zero_l d x PX2) as [tx ->].
  assert (ZZ : forall q r, exists u, f32_mul (S754_zero q) (S754_zero r) = S754_zero u) by (intros [] []; eexists; reflexivity).
  assert (ZO : forall q, f32_mul (S754_zero q) (f32_of_Z 1) = S754_zero q) by (intros []; reflexivity).
  rewrite !ZO. destruct (ZZ b false) as [zb ->]. destruct (ZZ e false) as [zf ->].
  split.
  - eapply same_trans; [apply add_zero_r'|]. eapply same_trans; [apply add_zero_r'|]. apply add_zero_r'.
  - eapply same_trans; [apply add_zero_r'|]. eapply same_trans; [apply add_zero_r'|]. apply add_zero_l'.
Qed.

Lemma real_inj x y : valid32 x -> valid32 y -> fin32 x -> fin32 y -> R32 x = R32 y -> R32 x <> 0%R -> x = y.
Proof.
  intros Vx Vy Fx Fy E N. destruct (to_bf x Vx) as (a & -> & Ra & Fa), (to_bf y Vy) as (b & -> & Rb & Fb).
  f_equal. apply B2R_inj.
  - destruct a as [s|s| |s m e Q]; try reflexivity; [|discriminate..]. rewrite Ra in N. now elim N.
  - destruct b as [s|s| |s m e Q]; try reflexivity; [|discriminate..]. rewrite E, Rb in N. now elim N.
  - congruence.
Qed.

Lemma fin_finite x : fin32 x -> f32_finite x.
Proof. destruct x; intro H; try discriminate; exact I. Qed.

(** Moving a centre to the default pivot and back. *)
Lemma centre_pivot k z : 0 <= k < 2 ^ 22 ->
  plain_value (f32_sub (centre k) half32) /\
  (same_number z (f32_sub (centre k) half32) -> f32_add z half32 = centre k).
Proof.
  intro H. destruct (centre_real k ltac:(lia)) as (V & F & E).
  destruct (sub_real (centre k) half32) as (F' & E'); auto; try reflexivity.
  { rewrite E, half_real. apply (in_range_le _ k); [lia|]. replace (IZR k + / 2 - / 2)%R with (IZR k) by ring.
    rewrite Rabs_pos_eq by (apply IZR_le; lia). apply Rle_refl. }
  assert (V' : valid32 (f32_sub (centre k) half32)) by now apply sub_valid.
  rewrite E, half_real in E'. replace (IZR k + / 2 - / 2)%R with (IZR k) in E' by ring. rewrite RN_Z in E' by lia.
  set (d := f32_sub (centre k) half32) in *. clearbody d.
  split; [split; [exact V'|now apply fin_finite]|]. intro Sm.
  assert (Z : valid32 z /\ fin32 z /\ R32 z = IZR k).
  { destruct Sm as [->|(s & t & -> & Ed)]; [auto|]. split; [reflexivity|]. split; [reflexivity|].
    rewrite <- E', Ed. reflexivity. }
  destruct Z as (Vz & Fz & Ez).
  destruct (add_real z half32) as (Fa & Ea); auto; try reflexivity.
  { rewrite Ez, half_real. apply half_range. lia. }
  rewrite Ez, half_real in Ea. unfold RN in Ea.
  rewrite round_generic in Ea; [|apply _|apply generic_half; lia].
  apply real_inj; auto; [now apply add_valid|congruence|].
  rewrite Ea. assert (0 <= IZR k)%R by (apply IZR_le; lia). apply Rgt_not_eq. apply Rlt_gt.
  apply Rplus_le_lt_0_compat; [assumption|]. apply Rinv_0_lt_compat. exact Rlt_0_2.
Qed.

(** A transform at rest with its default pivot. *)
Definition default_transform (d : deformer) : Prop :=
  exists v, d = DTransform v /\ unit_transform v /\ vf v "pivot_x" = 1056964608 /\ vf v "pivot_y" = 1056964608.

Lemma rest_taken_back nx w h ds x y :
  exact_at_rest nx -> Forall default_transform ds -> 1 <= w <= 2 ^ 22 -> h <= 2 ^ 22 -> 0 <= x < w -> 0 <= y < h ->
  taken_back nx (BBox 0 0 w h) ds (centre x, centre y) = Ok (centre x, centre y).
Proof.
  intros ER FD Hw Hh Hx Hy. induction FD as [|d ds (v & -> & U & PX & PY) FD IH]; [reflexivity|].
  cbn [taken_back deform_point bind]. unfold transform_apply.
  rewrite PX, PY. change (f32_of_bits 1056964608) with half32.
  pose proof (rest_matrix nx v (BBox 0 0 w h) ER U eq_refl ltac:(cbn [max_x]; lia)) as UM.
  destruct (centre_pivot x (S754_zero false) ltac:(lia)) as (Px & _).
  destruct (centre_pivot y (S754_zero false) ltac:(lia)) as (Py & _).
  pose proof (rest_point _ _ _ UM Px Py) as RP.
  destruct (mat_vec _ _) as [[[x' y'] z'] w']. destruct RP as (Rx & Ry).
  destruct (centre_pivot x x' ltac:(lia)) as (_ & ->); [|exact Rx].
  destruct (centre_pivot y y' ltac:(lia)) as (_ & ->); [|exact Ry]. exact IH.
Qed.

Theorem rest_kept nx p ds blk w h :
  exact_at_rest nx -> Forall default_transform ds ->
  float_picture blk -> bs_w (pb_size blk) = w -> bs_h (pb_size blk) = h -> w <= 2 ^ 22 -> h <= 2 ^ 22 ->
  deform_pixels nx p ds (BBox 0 0 w h) blk (BBox 0 0 w h) = Ok (blk, BBox 0 0 w h).
Proof.
  intros ER FD FP Ew Eh Bw Bh. rewrite Forall_forall in FD. apply kept; auto.
  - intros v I. destruct (FD _ I) as (? & E & _). discriminate.
  - intros x y Hx Hy. apply rest_taken_back; auto; try lia.
    rewrite Forall_forall. intros d I. apply FD. unfold enabled in I. apply filter_In in I. apply I.
Qed.

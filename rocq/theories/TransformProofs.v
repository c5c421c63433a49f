(** The transform deformer: proofs. *)
From Coq Require String.
Import String.StringSyntax.
From Coq Require Import Floats.SpecFloat.
From Verif Require Import Machine FloatModel BBoxModel PixelModel MergeModel MergeSpec MergeProofs EnumModel AttrModel
  StreamModel GradeModel DeformModel BakeModel BakeSpec BakeProofs FloatFacts.
Local Open Scope string_scope.

(** Only the horizontal extent of the window matters. *)
Theorem vertical_extent_ignored nx v win win' inverse :
  fmin_x win = fmin_x win' -> fmax_x win = fmax_x win' ->
  transform_matrix nx v win inverse = transform_matrix nx v win' inverse.
Proof. intros H K. unfold transform_matrix. rewrite H, K. reflexivity. Qed.

(** Rotating a point of the image plane: the centre has no effect. *)
Theorem centre_ignored nx cx cy degree x y :
  let m := rotate_2d nx cx cy degree in
  let angle := f32_div (f32_mul degree f32_pi) (f32_of_Z 180) in
  let c := nx_cos nx angle in
  let s := nx_sin nx angle in
  f32_finite (mat m 0 2) -> f32_finite (mat m 1 2) ->
  same_number (mat_row m 0 (x, y, f32_zero, f32_one)) (f32_add (f32_mul c x) (f32_mul (f32_neg s) y)) /\
  same_number (mat_row m 1 (x, y, f32_zero, f32_one)) (f32_add (f32_mul s x) (f32_mul c y)).
Proof.
  intros m angle c s F0 F1. unfold mat_row.
  assert (Z3 : forall i, (i < 2)%nat -> f32_mul (mat m i 3) f32_one = S754_zero false).
  { intros i Hi. destruct i as [|[|i]]; [| |lia]; vm_compute; reflexivity. }
  rewrite !Z3 by lia. unfold f32_zero.
  destruct (mul_zero_r false _ F0) as [t ->]. destruct (mul_zero_r false _ F1) as [u ->].
  split; (eapply same_trans; [apply add_zero_r'|]); apply add_zero_r'.
Qed.

(** A transform operation with nothing set (but the pivot). *)
Definition unit_transform (v : vals) : Prop :=
  vi v "invert" = 0 /\
  (forall n, In n ["translate_x"; "translate_y"; "rotate"; "rotate_center_x"; "rotate_center_y"] -> vf v n = 0) /\
  vf v "scale_x" = 1065353216 /\ vf v "scale_y" = 1065353216.

Lemma add_same a b c : same_number a b -> same_number (f32_add a c) (f32_add b c).
Proof.
  intros [->|(s & t & -> & ->)]; [left; reflexivity|].
  eapply same_trans; [apply add_zero_l'|]. apply same_sym, add_zero_l'.
Qed.

Lemma zero_div x : f32_finite x -> (forall s, x <> S754_zero s) ->
  exists t, f32_div (S754_zero false) x = S754_zero t.
Proof. destruct x as [s|s| |s m e]; intros F N; try contradiction; [elim (N s); reflexivity|eexists; reflexivity]. Qed.

Theorem unit_transform_identity nx v w x y :
  unit_transform v -> nx_cos nx (S754_zero false) = f32_one -> nx_sin nx (S754_zero false) = S754_zero false ->
  min_x w = 0 -> 0 < max_x w < 2 ^ 24 ->
  let px := f32_of_bits (vf v "pivot_x") in
  let py := f32_of_bits (vf v "pivot_y") in
  plain_value (f32_sub x px) -> plain_value (f32_sub y py) ->
  let '(x', y') := transform_apply nx v (bboxf_of w) false (x, y) in
  same_number x' (f32_add (f32_sub x px) px) /\ same_number y' (f32_add (f32_sub y py) py).
Proof.
  intros (I & Z & SX & SY) C S M0 M1 px py [PX1 PX2] [PY1 PY2].
  assert (ZF : forall n, In n ["translate_x"; "translate_y"; "rotate"; "rotate_center_x"; "rotate_center_y"] ->
     f32_of_bits (vf v n) = S754_zero false) by (intros n H; now rewrite (Z n H)).
  unfold transform_apply, transform_matrix. fold px py.
  rewrite !ZF by (cbn; tauto). rewrite I, SX, SY.
  cbn [negb Z.ltb Z.compare bboxf_of fmin_x fmax_x]. rewrite M0.
  change (f32_of_bits 1065353216) with f32_one. change (f32_of_Z 0) with (S754_zero false).
  assert (T : exists t, inverse_lerp (S754_zero false) (f32_of_Z (max_x w)) (S754_zero false) = S754_zero t).
  { unfold inverse_lerp. change (f32_sub (S754_zero false) (S754_zero false)) with (S754_zero false).
    destruct (f32_of_small (max_x w)) as (s & m & e & E & _); [unfold small; lia|lia|]. rewrite E.
    replace (f32_sub (S754_finite s m e) (S754_zero false)) with (S754_finite s m e) by reflexivity.
    apply zero_div; [exact Logic.I|discriminate]. }
  destruct T as [t ->]. unfold transform_srt.
  set (A := rotate_2d nx (S754_zero false) (S754_zero false) (S754_zero false)).
  assert (EA : A = [f32_one; S754_zero true; S754_zero false; S754_zero false;
                    S754_zero false; f32_one; S754_zero false; S754_zero false;
                    S754_zero false; S754_zero false; f32_one; S754_zero false;
                    S754_zero false; S754_zero false; S754_zero false; f32_one]).
  { unfold A, rotate_2d. change (f32_div (f32_mul (S754_zero false) f32_pi) (f32_of_Z 180)) with (S754_zero false).
    rewrite C, S. reflexivity. }
  rewrite EA. clear EA A.
  set (x0 := f32_sub x px) in *. set (y0 := f32_sub y py) in *. clearbody x0 y0 px py.
  match goal with |- context [mat_vec ?m _] => set (mm := m) end.
  assert (EM : exists a b c d, mm = [f32_one; S754_zero a; S754_zero b; S754_zero c;
                                     S754_zero d; f32_one; S754_zero false; S754_zero c;
                                     S754_zero false; S754_zero false; f32_one; S754_zero false;
                                     S754_zero false; S754_zero false; S754_zero false; f32_one]).
  { subst mm. destruct t; eexists _, _, _, _; vm_compute; reflexivity. }
  destruct EM as (a & b & c & d & ->). unfold mat_vec, mat_row, mat. cbn [nth Nat.mul Nat.add].
  unfold f32_one. rewrite (f32_one_mul x0), (f32_one_mul y0) by assumption. unfold f32_zero.
  destruct (mul_zero_l a y0 PY2) as [ty ->]. destruct (mul_zero_l d x0 PX2) as [tx ->].
  assert (ZZ : forall q r, exists u, f32_mul (S754_zero q) (S754_zero r) = S754_zero u) by (intros [] []; eexists; reflexivity).
  assert (ZO : forall q, f32_mul (S754_zero q) (f32_of_Z 1) = S754_zero q) by (intros []; reflexivity).
  rewrite !ZO. destruct (ZZ b false) as [zb ->]. destruct (ZZ false false) as [zf ->].
  split; apply add_same.
  - eapply same_trans; [apply add_zero_r'|]. eapply same_trans; [apply add_zero_r'|]. apply add_zero_r'.
  - eapply same_trans; [apply add_zero_r'|]. eapply same_trans; [apply add_zero_r'|]. apply add_zero_l'.
Qed.

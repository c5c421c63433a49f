(** Grading and baking: proofs. *)
From Coq Require String.
Import String.StringSyntax.
From Coq Require Import Floats.SpecFloat.
From Verif Require Import Machine FloatModel BBoxModel PixelModel MergeModel MergeSpec MergeProofs EnumModel AttrModel
  StreamModel GradeModel DeformModel BakeModel BakeSpec.
Local Open Scope string_scope.

(* ------------------------------ one value ------------------------------ *)

Lemma same_sym a b : same_number a b -> same_number b a.
Proof. intros [->|(s & t & -> & ->)]; [left; reflexivity|right; eauto]. Qed.
Lemma same_trans a b c : same_number a b -> same_number b c -> same_number a c.
Proof.
  intros [->|(s & t & -> & ->)] H; [exact H|]. destruct H as [<-|(s' & t' & E & ->)]; right; eauto.
Qed.
Lemma same_nan_l b : same_number S754_nan b -> b = S754_nan.
Proof. intros [<-|(s & t & E & _)]; [reflexivity|discriminate]. Qed.
Lemma add_zero_l' s v : same_number (f32_add (S754_zero s) v) v.
Proof. destruct v as [t|t| |t m e]; try (apply add_zero_l; discriminate). left. reflexivity. Qed.
Lemma add_zero_r' s v : same_number (f32_add v (S754_zero s)) v.
Proof. destruct v as [t|t| |t m e]; try (apply add_zero_r; discriminate). left. reflexivity. Qed.

Lemma graded_value_eq powf o c v : graded_value powf o c v =
  grade_single powf v (param o "black_point" c) (param o "white_point" c) (param o "lift" c) (param o "gain" c)
    (param o "multiply" c) (param o "offset" c) (param o "gamma" c) (negb (vi o "reverse" =? 0)).
Proof.
  unfold graded_value, grade_single. fold (line_slope o c). fold (line_shift o c). cbv zeta. destruct (vi o "reverse" =? 0); [reflexivity|].
  cbn [negb]. destruct (f32_eq (line_slope o c) f32_one), (f32_eq (line_shift o c) f32_zero); cbn [negb orb andb];
    unfold line_undone; cbv zeta; try (destruct (f32_eq (line_slope o c) f32_zero); reflexivity).
  unfold power_undone. destruct (f32_le (param o "gamma" c) f32_zero); [reflexivity|].
  destruct (f32_eq (param o "gamma" c) f32_one); cbn [negb orb]; [reflexivity|]. destruct (f32_le v f32_zero); reflexivity.
Qed.

Lemma blended_off powf o c v : process o c = 0 -> f32_finite (f32_of_bits (vf o "mix")) ->
  f32_finite (graded_value powf o c v) -> f32_ok v -> same_number (blended powf o c v) v.
Proof.
  intros P M G V. unfold blended. rewrite P. change (f32_of_Z 0) with (S754_zero false).
  destruct (mul_zero_l false _ M) as [s ->]. destruct (mul_zero_r s _ G) as [t ->].
  assert (H : f32_sub f32_one (S754_zero s) = f32_of_Z 1) by (destruct s; vm_compute; reflexivity).
  rewrite H, f32_mul_one by exact V. apply add_zero_l'.
Qed.
Lemma blended_on powf o c v : process o c = 1 -> f32_of_bits (vf o "mix") = f32_one ->
  f32_ok (graded_value powf o c v) -> f32_finite v -> same_number (blended powf o c v) (graded_value powf o c v).
Proof.
  intros P M G V. unfold blended. rewrite P, M. change (f32_mul (f32_of_Z 1) f32_one) with (f32_of_Z 1).
  rewrite f32_mul_one by exact G. change (f32_sub f32_one (f32_of_Z 1)) with (S754_zero false).
  destruct (mul_zero_r false _ V) as [t ->]. apply add_zero_r'.
Qed.

(* ------------------------------ buffers ------------------------------ *)

Lemma flat4_of n (l : list f32) : length l = (n * 4)%nat -> exists ps, l = flat4 ps /\ length ps = n.
Proof.
  revert l. induction n as [|n IH]; intros l H.
  - destruct l; [|discriminate]. exists []. auto.
  - destruct l as [|r [|g [|b [|a l]]]]; try discriminate. destruct (IH l) as (ps & -> & L); [cbn in H; lia|].
    exists ((r, g, b, a) :: ps). split; [reflexivity|]. cbn. now rewrite L.
Qed.
Lemma flat3_of n (l : list f32) : length l = (n * 3)%nat -> exists ps, l = flat3 ps /\ length ps = n.
Proof.
  revert l. induction n as [|n IH]; intros l H.
  - destruct l; [|discriminate]. exists []. auto.
  - destruct l as [|r [|g [|b l]]]; try discriminate. destruct (IH l) as (ps & -> & L); [cbn in H; lia|].
    exists ((r, g, b) :: ps). split; [reflexivity|]. cbn. now rewrite L.
Qed.
Lemma map4_flat f ps : map4 f (flat4 ps) = flat4 (map f ps).
Proof.
  induction ps as [|[[[r g] b] a] ps IH]; [reflexivity|].
  change (flat4 ((r, g, b, a) :: ps)) with (r :: g :: b :: a :: flat4 ps). cbn [map4 map].
  destruct (f (r, g, b, a)) as [[[r' g'] b'] a']. rewrite IH. reflexivity.
Qed.
Lemma map3_flat f ps : map3 (fun r g b => f (r, g, b)) (flat3 ps) = flat3 (map f ps).
Proof.
  induction ps as [|[[r g] b] ps IH]; [reflexivity|].
  change (flat3 ((r, g, b) :: ps)) with (r :: g :: b :: flat3 ps). cbn [map3 map].
  destruct (f (r, g, b)) as [[r' g'] b']. rewrite IH. reflexivity.
Qed.

Lemma per_pixel_4 f ps : per_pixel 4 f (flat4 ps) = Ok (flat4 (map f ps)).
Proof. unfold per_pixel. cbn [Z.eqb Pos.eqb]. now rewrite map4_flat. Qed.
Lemma per_pixel_3 f ps : per_pixel 3 f (flat3 ps) = Ok (flat3 (map (opaque_step f) ps)).
Proof.
  unfold per_pixel. cbn [Z.eqb Pos.eqb]. rewrite <- map3_flat. reflexivity.
Qed.

Lemma per_pixel_1 f l : per_pixel 1 f l = Ok (map (alpha_step f) l).
Proof. reflexivity. Qed.
Lemma through_vec m v : mat_vec m v = through m v.
Proof. destruct v as [[[r g] b] a]. reflexivity. Qed.

Lemma op_work o : workingb o =
  negb (vi o "process_r" =? 0) || negb (vi o "process_g" =? 0) || negb (vi o "process_b" =? 0) || negb (vi o "process_a" =? 0).
Proof. reflexivity. Qed.

Section G.
Variable powf : f32 -> f32 -> f32.

Lemma grade_is_op o v : workingb o = true ->
  grade_pixel powf (op_r o) (op_g o) (op_b o) (op_a o) (f32_of_bits (vf o "mix")) (negb (vi o "reverse" =? 0)) v
  = op_pixel powf o v.
Proof. intro W. destruct v as [[[r g] b] a]. unfold op_pixel. rewrite W. unfold blended. rewrite !graded_value_eq. reflexivity. Qed.

Lemma map_id_ext {A} (f : A -> A) l : (forall a, f a = a) -> map f l = l.
Proof. intro H. induction l as [|a l IH]; [reflexivity|]. cbn. now rewrite H, IH. Qed.

Lemma apply_grade_4 o ps : vi o "enable" = 1 -> apply_grade powf o 4 (flat4 ps) = Ok (flat4 (map (op_pixel powf o) ps)).
Proof.
  intro E. unfold apply_grade. rewrite E, <- op_work. cbn [Z.eqb Pos.eqb andb].
  destruct (workingb o) eqn:W; cbn [negb].
  - rewrite per_pixel_4. do 2 f_equal. apply map_ext. intro v. now apply grade_is_op.
  - rewrite map_id_ext; [reflexivity|]. intros [[[r g] b] a]. unfold op_pixel. now rewrite W.
Qed.
Lemma apply_grade_3 o ps : vi o "enable" = 1 ->
  apply_grade powf o 3 (flat3 ps) = Ok (flat3 (map (opaque_step (op_pixel powf o)) ps)).
Proof.
  intro E. unfold apply_grade. rewrite E, <- op_work. cbn [Z.eqb Pos.eqb andb].
  destruct (workingb o) eqn:W; cbn [negb].
  - rewrite per_pixel_3. do 2 f_equal. apply map_ext. intros [[r g] b]. unfold opaque_step.
    now rewrite grade_is_op by exact W.
  - rewrite map_id_ext; [reflexivity|]. intros [[r g] b]. unfold opaque_step, op_pixel. now rewrite W.
Qed.

Lemma apply_grade_1 o l : vi o "enable" = 1 ->
  apply_grade powf o 1 l = Ok (map (alpha_step (op_pixel powf o)) l).
Proof.
  intro E. unfold apply_grade. rewrite E, <- op_work. cbn [Z.eqb Pos.eqb andb].
  destruct (workingb o) eqn:W; cbn [negb].
  - rewrite per_pixel_1. f_equal. apply map_ext. intro a. unfold alpha_step. now rewrite grade_is_op by exact W.
  - rewrite map_id_ext; [reflexivity|]. intro a. unfold alpha_step, op_pixel. now rewrite W.
Qed.

Lemma ops_4 ops : forall ps,
  apply_each (fun o => apply_grade powf o 4) (filter (fun o => vi o "enable" =? 1) ops) (flat4 ps) =
  Ok (flat4 (map (fun v => fold_left (fun v o => if vi o "enable" =? 1 then op_pixel powf o v else v) ops v) ps)).
Proof.
  induction ops as [|o ops IH]; intro ps.
  - cbn [filter apply_each fold_left]. now rewrite map_id.
  - cbn [filter]. destruct (vi o "enable" =? 1) eqn:E.
    + cbn [apply_each]. rewrite apply_grade_4 by now apply Z.eqb_eq. cbn [bind]. rewrite IH, map_map.
      do 2 f_equal. apply map_ext. intro v. cbn [fold_left]. now rewrite E.
    + rewrite IH. do 2 f_equal. apply map_ext. intro v. cbn [fold_left]. now rewrite E.
Qed.
Lemma ops_3 ops : forall ps,
  apply_each (fun o => apply_grade powf o 3) (filter (fun o => vi o "enable" =? 1) ops) (flat3 ps) =
  Ok (flat3 (map (fun v => fold_left (fun v o => if vi o "enable" =? 1 then opaque_step (op_pixel powf o) v else v) ops v) ps)).
Proof.
  induction ops as [|o ops IH]; intro ps.
  - cbn [filter apply_each fold_left]. now rewrite map_id.
  - cbn [filter]. destruct (vi o "enable" =? 1) eqn:E.
    + cbn [apply_each]. rewrite apply_grade_3 by now apply Z.eqb_eq. cbn [bind]. rewrite IH, map_map.
      do 2 f_equal. apply map_ext. intro v. cbn [fold_left]. now rewrite E.
    + rewrite IH. do 2 f_equal. apply map_ext. intro v. cbn [fold_left]. now rewrite E.
Qed.
Lemma ops_1 ops : forall l,
  apply_each (fun o => apply_grade powf o 1) (filter (fun o => vi o "enable" =? 1) ops) l =
  Ok (map (fun a => fold_left (fun a o => if vi o "enable" =? 1 then alpha_step (op_pixel powf o) a else a) ops a) l).
Proof.
  induction ops as [|o ops IH]; intro l.
  - cbn [filter apply_each fold_left]. now rewrite map_id.
  - cbn [filter]. destruct (vi o "enable" =? 1) eqn:E.
    + cbn [apply_each]. rewrite apply_grade_1 by now apply Z.eqb_eq. cbn [bind]. rewrite IH, map_map.
      f_equal. apply map_ext. intro v. cbn [fold_left]. now rewrite E.
    + rewrite IH. f_equal. apply map_ext. intro v. cbn [fold_left]. now rewrite E.
Qed.
End G.

Section B.
Variable p : profile.
Variable nx : numerics.
Variable convert : list f32 -> Z -> Z -> Z -> Z -> bool -> list Z -> list Z -> option (list f32).
Notation bake := (do_process p nx convert).

(** Colour operations of a whole image. *)
Theorem colorgrade_4 w h m ops ps :
  bake_colorgrade nx (PB (BS w h 4) (DF32 (flat4 ps))) m ops =
  Ok (PB (BS w h 4) (DF32 (flat4 (map (pixel_meaning (nx_powf nx) m ops) ps)))).
Proof.
  unfold bake_colorgrade, apply_color_matrix, apply_color_ops. cbn [pb_size pb_data bs_nc slice_f32 bind].
  change (4 <=? 0) with false. cbn [bind]. rewrite per_pixel_4. cbn [bind]. rewrite ops_4. cbn [bind].
  rewrite map_map. do 4 f_equal. apply map_ext. intro v. unfold pixel_meaning. now rewrite through_vec.
Qed.
Theorem colorgrade_3 w h m ops ps :
  bake_colorgrade nx (PB (BS w h 3) (DF32 (flat3 ps))) m ops =
  Ok (PB (BS w h 3) (DF32 (flat3 (map (rgb_meaning (nx_powf nx) m ops) ps)))).
Proof.
  unfold bake_colorgrade, apply_color_matrix, apply_color_ops. cbn [pb_size pb_data bs_nc slice_f32 bind].
  change (3 <=? 0) with false. cbn [bind]. rewrite per_pixel_3. cbn [bind]. rewrite ops_3. cbn [bind].
  rewrite map_map. reflexivity.
Qed.
Theorem colorgrade_1 w h m ops l :
  bake_colorgrade nx (PB (BS w h 1) (DF32 l)) m ops =
  Ok (PB (BS w h 1) (DF32 (map (alpha_meaning (nx_powf nx) m ops) l))).
Proof.
  unfold bake_colorgrade, apply_color_matrix, apply_color_ops. cbn [pb_size pb_data bs_nc slice_f32 bind].
  change (1 <=? 0) with false. cbn [bind]. rewrite per_pixel_1. cbn [bind]. rewrite ops_1. cbn [bind].
  rewrite map_map. reflexivity.
Qed.

(** What is left on the stream. *)
Theorem bake_consumes blk disp data sp s from to ty r :
  bake BakeAll blk disp data sp s from to ty = Ok r ->
  bk_stream r = Stream (st_state s) (st_hash s) (st_display s) (st_data s) identity4 (st_spec s) (st_block s) [] [].
Proof.
  unfold do_process. destruct (bake_colorspace convert blk sp from linear_name) as [[b1 s1]|]; [|discriminate].
  cbn [bind]. unfold bake_stream_colorgrade.
  destruct (bake_colorgrade _ _ _ _) as [b2|]; [|discriminate]. cbn [bind].
  destruct (deform_pixels _ _ _ _ _ _) as [[b3 d3]|]; [|discriminate]. cbn [bind].
  destruct (bake_colorspace _ _ _ _ _) as [[b4 s4]|]; [|discriminate]. cbn [bind].
  destruct (pb_convert _ _); [|discriminate]. cbn [bind]. intros [= <-]. reflexivity.
Qed.

Lemma bytes_eqb_refl l : bytes_eqb l l = true.
Proof. induction l; cbn; [reflexivity|]. now rewrite Z.eqb_refl. Qed.
Lemma bytes_eqb_true l l' : bytes_eqb l l' = true -> l = l'.
Proof.
  revert l'. induction l as [|a l IH]; intros [|b l']; try discriminate; [reflexivity|]. cbn. intro H.
  apply andb_prop in H. destruct H as [H K]. apply Z.eqb_eq in H. f_equal; auto.
Qed.

Lemma set_color_space_same sp : sp_color_space sp = linear_name -> set_color_space sp linear_name = sp.
Proof. intro H. destruct sp. cbn in *. now subst. Qed.

Lemma pb_convert_f32 b l : pb_convert (PB b (DF32 l)) Float32 = Ok (PB b (DF32 l)).
Proof. reflexivity. Qed.
Lemma deform_f32 ds disp b l data blk d :
  deform_pixels nx p ds disp (PB b (DF32 l)) data = Ok (blk, d) -> exists b' l', blk = PB b' (DF32 l').
Proof.
  unfold deform_pixels. destruct (enabled ds) as [|e es]; [intros [= <- _]; eauto|].
  destruct (fold_box _ _ _ _); [|discriminate]. cbn [bind].
  destruct (width_i32 _ _); [|discriminate]. cbn [bind].
  destruct (height_i32 _ _); [|discriminate]. cbn [bind].
  destruct (pb_resize _ _ _ _); [|discriminate]. cbn [bind].
  destruct (_ || _); [discriminate|].
  destruct (apply_each _ _ _); [|discriminate]. cbn [bind pb_data].
  destruct (negb _); [discriminate|].
  destruct (i32_of _ _); [|discriminate]. cbn [bind].
  destruct (i32_of _ _); [|discriminate]. cbn [bind].
  destruct (i32_of _ _); [|discriminate]. cbn [bind].
  destruct (remap_pixels _ _ _ _ _ _ _ _ _ _ _); [|discriminate]. cbn [bind]. intros [= <- _]. eauto.
Qed.

Lemma bake_linear w h nc l l' disp data sp s :
  bake_colorgrade nx (PB (BS w h nc) (DF32 l)) (st_matrix s) (st_ops s) = Ok (PB (BS w h nc) (DF32 l')) ->
  bake BakeAll (PB (BS w h nc) (DF32 l)) disp data sp s linear_name linear_name Float32 =
  let* (blk, d) := deform_pixels nx p (st_deformers s) disp (PB (BS w h nc) (DF32 l')) data in
  Ok (Baked blk d (set_color_space sp linear_name)
        (Stream (st_state s) (st_hash s) (st_display s) (st_data s) identity4 (st_spec s) (st_block s) [] [])).
Proof.
  intro G. unfold do_process, bake_colorspace. rewrite pb_convert_f32. cbn [bind].
  rewrite bytes_eqb_refl. cbn [bind]. unfold bake_stream_colorgrade. rewrite G. cbn [bind].
  cbn [st_deformers clear_color_ops set_color_matrix].
  destruct (deform_pixels _ _ _ _ _ _) as [[b3 d3]|] eqn:DP; [|reflexivity]. cbn [bind].
  destruct (deform_f32 _ _ _ _ _ _ _ DP) as (b' & lx & ->).
  rewrite pb_convert_f32. cbn [bind]. rewrite pb_convert_f32. cbn [bind]. reflexivity.
Qed.

(** Linear float pixels: matrix, operations in order, then deformers. *)
Theorem bake_order_4 w h ps disp data sp s :
  bake BakeAll (PB (BS w h 4) (DF32 (flat4 ps))) disp data sp s linear_name linear_name Float32 =
  let* (blk, d) := deform_pixels nx p (st_deformers s) disp
                     (PB (BS w h 4) (DF32 (flat4 (map (pixel_meaning (nx_powf nx) (st_matrix s) (st_ops s)) ps)))) data in
  Ok (Baked blk d (set_color_space sp linear_name)
        (Stream (st_state s) (st_hash s) (st_display s) (st_data s) identity4 (st_spec s) (st_block s) [] [])).
Proof. apply bake_linear, colorgrade_4. Qed.
Theorem bake_order_3 w h ps disp data sp s :
  bake BakeAll (PB (BS w h 3) (DF32 (flat3 ps))) disp data sp s linear_name linear_name Float32 =
  let* (blk, d) := deform_pixels nx p (st_deformers s) disp
                     (PB (BS w h 3) (DF32 (flat3 (map (rgb_meaning (nx_powf nx) (st_matrix s) (st_ops s)) ps)))) data in
  Ok (Baked blk d (set_color_space sp linear_name)
        (Stream (st_state s) (st_hash s) (st_display s) (st_data s) identity4 (st_spec s) (st_block s) [] [])).
Proof. apply bake_linear, colorgrade_3. Qed.

Theorem bake_order_1 w h l disp data sp s :
  bake BakeAll (PB (BS w h 1) (DF32 l)) disp data sp s linear_name linear_name Float32 =
  let* (blk, d) := deform_pixels nx p (st_deformers s) disp
                     (PB (BS w h 1) (DF32 (map (alpha_meaning (nx_powf nx) (st_matrix s) (st_ops s)) l))) data in
  Ok (Baked blk d (set_color_space sp linear_name)
        (Stream (st_state s) (st_hash s) (st_display s) (st_data s) identity4 (st_spec s) (st_block s) [] [])).
Proof. apply bake_linear, colorgrade_1. Qed.

(* ------------------------------ second bake ------------------------------ *)

Definition same4 (v w : rgba) : Prop :=
  let '(r, g, b, a) := v in let '(r', g', b', a') := w in
  same_number r r' /\ same_number g g' /\ same_number b b' /\ same_number a a'.

Lemma f32_one_mul v : f32_ok v -> f32_mul (f32_of_Z 1) v = v.
Proof.
  intro H. rewrite <- (f32_mul_one v H) at 2.
  destruct v as [s|s| |s m e]; try (destruct s; reflexivity); [reflexivity|].
  change (f32_of_Z 1) with (S754_finite false 8388608 (-23)). unfold f32_mul, SFmul.
  rewrite xorb_comm, Pos.mul_comm, Z.add_comm. reflexivity.
Qed.

Lemma zero_sum s t : exists u, f32_add (S754_zero s) (S754_zero t) = S754_zero u.
Proof. destruct s, t; eexists; reflexivity. Qed.

Theorem identity_pixel r g b a :
  plain_value r -> plain_value g -> plain_value b -> plain_value a ->
  same4 (mat_vec identity4 (r, g, b, a)) (r, g, b, a).
Proof.
  intros [R1 R2] [G1 G2] [B1 B2] [A1 A2]. unfold mat_vec, mat_row, same4, mat, identity4.
  cbn [nth Nat.mul Nat.add]. unfold f32_one, f32_zero. rewrite !f32_one_mul by assumption.
  destruct (mul_zero_l false r R2) as [sr ->]. destruct (mul_zero_l false g G2) as [sg ->].
  destruct (mul_zero_l false b B2) as [sb ->]. destruct (mul_zero_l false a A2) as [sa ->].
  repeat split.
  - eapply same_trans; [apply add_zero_r'|]. eapply same_trans; [apply add_zero_r'|]. apply add_zero_r'.
  - eapply same_trans; [apply add_zero_r'|]. eapply same_trans; [apply add_zero_r'|]. apply add_zero_l'.
  - eapply same_trans; [apply add_zero_r'|]. destruct (zero_sum sr sg) as [u ->]. apply add_zero_l'.
  - destruct (zero_sum sr sg) as [u ->]. destruct (zero_sum u sb) as [u' ->]. apply add_zero_l'.
Qed.

Definition plain_pixel (v : rgba) : Prop :=
  let '(r, g, b, a) := v in plain_value r /\ plain_value g /\ plain_value b /\ plain_value a.

(** Baking what was just baked: the same numbers. *)
Theorem second_bake_4 w h ps disp data sp s : st_matrix s = identity4 -> st_ops s = [] -> st_deformers s = [] ->
  Forall plain_pixel ps ->
  exists ps', bake BakeAll (PB (BS w h 4) (DF32 (flat4 ps))) disp data sp s linear_name linear_name Float32
    = Ok (Baked (PB (BS w h 4) (DF32 (flat4 ps'))) data (set_color_space sp linear_name) s)
    /\ Forall2 same4 ps' ps.
Proof.
  intros M O DF PL. rewrite bake_order_4, M, O, DF. unfold deform_pixels, enabled. cbn [filter bind pb_convert pb_data db_convert pb_size].
  exists (map (pixel_meaning (nx_powf nx) identity4 []) ps). split.
  - do 2 f_equal. destruct s. cbn in *. now subst.
  - clear - PL. induction PL as [|[[[r g] b] a] ps H _ IH]; [constructor|]. constructor; [|exact IH].
    unfold pixel_meaning. cbn [fold_left]. destruct H as (R & G & B & A). now apply identity_pixel.
Qed.
End B.

(* ------------------------------ C47: whole buffers ------------------------------ *)

Lemma nth_flat4 ps i : nth_error (flat4 ps) i =
  match nth_error ps (i / 4) with
  | Some (r, g, b, a) => nth_error [r; g; b; a] (i mod 4)
  | None => None
  end.
Proof.
  revert i. induction ps as [|[[[r g] b] a] ps IH]; intro i.
  - assert (N : forall A k, nth_error (@nil A) k = None) by (intros A [|k]; reflexivity).
    rewrite !N. reflexivity.
  - change (flat4 ((r, g, b, a) :: ps)) with (r :: g :: b :: a :: flat4 ps).
    destruct i as [|[|[|[|i]]]]; try reflexivity. cbn [nth_error]. rewrite IH.
    replace (S (S (S (S i)))) with (i + 1 * 4)%nat by lia.
    rewrite Nat.div_add, Nat.mod_add by lia. rewrite Nat.add_1_r. reflexivity.
Qed.
Lemma nth_flat3 ps i : nth_error (flat3 ps) i =
  match nth_error ps (i / 3) with
  | Some (r, g, b) => nth_error [r; g; b] (i mod 3)
  | None => None
  end.
Proof.
  revert i. induction ps as [|[[r g] b] ps IH]; intro i.
  - assert (N : forall A k, nth_error (@nil A) k = None) by (intros A [|k]; reflexivity).
    rewrite !N. reflexivity.
  - change (flat3 ((r, g, b) :: ps)) with (r :: g :: b :: flat3 ps).
    destruct i as [|[|[|i]]]; try reflexivity. cbn [nth_error]. rewrite IH.
    replace (S (S (S i))) with (i + 1 * 3)%nat by lia.
    rewrite Nat.div_add, Nat.mod_add by lia. rewrite Nat.add_1_r. reflexivity.
Qed.

Section C47.
Variable powf : f32 -> f32 -> f32.

Theorem grade_buffer o nc n pixels : vi o "enable" = 1 -> working o -> (nc = 1 \/ nc = 3 \/ nc = 4)%nat ->
  length pixels = (n * nc)%nat ->
  exists pixels', apply_grade powf o (Z.of_nat nc) pixels = Ok pixels' /\ length pixels' = length pixels /\
  forall i v, nth_error pixels i = Some v ->
    nth_error pixels' i = Some (blended powf o (colour_of nc (i mod nc)) v).
Proof.
  intros E W NC L.
  assert (WB : workingb o = true).
  { unfold workingb. destruct W as [W|[W|[W|W]]]; apply Z.eqb_neq in W; rewrite W; cbn [negb];
      rewrite ?orb_true_r, ?orb_true_l; reflexivity. }
  destruct NC as [->|[->| ->]].
  - unfold apply_grade. rewrite E, <- op_work, WB. cbn [Z.eqb Pos.eqb andb negb Z.of_nat Pos.of_succ_nat].
    unfold per_pixel. cbn [Z.eqb Pos.eqb]. eexists. split; [reflexivity|]. split; [apply map_length|].
    intros i v H. rewrite nth_error_map, H. cbn [option_map]. rewrite grade_is_op by exact WB.
    unfold op_pixel. now rewrite WB.
  - destruct (flat3_of n pixels L) as (ps & -> & LP). change (Z.of_nat 3) with 3. rewrite apply_grade_3 by exact E.
    eexists. split; [reflexivity|]. split.
    { clear. induction ps as [|[[r g] b] ps IH]; [reflexivity|].
      cbn [map flat3 flat_map]. destruct (opaque_step _ _) as [[r' g'] b']. cbn [app length]. unfold flat3 in IH. now rewrite IH. }
    intros i v H. rewrite nth_flat3 in H |- *. rewrite nth_error_map.
    destruct (nth_error ps (i / 3)) as [[[r g] b]|]; [|discriminate]. cbn [option_map opaque_step op_pixel].
    rewrite WB. pose proof (Nat.mod_upper_bound i 3 ltac:(lia)) as B.
    destruct (i mod 3)%nat as [|[|[|k]]]; [..|lia]; injection H as <-; reflexivity.
  - destruct (flat4_of n pixels L) as (ps & -> & LP). change (Z.of_nat 4) with 4. rewrite apply_grade_4 by exact E.
    eexists. split; [reflexivity|]. split.
    { clear. induction ps as [|[[[r g] b] a] ps IH]; [reflexivity|].
      cbn [map flat4 flat_map]. destruct (op_pixel _ _ _) as [[[r' g'] b'] a']. cbn [app length]. unfold flat4 in IH. now rewrite IH. }
    intros i v H. rewrite nth_flat4 in H |- *. rewrite nth_error_map.
    destruct (nth_error ps (i / 4)) as [[[[r g] b] a]|]; [|discriminate]. cbn [option_map op_pixel].
    rewrite WB. pose proof (Nat.mod_upper_bound i 4 ltac:(lia)) as B.
    destruct (i mod 4)%nat as [|[|[|[|k]]]]; [..|lia]; injection H as <-; reflexivity.
Qed.

Theorem grade_channels o nc n pixels : vi o "enable" = 1 -> working o -> (nc = 1 \/ nc = 3 \/ nc = 4)%nat ->
  length pixels = (n * nc)%nat ->
  exists pixels', apply_grade powf o (Z.of_nat nc) pixels = Ok pixels' /\ length pixels' = length pixels /\
  forall i v, nth_error pixels i = Some v ->
    let c := colour_of nc (i mod nc) in
    exists v', nth_error pixels' i = Some v' /\
      (process o c = 0 -> f32_finite (f32_of_bits (vf o "mix")) -> f32_finite (graded_value powf o c v) -> f32_ok v ->
       same_number v' v) /\
      (process o c = 1 -> f32_of_bits (vf o "mix") = f32_one -> f32_ok (graded_value powf o c v) -> f32_finite v ->
       same_number v' (graded_value powf o c v)).
Proof.
  intros E W NC L. destruct (grade_buffer o nc n pixels E W NC L) as (px & A & LE & H).
  exists px. split; [exact A|]. split; [exact LE|]. intros i v I c. exists (blended powf o c v).
  split; [apply H; exact I|]. clearbody c. split.
  - intros P M G V. exact (blended_off powf o c v P M G V).
  - intros P M G V. exact (blended_on powf o c v P M G V).
Qed.
End C47.

(** C82 and C75: grades with any gamma follow their curve, and what reversing
    them does. *)
From Coq Require String.
Import String.StringSyntax.
From Coq Require Import Reals Floats.SpecFloat Lra Lia.
From Flocq Require Import Core.Core IEEE754.BinarySingleNaN.
From Verif Require Import Machine FloatModel FloatReal AttrModel AttrProofs StreamModel MergeSpec GradeModel BakeSpec NodeModel NewSpec
  LineSpec LineProofs PowerSpec PowerProofs UndoSpec UndoPower PropertiesBake PropertiesUndo.
Local Open Scope string_scope.

(** Gammas between a quarter and four, any mix, any buffer of whole pixels at
    whose values the line is clear of zero: every value is the blend of itself
    and the line raised to one over gamma, up to the rounding errors of the
    line, of one over gamma and of [powf]. *)
Theorem C82_curve_partial : forall powf k o nc n pixels,
  (0 <= k <= 100)%R -> vi o "enable" = 1 -> vi o "reverse" = 0 -> working o ->
  plain_value (f32_of_bits (vf o "mix")) -> (0 <= R32 (f32_of_bits (vf o "mix")) <= 1)%R ->
  (nc = 1 \/ nc = 3 \/ nc = 4)%nat -> length pixels = (n * nc)%nat ->
  (forall j, (j < nc)%nat -> let c := colour_of nc j in usual o c /\ (process o c = 0 \/ process o c = 1) /\
     plain_value (param o "gamma" c) /\ (/ 4 <= number o "gamma" c <= 4)%R /\
     accurate powf k (f32_div f32_one (param o "gamma" c))) ->
  Forall modest pixels ->
  (forall i v, nth_error pixels i = Some v -> clear_of_zero o (colour_of nc (i mod nc)) (R32 v)) ->
  exists r, apply_color_ops powf [o] (Z.of_nat nc) pixels = Ok r /\ length r = length pixels /\
  forall i v, nth_error pixels i = Some v -> exists v', nth_error r i = Some v' /\ f32_finite v' /\
    let c := colour_of nc (i mod nc) in let x := R32 v in let m := part_of o c in
    (Rabs (R32 v' - (m * gamma_curve o c x + (1 - m) * x)) <=
     / 2 ^ 24 * (m * ((curve_units o c x k + 5) * gamma_curve o c x) + (1 - m) * (4 * Rabs x)) + / 2 ^ 70)%R.
Proof. exact curve_buffer. Qed.
Print Assumptions C82_curve_partial.

(** Red with gamma one half: 3 becomes about 9. Multiplying a value by itself
    is an accurate square. *)
Definition squared : vals := grade_op (with_attrs TGrade [WF32 "gamma_r" 1056964608]).
Example C82_curve_case :
  accurate square 1 (f32_of_Z 2) /\ accurate square 1 f32_one /\
  (forall c, usual squared c /\ process squared c = match c with CA => 0 | _ => 1 end /\
     plain_value (param squared "gamma" c) /\ (/ 4 <= number squared "gamma" c <= 4)%R /\
     f32_div f32_one (param squared "gamma" c) = match c with CR => f32_of_Z 2 | _ => f32_one end /\
     clear_of_zero squared c 3) /\
  part_of squared CR = 1%R /\ gamma_curve squared CR 3 = 9%R /\ R32 (f32_of_Z 3) = 3%R.
Proof.
  assert (PZ : forall c, param squared "black_point" c = f32_of_Z 0 /\ param squared "white_point" c = f32_of_Z 1 /\
    param squared "lift" c = f32_of_Z 0 /\ param squared "gain" c = f32_of_Z 1 /\
    param squared "multiply" c = f32_of_Z 1 /\ param squared "offset" c = f32_of_Z 0).
  { intros []; repeat split; vm_compute; reflexivity. }
  assert (RZ : forall z, (Z.abs z <= 1000) -> R32 (f32_of_Z z) = IZR z).
  { intros z H. destruct (small_real z ltac:(lia)) as (_ & _ & E). exact E. }
  assert (GA : forall c, number squared "gamma" c = match c with CR => (/ 2)%R | _ => 1%R end).
  { intro c. unfold number. destruct c.
    - replace (param squared "gamma" CR) with (S754_finite false 8388608 (-24)) by (vm_compute; reflexivity).
      unfold R32, SF2R, F2R. cbn. lra.
    - replace (param squared "gamma" CG) with (f32_of_Z 1) by (vm_compute; reflexivity). apply RZ. cbn. lia.
    - replace (param squared "gamma" CB) with (f32_of_Z 1) by (vm_compute; reflexivity). apply RZ. cbn. lia.
    - replace (param squared "gamma" CA) with (f32_of_Z 1) by (vm_compute; reflexivity). apply RZ. cbn. lia. }
  assert (LI : forall c, grade_line squared c 3 = 3%R).
  { intro c. destruct (PZ c) as (A1 & A2 & A3 & A4 & A5 & A6).
    unfold grade_line, line_slope, number. rewrite A1, A2, A3, A4, A5, A6, !RZ by (cbn; lia). field. }
  split; [exact squares|]. split; [exact firsts|]. split.
  { intro c. pose proof (PZ c) as (A1 & A2 & A3 & A4 & A5 & A6). split; [split|].
    - repeat apply Forall_cons; try apply Forall_nil; rewrite ?A1, ?A2, ?A3, ?A4, ?A5, ?A6; apply modest_Z; cbn; lia.
    - unfold number. rewrite A1, A2, !RZ by (cbn; lia). rewrite Rabs_pos_eq by lra. lra.
    - split; [destruct c; vm_compute; reflexivity|]. split; [destruct c; vm_compute; auto|].
      split; [rewrite GA; destruct c; lra|]. split; [destruct c; vm_compute; reflexivity|].
      split; [rewrite LI; lra|]. rewrite LI. unfold line_size, line_slope, number.
      rewrite A1, A2, A3, A4, A5, A6, !RZ by (cbn; lia).
      replace (1 * (1 - 0) / (1 - 0))%R with 1%R by field. rewrite Rplus_0_r, Rabs_R0, !Rabs_pos_eq by lra. lra. }
  split. { unfold part_of. change (process squared CR) with 1. cbn [Z.eqb].
    replace (f32_of_bits (vf squared "mix")) with (f32_of_Z 1) by (vm_compute; reflexivity). apply RZ. cbn. lia. }
  split; [|apply RZ; cbn; lia]. unfold gamma_curve. rewrite LI, GA, Rinv_inv.
  change 2%R with (1 + 1)%R. rewrite Rpower_plus, Rpower_1 by lra. lra.
Qed.

(* ------------------------------ C75 ------------------------------ *)

(** A gamma between a quarter and four and nothing else, followed by its
    reverse, on values below one: they come back up to the rounding errors of
    one over gamma and of the two powers. *)
Theorem C75_curve_partial : forall powf k o o' nc n pixels,
  (0 <= k <= 100)%R -> vi o "enable" = 1 -> vi o "reverse" = 0 -> f32_of_bits (vf o "mix") = f32_one -> working o -> reversed o o' ->
  (nc = 1 \/ nc = 3 \/ nc = 4)%nat -> length pixels = (n * nc)%nat ->
  (forall j, (j < nc)%nat -> let c := colour_of nc j in straight o c /\ (process o c = 0 \/ process o c = 1) /\
     plain_value (param o "gamma" c) /\ (/ 4 <= number o "gamma" c <= 4)%R /\
     accurate powf k (f32_div f32_one (param o "gamma" c)) /\ accurate powf k (param o "gamma" c)) ->
  (forall i v, nth_error pixels i = Some v -> plain_value v /\ (/ 2 ^ 20 <= R32 v <= 2 ^ 20)%R /\
     (process o (colour_of nc (i mod nc)) = 1 -> (R32 v <= 1023 / 1024)%R)) ->
  exists r, apply_color_ops powf [o; o'] (Z.of_nat nc) pixels = Ok r /\ length r = length pixels /\
  forall i v, nth_error pixels i = Some v -> exists v', nth_error r i = Some v' /\ f32_finite v' /\
    let c := colour_of nc (i mod nc) in
    (process o c = 0 -> v' = v) /\
    (process o c = 1 -> (Rabs (R32 v' - R32 v) <= (2 * Rabs (ln (R32 v)) + 2 * k * (number o "gamma" c + 1)) * / 2 ^ 24 * R32 v)%R).
Proof. exact trip_buffer. Qed.
Print Assumptions C75_curve_partial.

(** What a reversed gamma does on its own: below zero nothing, between zero and
    one it raises to the power gamma, from one on it is a straight line; a
    gamma of zero or less is a step. *)
Theorem C75_reversed_gamma : forall powf o nc n pixels,
  (forall u g, f32_ok u -> f32_ok g -> f32_ok (powf u g)) ->
  vi o "enable" = 1 -> vi o "reverse" <> 0 -> f32_of_bits (vf o "mix") = f32_one -> working o ->
  (nc = 1 \/ nc = 3 \/ nc = 4)%nat -> length pixels = (n * nc)%nat ->
  (forall j, (j < nc)%nat -> straight o (colour_of nc j) /\ plain_value (param o "gamma" (colour_of nc j))) ->
  Forall plain_value pixels ->
  exists r, apply_color_ops powf [o] (Z.of_nat nc) pixels = Ok r /\ length r = length pixels /\
  forall i v, nth_error pixels i = Some v -> exists v', nth_error r i = Some v' /\
    let c := colour_of nc (i mod nc) in let x := R32 v in let g := number o "gamma" c in
    process o c = 1 ->
    (g <= 0 -> x <= 0 -> R32 v' = 0)%R /\ (g <= 0 -> 0 < x -> R32 v' = 1)%R /\
    (g = 1 \/ (0 < g /\ x <= 0) -> R32 v' = x)%R /\
    ((0 < g)%R -> g <> 1%R -> (0 < x < 1)%R -> same_number v' (powf v (param o "gamma" c))) /\
    ((0 < g)%R -> g <> 1%R -> (1 <= x)%R -> same_number v' (f32_add f32_one (f32_mul (f32_sub v f32_one) (param o "gamma" c)))).
Proof. exact back_buffer. Qed.
Print Assumptions C75_reversed_gamma.

(** A reversed grade whose every channel also follows a line gives the same
    values whatever the gammas are and however powers are computed. *)
Theorem C75_gamma_lost : forall powf powf' o o' nc n pixels,
  but_gamma o o' -> vi o "enable" = 1 -> vi o "reverse" <> 0 -> working o ->
  (nc = 1 \/ nc = 3 \/ nc = 4)%nat -> length pixels = (n * nc)%nat -> (forall j, (j < nc)%nat -> sloped o (colour_of nc j)) ->
  exists r, apply_color_ops powf [o] (Z.of_nat nc) pixels = Ok r /\ apply_color_ops powf' [o'] (Z.of_nat nc) pixels = Ok r.
Proof. exact lost_gamma. Qed.
Print Assumptions C75_gamma_lost.

(** Gamma two on red: a quarter becomes one half and a quarter again. *)
Example C75_curve_case :
  accurate halves 1 (f32_of_Z 2) /\ accurate halves 1 f32_one /\ accurate halves 1 (f32_of_bits 1056964608) /\
  working (curved 0) /\ vi (curved 0) "enable" = 1 /\ f32_of_bits (vf (curved 0) "mix") = f32_one /\ reversed (curved 0) (curved 1) /\
  (forall c, straight (curved 0) c /\ straight (curved 1) c /\
    param (curved 0) "gamma" c = match c with CR => f32_of_Z 2 | _ => f32_one end /\
    f32_div f32_one (param (curved 0) "gamma" c) = match c with CR => f32_of_bits 1056964608 | _ => f32_one end) /\
  let v := f32_of_bits 1048576000 in
  apply_color_ops halves [curved 0] 3 [v; v; v] = Ok [f32_of_bits 1056964608; v; v] /\
  apply_color_ops halves [curved 0; curved 1] 3 [v; v; v] = Ok [v; v; v].
Proof.
  split; [exact halves_squares|]. split; [exact halves_firsts|]. split; [exact roots|]. split; [left; vm_compute; discriminate|].
  split; [reflexivity|]. split; [vm_compute; reflexivity|]. split.
  { split; [reflexivity|]. split.
    + intros name N. unfold vi.
      assert (E0 : v_i32 (curved 0) = [("enable", 1); ("process_r", 1); ("process_g", 1); ("process_b", 1); ("process_a", 0); ("reverse", 0);
        ("clamp_black", 1); ("clamp_white", 0); ("premult", 0)]) by (vm_compute; reflexivity).
      assert (E1 : v_i32 (curved 1) = [("enable", 1); ("process_r", 1); ("process_g", 1); ("process_b", 1); ("process_a", 0); ("reverse", 1);
        ("clamp_black", 1); ("clamp_white", 0); ("premult", 0)]) by (vm_compute; reflexivity).
      rewrite E0, E1. cbn [table]. apply seqb_neq in N. rewrite N. reflexivity.
    + assert (E : v_f32 (curved 1) = v_f32 (curved 0)) by (vm_compute; reflexivity). intros name. unfold vf. now rewrite E. }
  split; [|split; vm_compute; reflexivity].
  intros []; (split; [split; [vm_compute; reflexivity|eexists; vm_compute; reflexivity]|]);
    (split; [split; [vm_compute; reflexivity|eexists; vm_compute; reflexivity]|]); split; vm_compute; reflexivity.
Qed.
(** Gain three and offset one on every channel make a line of every channel. *)
Example C75_gamma_lost_case :
  let o r g := grade_op (with_attrs TGrade [WF32 "gain_r" 1077936128; WF32 "gain_g" 1077936128; WF32 "gain_b" 1077936128;
                                            WF32 "gamma_r" g; WI32 "reverse" r]) in
  (forall c, c <> CA -> sloped (o 1 1065353216) c) /\ vi (o 1 1065353216) "reverse" = 1 /\
  but_gamma (o 1 1065353216) (o 1 1073741824) /\ param (o 1 1073741824) "gamma" CR = f32_of_Z 2.
Proof.
  cbv zeta. split; [intros [] N; try contradiction; left; vm_compute; reflexivity|]. split; [reflexivity|]. split; [|vm_compute; reflexivity].
  split.
  - intros name. unfold vi.
    match goal with |- table _ (v_i32 ?a) _ = table _ (v_i32 ?b) _ => assert (E : v_i32 a = v_i32 b) by (vm_compute; reflexivity) end.
    now rewrite E.
  - intros name N. unfold vf.
    match goal with |- table _ (v_f32 ?a) _ = table _ (v_f32 ?b) _ =>
      let x := eval vm_compute in (v_f32 a) in let y := eval vm_compute in (v_f32 b) in
      change (table 0 x name = table 0 y name) end.
    cbn [table]. assert (G : seqb name "gamma_r" = false) by (apply seqb_neq; intros ->; apply N; now left).
    rewrite G. reflexivity.
Qed.

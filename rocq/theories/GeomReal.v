(** Vertex positions and texture coordinates of the plane, as real numbers. *)
From Coq Require Import Reals Floats.SpecFloat Psatz.
From Flocq Require Import Core.Core.
Require Import Flocq.Prop.Relative Flocq.Prop.Plus_error.
From Verif Require Import Machine Loops FloatModel FloatReal GeomModel GeomSpec GeomProofs.

(** ** The loops *)
Section Vertices.
Variable p : profile.
Variable g : plane.
Local Notation dx := (divisions_x g).
Local Notation dy := (divisions_y g).
Hypothesis SP : index_space dx dy.

Definition vertices {A} (blk : Z -> Z -> list A) : list A :=
  flat_map (fun row => flat_map (blk row) (zrange 0 dx)) (zrange 0 dy).

Lemma vertices_len {A} (blk : Z -> Z -> list A) m : (forall r c, zlen (blk r c) = m) ->
  zlen (vertices blk) = dy * (dx * m).
Proof.
  intro H. destruct SP as (? & ? & _). unfold vertices. apply range_len; [lia|]. intros r _.
  apply range_len; [lia|]. intros c _. apply H.
Qed.

Lemma vertices_at {A} (blk : Z -> Z -> list A) m r c j : (forall r c, zlen (blk r c) = m) ->
  0 <= r < dy -> 0 <= c < dx -> 0 <= j < m ->
  at_z (vertices blk) ((r * dx + c) * m + j) = at_z (blk r c) j.
Proof.
  intros H Hr Hc Hj. unfold vertices.
  replace ((r * dx + c) * m + j) with (r * (dx * m) + (c * m + j)) by ring.
  rewrite (range_at _ (dx * m)).
  - apply range_at; auto.
  - intros r' _. apply range_len; [lia|]. intros c' _. apply H.
  - exact Hr.
  - nia.
Qed.

Lemma vertices_loop {A} (blk : Z -> Z -> list A) m b :
  (forall r c, zlen (blk r c) = m) -> zlen b = dy * (dx * m) ->
  for_range 0 dy (fun row st => for_range 0 dx (fun col st => put (blk row col) st) st) (b, 0)
  = Ok (vertices blk, zlen b).
Proof.
  intros H L. pose proof (vertices_len blk m H) as FL.
  rewrite (range_put (fun row => flat_map (blk row) (zrange 0 dx))).
  - fold (vertices blk). rewrite splice_all by lia. rewrite FL, L. reflexivity.
  - lia.
  - fold (vertices blk). lia.
  - intros r b' i Hr Hi Hl. apply range_put; [exact Hi|exact Hl|].
    intros c b'' i' Hc Hi' Hl'. now apply put_ok.
Qed.

Lemma square_ok d : 1 <= d <= two32 -> square_size p d = Ok (f32_div f32_one (f32_of_Z (d - 1))).
Proof. intro H. unfold square_size. rewrite u32_ok by (unfold two32 in *; lia). reflexivity. Qed.

Lemma size_positions : buffer_size_positions p g = Ok (dy * (dx * 3)).
Proof.
  destruct SP as (A & B & C & D). unfold two32 in *. unfold buffer_size_positions, count_vertex_positions, mul_u64.
  assert (0 <= dx * dy) by nia.
  rewrite u32_ok by (unfold two32; lia). cbn [bind]. rewrite u64_ok by (unfold two64; lia). f_equal. ring.
Qed.

Lemma size_uvs : buffer_size_uvs p g = Ok (dy * (dx * 2)).
Proof.
  destruct SP as (A & B & C & D). unfold two32 in *. unfold buffer_size_uvs, count_vertex_uvs, count_vertex_positions, mul_u64.
  assert (0 <= dx * dy) by nia.
  rewrite u32_ok by (unfold two32; lia). cbn [bind]. rewrite u64_ok by (unfold two64; lia). f_equal. ring.
Qed.

Lemma fill_positions_ok b : zlen b = dy * (dx * 3) ->
  fill_positions p g b = Ok (vertices (vertex_position g (f32_div f32_one (f32_of_Z (dx - 1)))
                                                         (f32_div f32_one (f32_of_Z (dy - 1))))).
Proof.
  intro L. destruct SP as (A & B & C & D). unfold two31, two32 in *. unfold fill_positions.
  rewrite (square_ok dx) by (unfold two32; lia). rewrite (square_ok dy) by (unfold two32; lia). cbn [bind].
  rewrite (vertices_loop _ 3); [reflexivity|reflexivity|exact L].
Qed.

Lemma fill_uvs_ok b : zlen b = dy * (dx * 2) ->
  fill_uvs p g b = Ok (vertices (vertex_uv (f32_div f32_one (f32_of_Z (dx - 1)))
                                           (f32_div f32_one (f32_of_Z (dy - 1))))).
Proof.
  intro L. destruct SP as (A & B & C & D). unfold two31, two32 in *. unfold fill_uvs.
  rewrite (square_ok dx) by (unfold two32; lia). rewrite (square_ok dy) by (unfold two32; lia). cbn [bind].
  rewrite (vertices_loop _ 2); [reflexivity|reflexivity|exact L].
Qed.
End Vertices.

(** ** The values *)
Local Open Scope R_scope.

Lemma one_real : valid32 f32_one /\ fin32 f32_one /\ R32 f32_one = 1.
Proof. exact (small_real 1 ltac:(lia)). Qed.

Lemma flipped y : valid32 y -> fin32 y -> 0 <= R32 y <= 1 ->
  let v := f32_add f32_one (f32_mul y (f32_of_Z (-1))) in
  valid32 v /\ fin32 v /\ 0 <= R32 v <= 1 /\ Rabs (R32 v - (1 - R32 y)) <= 2 * eps32.
Proof.
  intros V F B v. destruct one_real as (V1 & F1 & E1).
  destruct (small_real (-1) ltac:(lia)) as (V2 & F2 & E2).
  destruct (mul_real y (f32_of_Z (-1))) as (F3 & E3); auto.
  { rewrite E2. apply (in_range_le _ 1); [lia|]. rewrite Rabs_left1; lra. }
  assert (V3 := mul_valid y (f32_of_Z (-1)) V V2).
  rewrite E2 in E3. replace (R32 y * -1) with (- R32 y) in E3 by ring.
  rewrite RN_opp, RN_valid in E3 by exact V.
  destruct (add_real f32_one (f32_mul y (f32_of_Z (-1)))) as (F4 & E4); auto.
  { rewrite E1, E3. apply (in_range_le _ 1); [lia|]. rewrite Rabs_pos_eq; lra. }
  rewrite E1, E3 in E4. fold v in F4, E4. split; [now apply add_valid|]. split; [exact F4|].
  assert (0 <= R32 v) by (rewrite E4, <- RN_0; apply RN_mono; lra).
  assert (R32 v <= 1) by (rewrite E4; apply Rle_trans with (RN 1); [apply RN_mono; lra|right; apply (RN_Z 1); lia]).
  split; [lra|]. pose proof (RN_err (1 + - R32 y)) as Q. rewrite <- E4 in Q.
  rewrite (Rabs_pos_eq (1 + - R32 y)) in Q by lra.
  assert (eta32 <= eps32).
  { unfold eta32, eps32. apply Rle_trans with (bpow radix2 (-24)); [apply bpow_le; lia|].
    change (bpow radix2 (-24)) with (/ IZR (2 ^ 24)). change (2 ^ 24)%Z with 16777216%Z. lra. }
  assert (0 < eps32) by (unfold eps32; lra).
  assert (eps32 * (1 + - R32 y) <= eps32 * 1) by (apply Rmult_le_compat_l; lra).
  replace (R32 v - (1 - R32 y)) with (R32 v - (1 + - R32 y)) by ring. lra.
Qed.

Lemma bpow_pos_le a b : (a <= b)%Z -> bpow radix2 a <= bpow radix2 b.
Proof. apply bpow_le. Qed.

(** Rounding with a bound on the argument. *)
Lemma RN_close x m : Rabs x <= m -> Rabs (RN x - x) <= eps32 * m + eta32.
Proof.
  intro H. eapply Rle_trans; [apply RN_err|]. apply Rplus_le_compat_r. apply Rmult_le_compat_l; [unfold eps32; lra|exact H].
Qed.

Lemma eta_pos : 0 < eta32.
Proof. apply bpow_gt_0. Qed.

(** The position computed from a size, a centre and a fraction of the side. *)
Definition place (size centre x : f32) : f32 :=
  let mx := f32_div size (f32_of_Z 2) in
  f32_sub (lerp (f32_neg mx) mx x) centre.

Lemma lerp_real h x : valid32 h -> valid32 x -> fin32 h -> fin32 x -> 0 <= R32 x <= 1 ->
  Rabs (R32 h) <= bpow radix2 100 ->
  let v := lerp (f32_neg h) h x in
  valid32 v /\ fin32 v /\ Rabs (R32 v - (2 * R32 x - 1) * R32 h) <= 7 * eps32 * Rabs (R32 h) + 4 * eta32.
Proof.
  intros Vh Vx Fh Fx Bx Bh v. destruct one_real as (V1 & F1 & E1).
  destruct (neg_real h) as (En & Fn & Vn). specialize (Fn Fh). specialize (Vn Vh).
  set (H := Rabs (R32 h)) in *.
  assert (H0 : 0 <= H) by apply Rabs_pos.
  assert (B0 : 1 <= bpow radix2 100) by (change 1 with (bpow radix2 0); apply bpow_le; lia).
  assert (B2 : bpow radix2 110 = 1024 * bpow radix2 100).
  { change 110%Z with (10 + 100)%Z. rewrite bpow_plus. f_equal. }
  assert (EP : 0 < eps32 <= / 1024) by (unfold eps32; lra). pose proof eta_pos as TP.
  assert (T1 : eta32 <= 1) by (unfold eta32; change 1 with (bpow radix2 0); apply bpow_le; lia).
  (* a = 1 - x *)
  destruct (sub_real f32_one x) as (Fa & Ea); auto.
  { rewrite E1. apply (in_range_le _ 1); [lia|]. rewrite Rabs_pos_eq; lra. }
  assert (Va := sub_valid f32_one x V1 Vx). rewrite E1 in Ea. set (a := f32_sub f32_one x) in *.
  assert (a0 : 0 <= R32 a) by (rewrite Ea, <- RN_0; apply RN_mono; lra).
  assert (a1 : R32 a <= 1) by (rewrite Ea; apply Rle_trans with (RN 1); [apply RN_mono; lra|right; apply (RN_Z 1); lia]).
  assert (Da : Rabs (R32 a - (1 - R32 x)) <= eps32).
  { destruct (Req_dec (R32 x) 1) as [X|X].
    - rewrite Ea, X. replace (1 - 1) with 0 by ring. rewrite RN_0, Rminus_0_r, Rabs_R0. lra.
    - rewrite Ea.
      assert (S : Rabs (RN (1 - R32 x) - (1 - R32 x)) <= eps32 * Rabs (1 - R32 x)).
      { unfold RN. change (SpecFloat.fexp prec32 emax32) with (FLT_exp (-149) 24).
        destruct (Rle_or_lt (bpow radix2 (-149 + 24 - 1)) (Rabs (1 - R32 x))) as [L|L].
        - eapply Rle_trans; [apply relative_error_N_FLT; [reflexivity|exact L]|].
          right. f_equal. change (- (24) + 1)%Z with (-23)%Z. change (bpow radix2 (-23)) with (/ IZR (2 ^ 23)).
          change (2 ^ 23)%Z with 8388608%Z. unfold eps32. field.
        - rewrite round_generic; [rewrite Rminus_eq_0, Rabs_R0; apply Rmult_le_pos; [lra|apply Rabs_pos]|apply _|].
          change (1 - R32 x) with (1 + - R32 x). apply FLT_format_plus_small.
          + reflexivity.
          + exact (generic_Z 1 ltac:(lia)).
          + apply generic_format_opp. exact (valid_generic x Vx).
          + change (1 + - R32 x) with (1 - R32 x). eapply Rle_trans; [apply Rlt_le, L|]. apply bpow_le. lia. }
      eapply Rle_trans; [exact S|]. rewrite (Rabs_pos_eq (1 - R32 x)) by lra.
      rewrite <- (Rmult_1_r eps32) at 2. apply Rmult_le_compat_l; lra. }
  (* m1 = a * -h *)
  assert (A1 : Rabs (R32 a * - R32 h) <= H).
  { rewrite Rabs_mult, Rabs_Ropp. fold H. rewrite Rabs_pos_eq by exact a0.
    rewrite <- (Rmult_1_l H) at 2. apply Rmult_le_compat_r; lra. }
  destruct (mul_real a (f32_neg h)) as (Fm1 & Em1); auto.
  { rewrite En. apply (in_range_bpow _ 100); [lia|lia|]. lra. }
  rewrite En in Em1. assert (Vm1 := mul_valid a (f32_neg h) Va Vn). set (m1 := f32_mul a (f32_neg h)) in *.
  assert (D1 : Rabs (R32 m1 - R32 a * - R32 h) <= eps32 * H + eta32) by (rewrite Em1; now apply RN_close).
  (* m2 = x * h *)
  assert (A2 : Rabs (R32 x * R32 h) <= H).
  { rewrite Rabs_mult. fold H. rewrite Rabs_pos_eq by lra.
    rewrite <- (Rmult_1_l H) at 2. apply Rmult_le_compat_r; lra. }
  destruct (mul_real x h) as (Fm2 & Em2); auto.
  { apply (in_range_bpow _ 100); [lia|lia|]. lra. }
  assert (Vm2 := mul_valid x h Vx Vh). set (m2 := f32_mul x h) in *.
  assert (D2 : Rabs (R32 m2 - R32 x * R32 h) <= eps32 * H + eta32) by (rewrite Em2; now apply RN_close).
  (* sum *)
  assert (EH : eps32 * H <= / 1024 * H) by (apply Rmult_le_compat_r; lra).
  assert (EH0 : 0 <= eps32 * H) by (apply Rmult_le_pos; lra).
  assert (N1 : Rabs (R32 m1) <= H + eps32 * H + eta32).
  { replace (R32 m1) with ((R32 m1 - R32 a * - R32 h) + R32 a * - R32 h) by ring.
    eapply Rle_trans; [apply Rabs_triang|]. lra. }
  assert (N2 : Rabs (R32 m2) <= H + eps32 * H + eta32).
  { replace (R32 m2) with ((R32 m2 - R32 x * R32 h) + R32 x * R32 h) by ring.
    eapply Rle_trans; [apply Rabs_triang|]. lra. }
  assert (N3 : Rabs (R32 m1 + R32 m2) <= 2 * H + 2 * (eps32 * H) + 2 * eta32).
  { eapply Rle_trans; [apply Rabs_triang|]. lra. }
  destruct (add_real m1 m2) as (Fs & Es); auto.
  { apply (in_range_bpow _ 110); [lia|lia|]. rewrite B2. lra. }
  assert (Vs := add_valid m1 m2 Vm1 Vm2). unfold v, lerp. fold a m1 m2.
  split; [exact Vs|]. split; [exact Fs|]. rewrite Es.
  pose proof (RN_close _ _ N3) as D3.
  assert (D4 : Rabs ((R32 a - (1 - R32 x)) * - R32 h) <= eps32 * H).
  { rewrite Rabs_mult, Rabs_Ropp. fold H. apply Rmult_le_compat_r; [exact H0|exact Da]. }
  replace (RN (R32 m1 + R32 m2) - (2 * R32 x - 1) * R32 h) with
    ((RN (R32 m1 + R32 m2) - (R32 m1 + R32 m2)) + (R32 m1 - R32 a * - R32 h)
     + ((R32 a - (1 - R32 x)) * - R32 h) + (R32 m2 - R32 x * R32 h)) by ring.
  assert (D5 : eps32 * (2 * H + 2 * (eps32 * H) + 2 * eta32) <= 3 * (eps32 * H) + eta32).
  { replace (eps32 * (2 * H + 2 * (eps32 * H) + 2 * eta32)) with (2 * (eps32 * H) + 2 * eps32 * (eps32 * H) + 2 * eps32 * eta32) by ring.
    assert (2 * eps32 * (eps32 * H) <= eps32 * H).
    { rewrite <- (Rmult_1_l (eps32 * H)) at 2. apply Rmult_le_compat_r; lra. }
    assert (2 * eps32 * eta32 <= eta32). { rewrite <- (Rmult_1_l eta32) at 2. apply Rmult_le_compat_r; lra. }
    lra. }
  eapply Rle_trans; [apply Rabs_triang|]. eapply Rle_trans; [apply Rplus_le_compat_r, Rabs_triang|].
  eapply Rle_trans; [apply Rplus_le_compat_r, Rplus_le_compat_r, Rabs_triang|].
  replace (7 * eps32 * H) with (7 * (eps32 * H)) by ring. lra.
Qed.

Lemma place_real s c x t : valid32 s -> valid32 c -> valid32 x -> fin32 s -> fin32 c -> fin32 x ->
  0 <= R32 x <= 1 -> Rabs (R32 x - t) <= 3 * eps32 -> 0 <= t <= 1 ->
  Rabs (R32 s) <= bpow radix2 100 -> Rabs (R32 c) <= bpow radix2 100 ->
  fin32 (place s c x) /\
  Rabs (R32 (place s c x) - ((- (R32 s / 2) + R32 s * t) - R32 c))
  <= 16 * eps32 * (Rabs (R32 s) + Rabs (R32 c)) + 8 * eta32.
Proof.
  intros Vs Vc Vx Fs Fc Fx Bx Dx Bt Bs Bc.
  destruct (small_real 2 ltac:(lia)) as (V2 & F2 & E2).
  set (S := Rabs (R32 s)) in *. set (C := Rabs (R32 c)) in *.
  assert (S0 : 0 <= S) by apply Rabs_pos. assert (C0 : 0 <= C) by apply Rabs_pos.
  assert (EP : 0 < eps32 <= / 1024) by (unfold eps32; lra). pose proof eta_pos as TP.
  assert (Hs : Rabs (R32 s / 2) = S / 2).
  { unfold Rdiv. rewrite Rabs_mult. fold S. rewrite (Rabs_pos_eq (/ 2)); lra. }
  destruct (div_real s (f32_of_Z 2)) as (Fh & Eh); auto.
  { rewrite E2. lra. }
  { rewrite E2. apply (in_range_bpow _ 100); [lia|lia|]. rewrite Hs. lra. }
  assert (Vh := div_valid s (f32_of_Z 2) Vs V2). rewrite E2 in Eh. unfold place.
  set (h := f32_div s (f32_of_Z 2)) in *.
  assert (Bh : Rabs (R32 h) <= bpow radix2 100).
  { rewrite Eh. unfold RN. apply abs_round_le_generic; [apply _|apply _| |rewrite Hs; lra].
    change (SpecFloat.fexp prec32 emax32) with (FLT_exp (-149) 24).
    apply generic_format_FLT_bpow; [reflexivity|lia]. }
  assert (Dh : Rabs (R32 h - R32 s / 2) <= eps32 * (S / 2) + eta32) by (rewrite Eh; apply RN_close; rewrite Hs; lra).
  destruct (lerp_real h x Vh Vx Fh Fx Bx Bh) as (Vv & Fv & Dv). set (v := lerp (f32_neg h) h x) in *.
  set (H := Rabs (R32 h)) in *. assert (H0 : 0 <= H) by apply Rabs_pos.
  assert (ES : 0 <= eps32 * S) by (apply Rmult_le_pos; lra).
  assert (ES' : eps32 * S <= / 1024 * S) by (apply Rmult_le_compat_r; lra).
  assert (HS : H <= S / 2 + eps32 * (S / 2) + eta32).
  { unfold H. replace (R32 h) with ((R32 h - R32 s / 2) + R32 s / 2) by ring.
    eapply Rle_trans; [apply Rabs_triang|]. rewrite Hs. lra. }
  assert (HS2 : H <= 6 / 10 * S + eta32).
  { replace (eps32 * (S / 2)) with (eps32 * S / 2) in HS by field. lra. }
  assert (EHH : eps32 * H <= eps32 * (6 / 10 * S + eta32)) by (apply Rmult_le_compat_l; lra).
  assert (EE : eps32 * eta32 <= / 1024 * eta32) by (apply Rmult_le_compat_r; lra).
  assert (EHH2 : eps32 * H <= 6 / 10 * (eps32 * S) + / 1024 * eta32) by lra.
  assert (D1 : Rabs (2 * (R32 x - t) * R32 h) <= 6 * (eps32 * H)).
  { rewrite Rabs_mult. fold H. rewrite Rabs_mult, (Rabs_pos_eq 2) by lra.
    replace (6 * (eps32 * H)) with (2 * (3 * eps32) * H) by ring. apply Rmult_le_compat_r; lra. }
  assert (D2 : Rabs ((2 * t - 1) * (R32 h - R32 s / 2)) <= eps32 * (S / 2) + eta32).
  { rewrite Rabs_mult. rewrite <- (Rmult_1_l (eps32 * (S / 2) + eta32)).
    apply Rmult_le_compat; [apply Rabs_pos|apply Rabs_pos| |exact Dh]. apply Rabs_le. lra. }
  assert (DV : Rabs (R32 v - (- (R32 s / 2) + R32 s * t)) <= 9 * (eps32 * S) + 6 * eta32).
  { replace (R32 v - (- (R32 s / 2) + R32 s * t)) with
      ((R32 v - (2 * R32 x - 1) * R32 h) + 2 * (R32 x - t) * R32 h + (2 * t - 1) * (R32 h - R32 s / 2)) by field.
    eapply Rle_trans; [apply Rabs_triang|]. eapply Rle_trans; [apply Rplus_le_compat_r, Rabs_triang|].
    replace (7 * eps32 * H) with (7 * (eps32 * H)) in Dv by ring.
    replace (eps32 * (S / 2)) with (eps32 * S / 2) in D2 by field. lra. }
  assert (TT : Rabs (- (R32 s / 2) + R32 s * t) <= S / 2).
  { replace (- (R32 s / 2) + R32 s * t) with ((2 * t - 1) * (R32 s / 2)) by field.
    rewrite Rabs_mult, Hs. rewrite <- (Rmult_1_l (S / 2)) at 2. apply Rmult_le_compat_r; [lra|]. apply Rabs_le. lra. }
  assert (T1 : eta32 <= 1) by (unfold eta32; change 1 with (bpow radix2 0); apply bpow_le; lia).
  assert (B0 : 1 <= bpow radix2 100) by (change 1 with (bpow radix2 0); apply bpow_le; lia).
  assert (B2 : bpow radix2 110 = 1024 * bpow radix2 100).
  { change 110%Z with (10 + 100)%Z. rewrite bpow_plus. f_equal. }
  assert (NV : Rabs (R32 v) <= S + 6 * eta32).
  { replace (R32 v) with ((R32 v - (- (R32 s / 2) + R32 s * t)) + (- (R32 s / 2) + R32 s * t)) by ring.
    eapply Rle_trans; [apply Rabs_triang|]. lra. }
  assert (NVC : Rabs (R32 v - R32 c) <= S + 6 * eta32 + C).
  { unfold Rminus. eapply Rle_trans; [apply Rabs_triang|]. rewrite Rabs_Ropp. fold C. lra. }
  destruct (sub_real v c) as (Fp & Ep); auto.
  { apply (in_range_bpow _ 110); [lia|lia|]. rewrite B2. lra. }
  split; [exact Fp|]. rewrite Ep. pose proof (RN_close _ _ NVC) as D3.
  replace (RN (R32 v - R32 c) - (- (R32 s / 2) + R32 s * t - R32 c)) with
    ((RN (R32 v - R32 c) - (R32 v - R32 c)) + (R32 v - (- (R32 s / 2) + R32 s * t))) by ring.
  eapply Rle_trans; [apply Rabs_triang|].
  assert (0 <= eps32 * C) by (apply Rmult_le_pos; lra).
  replace (eps32 * (S + 6 * eta32 + C)) with (eps32 * S + 6 * (eps32 * eta32) + eps32 * C) in D3 by ring.
  replace (16 * eps32 * (S + C)) with (16 * (eps32 * S) + 16 * (eps32 * C)) by ring. lra.
Qed.

(** ** The filled buffers *)
Definition divisions_ok (d : Z) : Prop := (2 <= d <= 2 ^ 24 + 1)%Z.

Section Values.
Variable p : profile.
Variable g : plane.
Local Notation dx := (divisions_x g).
Local Notation dy := (divisions_y g).
Hypothesis SP : index_space dx dy.
Hypothesis Dx : divisions_ok dx.
Hypothesis Dy : divisions_ok dy.

Lemma frac_t k d : divisions_ok d -> (0 <= k < d)%Z -> 0 <= IZR k / IZR (d - 1) <= 1.
Proof.
  intros D K. unfold divisions_ok in D.
  assert (0 <= IZR k) by (apply IZR_le; lia). assert (IZR k <= IZR (d - 1)) by (apply IZR_le; lia).
  assert (0 < IZR (d - 1)) by (apply IZR_lt; lia). split.
  - apply Rmult_le_pos; [lra|]. left. apply Rinv_0_lt_compat. lra.
  - apply (Rmult_le_reg_r (IZR (d - 1))); [lra|]. unfold Rdiv. rewrite Rmult_assoc, Rinv_l by lra. lra.
Qed.

Theorem uvs_spec b : buffer_size_uvs p g = Ok (zlen b) ->
  exists out, fill_uvs p g b = Ok out /\ zlen out = zlen b /\
    forall r c, (0 <= r < dy)%Z -> (0 <= c < dx)%Z -> exists u v,
      at_z out (2 * (r * dx + c)) = Some u /\ at_z out (2 * (r * dx + c) + 1) = Some v
      /\ fin32 u /\ fin32 v /\ 0 <= R32 u <= 1 /\ 0 <= R32 v <= 1
      /\ Rabs (R32 u - IZR c / IZR (dx - 1)) <= 3 * eps32
      /\ Rabs (R32 v - (1 - IZR r / IZR (dy - 1))) <= 5 * eps32.
Proof.
  rewrite (size_uvs p g SP). intro E. assert (L : zlen b = (dy * (dx * 2))%Z) by congruence.
  eexists. split; [apply fill_uvs_ok; assumption|].
  split; [rewrite (vertices_len g SP _ 2); [now rewrite L|reflexivity]|].
  intros r c Hr Hc. unfold divisions_ok in *.
  destruct (frac_real c (dx - 1) ltac:(lia) ltac:(lia)) as (Vu & Fu & Bu & Du).
  destruct (frac_real r (dy - 1) ltac:(lia) ltac:(lia)) as (Vy & Fy & By & Dy').
  destruct (flipped _ Vy Fy By) as (Vv & Fv & Bv & Dv).
  eexists _, _. split.
  { replace (2 * (r * dx + c))%Z with ((r * dx + c) * 2 + 0)%Z by ring.
    rewrite (vertices_at g (vertex_uv (f32_div f32_one (f32_of_Z (dx - 1))) (f32_div f32_one (f32_of_Z (dy - 1)))) 2 r c 0 ltac:(reflexivity) Hr Hc ltac:(lia)). reflexivity. }
  split.
  { replace (2 * (r * dx + c) + 1)%Z with ((r * dx + c) * 2 + 1)%Z by ring.
    rewrite (vertices_at g (vertex_uv (f32_div f32_one (f32_of_Z (dx - 1))) (f32_div f32_one (f32_of_Z (dy - 1)))) 2 r c 1 ltac:(reflexivity) Hr Hc ltac:(lia)). reflexivity. }
  fold (frac c (dx - 1)). fold (frac r (dy - 1)).
  split; [exact Fu|]. split; [exact Fv|]. split; [exact Bu|]. split; [exact Bv|]. split; [exact Du|].
  replace (R32 (f32_add f32_one (f32_mul (frac r (dy - 1)) (f32_of_Z (-1)))) - (1 - IZR r / IZR (dy - 1)))
    with ((R32 (f32_add f32_one (f32_mul (frac r (dy - 1)) (f32_of_Z (-1)))) - (1 - R32 (frac r (dy - 1))))
          + - (R32 (frac r (dy - 1)) - IZR r / IZR (dy - 1))) by ring.
  eapply Rle_trans; [apply Rabs_triang|]. rewrite Rabs_Ropp. lra.
Qed.

Definition plain32 (x : f32) : Prop := valid32 x /\ fin32 x /\ Rabs (R32 x) <= bpow radix2 100.

(** Every vertex lies where its row and column say, around the *negated*
    centre. *)
Theorem positions_spec b :
  plain32 (size_x g) -> plain32 (size_y g) -> plain32 (center_x g) -> plain32 (center_y g) ->
  buffer_size_positions p g = Ok (zlen b) ->
  exists out, fill_positions p g b = Ok out /\ zlen out = zlen b /\
    forall r c, (0 <= r < dy)%Z -> (0 <= c < dx)%Z -> exists x y,
      at_z out (3 * (r * dx + c)) = Some x /\ at_z out (3 * (r * dx + c) + 1) = Some y
      /\ at_z out (3 * (r * dx + c) + 2) = Some f32_zero
      /\ fin32 x /\ fin32 y
      /\ Rabs (R32 x - ((- (R32 (size_x g) / 2) + R32 (size_x g) * (IZR c / IZR (dx - 1))) - R32 (center_x g)))
         <= 16 * eps32 * (Rabs (R32 (size_x g)) + Rabs (R32 (center_x g))) + 8 * eta32
      /\ Rabs (R32 y - ((- (R32 (size_y g) / 2) + R32 (size_y g) * (IZR r / IZR (dy - 1))) - R32 (center_y g)))
         <= 16 * eps32 * (Rabs (R32 (size_y g)) + Rabs (R32 (center_y g))) + 8 * eta32.
Proof.
  intros (Vsx & Fsx & Bsx) (Vsy & Fsy & Bsy) (Vcx & Fcx & Bcx) (Vcy & Fcy & Bcy).
  rewrite (size_positions p g SP). intro E. assert (L : zlen b = (dy * (dx * 3))%Z) by congruence.
  eexists. split; [apply fill_positions_ok; assumption|].
  split; [rewrite (vertices_len g SP _ 3); [now rewrite L|reflexivity]|].
  intros r c Hr Hc. pose proof (frac_t c dx Dx Hc) as Tc. pose proof (frac_t r dy Dy Hr) as Tr. unfold divisions_ok in *.
  destruct (frac_real c (dx - 1) ltac:(lia) ltac:(lia)) as (Vu & Fu & Bu & Du).
  destruct (frac_real r (dy - 1) ltac:(lia) ltac:(lia)) as (Vy & Fy & By & Dy').
  destruct (place_real (size_x g) (center_x g) _ _ Vsx Vcx Vu Fsx Fcx Fu Bu Du Tc Bsx Bcx) as (Fx & Ex).
  destruct (place_real (size_y g) (center_y g) _ _ Vsy Vcy Vy Fsy Fcy Fy By Dy' Tr Bsy Bcy) as (Fy' & Ey).
  eexists _, _. split.
  { replace (3 * (r * dx + c))%Z with ((r * dx + c) * 3 + 0)%Z by ring.
    rewrite (vertices_at g (vertex_position g (f32_div f32_one (f32_of_Z (dx - 1))) (f32_div f32_one (f32_of_Z (dy - 1)))) 3 r c 0 ltac:(reflexivity) Hr Hc ltac:(lia)). reflexivity. }
  split.
  { replace (3 * (r * dx + c) + 1)%Z with ((r * dx + c) * 3 + 1)%Z by ring.
    rewrite (vertices_at g (vertex_position g (f32_div f32_one (f32_of_Z (dx - 1))) (f32_div f32_one (f32_of_Z (dy - 1)))) 3 r c 1 ltac:(reflexivity) Hr Hc ltac:(lia)). reflexivity. }
  split.
  { replace (3 * (r * dx + c) + 2)%Z with ((r * dx + c) * 3 + 2)%Z by ring.
    rewrite (vertices_at g (vertex_position g (f32_div f32_one (f32_of_Z (dx - 1))) (f32_div f32_one (f32_of_Z (dy - 1)))) 3 r c 2 ltac:(reflexivity) Hr Hc ltac:(lia)). reflexivity. }
  split; [exact Fx|]. split; [exact Fy'|]. split; [exact Ex|exact Ey].
Qed.
End Values.

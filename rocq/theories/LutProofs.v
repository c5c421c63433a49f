(** Proofs about the colour lookup tables: the identity cube. *)
From Coq Require Import Reals Floats.SpecFloat Psatz.
From Flocq Require Import Core.Core IEEE754.BinarySingleNaN.
From Verif Require Import Machine Loops FloatModel FloatReal BBoxModel PixelModel MergeModel CacheModel CacheProofs
  AttrModel HashModel StreamModel GradeModel DeformModel BakeModel NodeModel LutModel LutSpec.
Local Open Scope Z_scope.

(** Valid floats with the same nonzero value are the same. *)
Lemma same_real x y : valid32 x -> valid32 y -> fin32 x -> fin32 y -> R32 x = R32 y -> R32 x <> 0%R -> x = y.
Proof.
  intros Vx Vy Fx Fy E N.
  destruct (to_bf x Vx) as (a & -> & Ra & Fa). destruct (to_bf y Vy) as (b & -> & Rb & Fb).
  f_equal. rewrite Ra in E, N. rewrite Rb in E. apply B2R_inj; [| |exact E].
  - destruct a; try (cbn in N; now elim N); reflexivity.
  - rewrite E in N. destruct b; try (cbn in N; now elim N); reflexivity.
Qed.

Lemma minus_one n : 2 <= n <= 2 ^ 24 -> f32_sub (f32_of_Z n) f32_one = f32_of_Z (n - 1).
Proof.
  intro H. destruct (small_real n ltac:(lia)) as (V & F & E). destruct (small_real (n - 1) ltac:(lia)) as (V1 & F1 & E1).
  destruct (small_real 1 ltac:(lia)) as (V2 & F2 & E2).
  assert (D : (R32 (f32_of_Z n) - R32 f32_one = IZR (n - 1))%R).
  { change f32_one with (f32_of_Z 1). rewrite E, E2, minus_IZR. reflexivity. }
  destruct (sub_real (f32_of_Z n) f32_one) as (Fs & Es); auto.
  { rewrite D. apply (in_range_le _ n); [lia|]. rewrite <- abs_IZR. apply IZR_le. lia. }
  rewrite D, RN_Z in Es by lia.
  apply same_real; auto.
  - now apply sub_valid.
  - now rewrite E1.
  - rewrite Es. apply not_0_IZR. lia.
Qed.

Lemma lut_value_frac k n : 2 <= n <= 2 ^ 24 -> lut_value k n = frac k (n - 1).
Proof. intro H. unfold lut_value, frac. rewrite minus_one by exact H. reflexivity. Qed.

Lemma lut_grid k n v : 2 <= n <= 2 ^ 24 -> 0 <= k < n -> v = Some (lut_value k n) -> grid_value v k n.
Proof.
  intros N K ->. exists (lut_value k n). split; [reflexivity|]. rewrite lut_value_frac by exact N.
  destruct (frac_real k (n - 1)) as (_ & F & B & E); [lia|lia|]. auto.
Qed.

(* ------------------------------ filling ------------------------------ *)

(** What the cube holds at position [j] of the buffer. *)
Definition cube_value (n j : Z) : f32 :=
  let i := j / 3 in
  match j mod 3 with
  | 0 => lut_value (i mod n) n
  | 1 => lut_value ((i / n) mod n) n
  | _ => lut_value ((i / n / n) mod n) n
  end.

Lemma cube_step n i img : 0 < n -> 0 <= i -> 3 * i + 3 <= zlen img ->
  exists img', (let* img := set_idx img (3 * i + 0) (lut_value (i mod n) n) in
      let* img := set_idx img (3 * i + 1) (lut_value ((i / n) mod n) n) in
      set_idx img (3 * i + 2) (lut_value ((i / n / n) mod n) n)) = Ok img'
    /\ zlen img' = zlen img
    /\ forall j, at_z img' j = if (3 * i <=? j) && (j <? 3 * i + 3) then Some (cube_value n j) else at_z img j.
Proof.
  intros N I L.
  destruct (set_idx_ok img (3 * i + 0) (lut_value (i mod n) n)) as (a & Ea & La & Aa); [lia|].
  rewrite Ea. cbn [bind].
  destruct (set_idx_ok a (3 * i + 1) (lut_value ((i / n) mod n) n)) as (b & Eb & Lb & Ab); [lia|].
  rewrite Eb. cbn [bind].
  destruct (set_idx_ok b (3 * i + 2) (lut_value ((i / n / n) mod n) n)) as (c & Ec & Lc & Ac); [lia|].
  exists c. split; [exact Ec|]. split; [lia|]. intro j. rewrite Ac, Ab, Aa.
  destruct (Z.eqb_spec j (3 * i + 2)) as [->|]; [|destruct (Z.eqb_spec j (3 * i + 1)) as [->|];
    [|destruct (Z.eqb_spec j (3 * i + 0)) as [->|]]].
  - replace ((3 * i <=? 3 * i + 2) && (3 * i + 2 <? 3 * i + 3)) with true by lia. unfold cube_value.
    replace ((3 * i + 2) / 3) with i by (apply Z.div_unique with 2; lia).
    replace ((3 * i + 2) mod 3) with 2 by (apply Z.mod_unique with i; lia). reflexivity.
  - replace ((3 * i <=? 3 * i + 1) && (3 * i + 1 <? 3 * i + 3)) with true by lia. unfold cube_value.
    replace ((3 * i + 1) / 3) with i by (apply Z.div_unique with 1; lia).
    replace ((3 * i + 1) mod 3) with 1 by (apply Z.mod_unique with i; lia). reflexivity.
  - replace ((3 * i <=? 3 * i + 0) && (3 * i + 0 <? 3 * i + 3)) with true by lia. unfold cube_value.
    replace ((3 * i + 0) / 3) with i by (apply Z.div_unique with 0; lia).
    replace ((3 * i + 0) mod 3) with 0 by (apply Z.mod_unique with i; lia). reflexivity.
  - replace ((3 * i <=? j) && (j <? 3 * i + 3)) with false by lia. reflexivity.
Qed.

Lemma identity_lut_3 p img n : 2 <= n <= 894 -> 3 * (n * n * n) <= zlen img ->
  exists out, identity_lut p img n 3 = Ok out /\ zlen out = zlen img
    /\ forall j, at_z out j = if (0 <=? j) && (j <? 3 * (n * n * n)) then Some (cube_value n j) else at_z img j.
Proof.
  intros N L. unfold identity_lut. rewrite i32_as_usize_ok by (unfold two31; lia).
  change (3 =? 1) with false. change (3 =? 3) with true. cbv iota zeta.
  assert (N2 : 4 <= n * n <= 799236) by nia. assert (N3 : 8 <= n * n * n <= 714516984) by nia.
  unfold mul_u64. rewrite u64_of_ok by (unfold two64; lia). cbn [bind].
  rewrite u64_of_ok by (unfold two64; lia). cbn [bind].
  set (m := n * n * n) in *.
  destruct (for_range_inv (fun i s => zlen s = zlen img /\
      forall j, at_z s j = if (0 <=? j) && (j <? 3 * i) then Some (cube_value n j) else at_z img j)
    (fun i img => let* img := set_idx img (3 * i + 0) (lut_value (i mod n) n) in
      let* img := set_idx img (3 * i + 1) (lut_value ((i / n) mod n) n) in
      set_idx img (3 * i + 2) (lut_value ((i / n / n) mod n) n)) 0 m img) as (out & E & Lo & A); [lia| | |].
  - split; [reflexivity|]. intro j. replace ((0 <=? j) && (j <? 3 * 0)) with false by lia. reflexivity.
  - intros i s I (Ls & As). destruct (cube_step n i s) as (s' & E & Ls' & As'); [lia..|].
    exists s'. split; [exact E|]. split; [lia|]. intro j. rewrite As', As.
    destruct ((3 * i <=? j) && (j <? 3 * i + 3)) eqn:C.
    + replace ((0 <=? j) && (j <? 3 * (i + 1))) with true by lia. reflexivity.
    + destruct ((0 <=? j) && (j <? 3 * i)) eqn:C'.
      * replace ((0 <=? j) && (j <? 3 * (i + 1))) with true by lia. reflexivity.
      * replace ((0 <=? j) && (j <? 3 * (i + 1))) with false by lia. reflexivity.
  - exists out. split; [exact E|]. split; [exact Lo|exact A].
Qed.

Lemma identity_lut_1 p img n : 1 <= n < two31 -> n <= zlen img ->
  exists out, identity_lut p img n 1 = Ok out /\ zlen out = zlen img
    /\ forall j, at_z out j = if (0 <=? j) && (j <? n) then Some (lut_value j n) else at_z img j.
Proof.
  intros N L. unfold identity_lut. rewrite i32_as_usize_ok by lia.
  change (1 =? 1) with true. cbv iota zeta.
  destruct (for_range_inv (fun i s => zlen s = zlen img /\
      forall j, at_z s j = if (0 <=? j) && (j <? i) then Some (lut_value j n) else at_z img j)
    (fun i img => set_idx img i (lut_value (i mod n) n)) 0 n img) as (out & E & Lo & A); [lia| | |].
  - split; [reflexivity|]. intro j. replace ((0 <=? j) && (j <? 0)) with false by lia. reflexivity.
  - intros i s I (Ls & As). destruct (set_idx_ok s i (lut_value (i mod n) n)) as (s' & E & Ls' & As'); [lia|].
    exists s'. split; [exact E|]. split; [lia|]. intro j. rewrite As', As. rewrite Z.mod_small by lia.
    destruct (Z.eqb_spec j i) as [->|].
    + replace ((0 <=? i) && (i <? i + 1)) with true by lia. reflexivity.
    + replace ((0 <=? j) && (j <? i + 1)) with ((0 <=? j) && (j <? i)) by lia. reflexivity.
  - exists out. split; [exact E|]. split; [exact Lo|exact A].
Qed.

(* ------------------------------ the size ------------------------------ *)

Definition size_ok (n : Z) : bool :=
  match lut_size Debug n 3, lut_size Release n 3 with
  | Ok (w, h), Ok (w', h') =>
      (w =? n * n) && (w' =? n * n) && (h =? h') && (n <=? h) && (h <=? n + 1) && ((h =? n) || (413 <=? n))
      && (3 * (w * h) <? two31)
  | _, _ => false
  end.
Lemma sizes_ok : forallb size_ok (Loops.zrange 2 895) = true.
Proof. vm_compute. reflexivity. Qed.

Lemma lut_size_3 p n : 2 <= n <= 894 ->
  exists h, lut_size p n 3 = Ok (n * n, h) /\ n <= h <= n + 1 /\ (n < 413 -> h = n) /\ 3 * (n * n * h) < two31.
Proof.
  intro N. pose proof sizes_ok as S. rewrite forallb_forall in S. specialize (S n). rewrite zrange_in in S.
  specialize (S ltac:(lia)). unfold size_ok in S.
  destruct (lut_size Debug n 3) as [[w h]|] eqn:D; [|discriminate S].
  destruct (lut_size Release n 3) as [[w' h']|] eqn:R; [|discriminate S].
  assert (w = n * n /\ w' = n * n /\ h = h' /\ n <= h <= n + 1 /\ (h = n \/ 413 <= n) /\ 3 * (w * h) < two31) as (-> & -> & <- & B & C & T) by lia.
  exists h. split; [destruct p; assumption|]. split; [lia|]. split; [lia|lia].
Qed.

Lemma identity_block_3 p n : 2 <= n <= 894 ->
  exists h out, identity_block p n 3 = Ok (PB (BS (n * n) h 3) (DF32 out))
    /\ n <= h <= n + 1 /\ (n < 413 -> h = n) /\ zlen out = 3 * (n * n * h)
    /\ forall j, at_z out j = if (0 <=? j) && (j <? 3 * (n * n * n)) then Some (cube_value n j)
                              else if (0 <=? j) && (j <? 3 * (n * n * h)) then Some f32_zero else None.
Proof.
  intro N. destruct (lut_size_3 p n N) as (h & E & B & X & T). unfold identity_block. rewrite E. cbn [bind].
  assert (N2 : 4 <= n * n) by nia. assert (P : 0 <= n * n * h) by nia.
  unfold pb_new, bs_size. cbn [bs_w bs_h bs_nc].
  rewrite i32_of_ok by (unfold two31 in *; lia). cbn [bind].
  rewrite i32_of_ok by (unfold two31 in *; lia). cbn [bind].
  rewrite i32_as_usize_ok by lia. unfold db_new. rewrite alloc_ok by (unfold two31 in *; lia). cbn [bind pb_data slice_f32].
  set (img := repeat f32_zero (Z.to_nat (n * n * h * 3))).
  assert (L : zlen img = 3 * (n * n * h)) by (unfold img; rewrite zlen_repeat; lia).
  destruct (identity_lut_3 p img n N) as (out & Eo & Lo & A).
  { rewrite L. nia. }
  rewrite Eo. cbn [bind]. exists h, out. split; [reflexivity|]. split; [lia|]. split; [exact X|]. split; [lia|].
  intro j. rewrite A. destruct ((0 <=? j) && (j <? 3 * (n * n * n))); [reflexivity|].
  destruct ((0 <=? j) && (j <? 3 * (n * n * h))) eqn:C.
  - unfold img. apply at_z_repeat. lia.
  - apply at_z_none. lia.
Qed.

Lemma cube_value_at n r g b c : 2 <= n -> 0 <= r < n -> 0 <= g < n -> 0 <= b < n -> 0 <= c < 3 ->
  cube_value n (3 * (b * (n * n) + (g * n + r)) + c)
  = lut_value (match c with 0 => r | 1 => g | _ => b end) n.
Proof.
  intros N R G B C. unfold cube_value. set (i := b * (n * n) + (g * n + r)).
  replace ((3 * i + c) / 3) with i by (apply Z.div_unique with c; lia).
  replace ((3 * i + c) mod 3) with c by (apply Z.mod_unique with i; lia).
  assert (M0 : i mod n = r) by (symmetry; apply Z.mod_unique with (b * n + g); [lia|unfold i; lia]).
  assert (D0 : i / n = b * n + g) by (symmetry; apply Z.div_unique with r; [lia|unfold i; lia]).
  assert (M1 : (b * n + g) mod n = g) by (symmetry; apply Z.mod_unique with b; lia).
  assert (D1 : (b * n + g) / n = b) by (symmetry; apply Z.div_unique with g; lia).
  assert (M2 : b mod n = b) by (apply Z.mod_small; lia).
  rewrite D0, M0, M1, D1, M2.
  assert (c = 0 \/ c = 1 \/ c = 2) as [->|[->| ->]] by lia; reflexivity.
Qed.

Section Api.
Context {D : Type}.
Variable p : profile.
Variable X : externals D.

Lemma bytes_eqb_refl l : bytes_eqb l l = true.
Proof. induction l as [|x l IH]; cbn [bytes_eqb]; [reflexivity|]. now rewrite Z.eqb_refl, IH. Qed.

(** The LUT from a colour space to itself is the identity cube. *)
Theorem identity_cube_ok n cs : 2 <= n <= 894 ->
  exists img h, generate_transform_lut p X n 3 cs cs = Ok img
    /\ pb_size (sh_block img) = BS (n * n) h 3
    /\ sh_data img = BBox 0 0 (n * n) h /\ sh_display img = sh_data img
    /\ sp_color_space (sh_spec img) = cs
    /\ n <= h <= n + 1 /\ (n < 413 -> h = n)
    /\ identity_cube img n
    /\ (forall x y c, 0 <= x < n * n -> n <= y < h -> 0 <= c < 3 -> texel img x y c = Some f32_zero).
Proof.
  intro N. destruct (identity_block_3 p n N) as (h & out & E & B & XX & L & A).
  unfold generate_transform_lut. rewrite E. cbn [bind].
  unfold bake_colorspace. cbn [pb_convert db_convert db_type pb_data datatype_eqb]. cbn [bind].
  rewrite bytes_eqb_refl. cbn [bind].
  eexists _, h. split; [reflexivity|]. split; [reflexivity|]. split; [reflexivity|]. split; [reflexivity|].
  split; [reflexivity|]. split; [lia|]. split; [exact XX|].
  assert (T : forall x y c, 0 <= x < n * n -> 0 <= y < h -> 0 <= c < 3 ->
    texel (lut_image (pb_size (PB (BS (n * n) h 3) (DF32 out))) (PB (BS (n * n) h 3) (DF32 out))
             (set_color_space spec_new cs)) x y c = at_z out (3 * (y * (n * n) + x) + c)).
  { intros x y c Hx Hy Hc. unfold texel, lut_image. cbn [sh_block pb_size pb_data bs_w bs_h bs_nc].
    replace ((0 <=? x) && (x <? n * n) && (0 <=? y) && (y <? h) && (0 <=? c) && (c <? 3)) with true by lia.
    reflexivity. }
  split.
  - intros r g b R G Bb.
    assert (0 <= g * n + r < n * n) by nia.
    assert (Q : forall c, 0 <= c < 3 -> texel (lut_image (pb_size (PB (BS (n * n) h 3) (DF32 out)))
        (PB (BS (n * n) h 3) (DF32 out)) (set_color_space spec_new cs)) (g * n + r) b c
        = Some (lut_value (match c with 0 => r | 1 => g | _ => b end) n)).
    { intros c C. rewrite T by lia. rewrite A.
      assert (I : 0 <= b * (n * n) + (g * n + r) < n * n * n) by nia.
      replace ((0 <=? 3 * (b * (n * n) + (g * n + r)) + c) && (3 * (b * (n * n) + (g * n + r)) + c <? 3 * (n * n * n)))
        with true by lia.
      now rewrite cube_value_at by lia. }
    split; [|split]; (apply lut_grid; [lia|lia|]); [exact (Q 0 ltac:(lia))|exact (Q 1 ltac:(lia))|exact (Q 2 ltac:(lia))].
  - intros x y c Hx Hy Hc. rewrite T by lia. rewrite A.
    assert (n * n * n <= y * (n * n) + x) by nia. assert (y * (n * n) + x < n * n * h) by nia.
    replace ((0 <=? 3 * (y * (n * n) + x) + c) && (3 * (y * (n * n) + x) + c <? 3 * (n * n * n))) with false by lia.
    replace ((0 <=? 3 * (y * (n * n) + x) + c) && (3 * (y * (n * n) + x) + c <? 3 * (n * n * h))) with true by lia.
    reflexivity.
Qed.
End Api.

(** Proofs about the contents of conversion and colour operation tables. *)
From Coq Require String.
Import String.StringSyntax.
From Coq Require Import Floats.SpecFloat.
From Verif Require Import Machine Loops FloatModel BBoxModel PixelModel MergeModel CacheModel CacheProofs AttrModel HashModel
  StreamModel GradeModel DeformModel BakeModel BakeSpec BakeProofs NodeModel LutModel LutSpec LutProofs LutProofs2.

(** Checking concrete byte strings for collisions. *)
Definition collision_free (digest : list Z -> Z) (used : list (list Z)) : bool :=
  forallb (fun a => forallb (fun b => negb (digest a =? digest b) || bytes_eqb a b) used) used.
Lemma collision_check digest used : collision_free digest used = true -> no_collisions digest used.
Proof.
  unfold collision_free. intros H a b Ia Ib E. rewrite forallb_forall in H. specialize (H a Ia).
  rewrite forallb_forall in H. specialize (H b Ib). rewrite E, Z.eqb_refl in H. cbn in H. now apply bytes_eqb_true.
Qed.

Section Contents.
Context {D : Type}.
Variable p : profile.
Variable X : externals D.

(** The table of colour operations holds, for every grid colour, what the
    operations make of it. *)
Theorem ops_table n ops : 2 <= n <= 894 ->
  exists img h idl, generate_ops_lut p X n 3 ops = Ok img
    /\ generate_transform_lut p X n 3 linear_name linear_name = Ok idl
    /\ pb_size (sh_block img) = BS (n * n) h 3
    /\ sh_data img = BBox 0 0 (n * n) h /\ sh_display img = sh_data img
    /\ sp_color_space (sh_spec img) = linear_name
    /\ forall x y, 0 <= x < n * n -> 0 <= y < h -> exists r g b r' g' b',
         texel idl x y 0 = Some r /\ texel idl x y 1 = Some g /\ texel idl x y 2 = Some b
         /\ texel img x y 0 = Some r' /\ texel img x y 1 = Some g' /\ texel img x y 2 = Some b'
         /\ (r', g', b') = rgb_meaning (nx_powf (x_numerics X)) identity4 ops (r, g, b).
Proof.
  intro N. destruct (identity_block_3 p n N) as (h & out & E & B & XX & L & A).
  unfold generate_ops_lut, generate_transform_lut. rewrite E. cbn [bind].
  assert (H0 : 0 <= n * n * h) by nia.
  destruct (flat3_of (Z.to_nat (n * n * h)) out) as (ps & -> & LP).
  { unfold zlen in L. lia. }
  rewrite colorgrade_3. cbn [bind pb_size].
  unfold bake_colorspace. cbn [pb_convert db_convert db_type pb_data datatype_eqb]. cbn [bind].
  rewrite bytes_eqb_refl. cbn [bind pb_size].
  eexists _, h, _. split; [reflexivity|]. split; [reflexivity|]. split; [reflexivity|].
  split; [reflexivity|]. split; [reflexivity|]. split; [reflexivity|].
  intros x y Hx Hy.
  assert (I : 0 <= y * (n * n) + x < n * n * h) by nia.
  destruct (nth_error ps (Z.to_nat (y * (n * n) + x))) as [[[r g] b]|] eqn:Q.
  2:{ apply nth_error_None in Q. lia. }
  destruct (rgb_meaning (nx_powf (x_numerics X)) identity4 ops (r, g, b)) as [[r' g'] b'] eqn:M.
  assert (T : forall qs cs c v, 0 <= c < 3 -> nth_error qs (Z.to_nat (y * (n * n) + x)) = Some v ->
    texel (lut_image (BS (n * n) h 3) (PB (BS (n * n) h 3) (DF32 (flat3 qs))) cs) x y c
    = let '(r, g, b) := v in nth_error [r; g; b] (Z.to_nat c)).
  { intros qs cs c [[r0 g0] b0] C V. unfold texel, lut_image. cbn [sh_block pb_size pb_data bs_w bs_h bs_nc].
    replace ((0 <=? x) && (x <? n * n) && (0 <=? y) && (y <? h) && (0 <=? c) && (c <? 3)) with true by lia.
    unfold at_z. replace (0 <=? 3 * (y * (n * n) + x) + c) with true by lia.
    rewrite nth_flat3.
    replace (Z.to_nat (3 * (y * (n * n) + x) + c)) with (Z.to_nat (y * (n * n) + x) * 3 + Z.to_nat c)%nat by lia.
    rewrite Nat.div_add_l, (Nat.div_small (Z.to_nat c)), Nat.add_0_r, V by lia.
    rewrite Nat.add_comm, Nat.mod_add, Nat.mod_small by lia. reflexivity. }
  pose proof (map_nth_error (rgb_meaning (nx_powf (x_numerics X)) identity4 ops) _ ps Q) as Q'. rewrite M in Q'.
  exists r, g, b, r', g', b'. rewrite (T ps _ 0 _ ltac:(lia) Q), (T ps _ 1 _ ltac:(lia) Q), (T ps _ 2 _ ltac:(lia) Q).
  rewrite (T _ _ 0 _ ltac:(lia) Q'), (T _ _ 1 _ ltac:(lia) Q'), (T _ _ 2 _ ltac:(lia) Q'). auto 8.
Qed.

(** One channel: a single row, the operations seeing each value as alpha. *)
Theorem ops_ramp n ops : 2 <= n <= 2 ^ 24 ->
  exists img, generate_ops_lut p X n 1 ops = Ok img
    /\ pb_size (sh_block img) = BS n 1 1
    /\ sh_data img = BBox 0 0 n 1 /\ sh_display img = sh_data img
    /\ sp_color_space (sh_spec img) = linear_name
    /\ forall x, 0 <= x < n -> exists a, grid_value (Some a) x n
         /\ texel img x 0 0 = Some (alpha_meaning (nx_powf (x_numerics X)) identity4 ops a).
Proof.
  intro N. unfold generate_ops_lut, identity_block, lut_size. change (1 =? 1) with true. cbv iota. cbn [bind].
  unfold pb_new, bs_size. cbn [bs_w bs_h bs_nc].
  rewrite i32_of_ok by (unfold two31; lia). cbn [bind]. rewrite i32_of_ok by (unfold two31; lia). cbn [bind].
  rewrite i32_as_usize_ok by (unfold two31; lia). unfold db_new. rewrite alloc_ok by (unfold two31; lia). cbn [bind pb_data slice_f32].
  set (z := repeat f32_zero (Z.to_nat (n * 1 * 1))).
  assert (L : zlen z = n) by (unfold z; rewrite zlen_repeat; lia).
  destruct (identity_lut_1 p z n) as (out & Eo & Lo & A); [unfold two31; lia|lia|].
  rewrite Eo. cbn [bind]. rewrite colorgrade_1. cbn [bind pb_size].
  eexists. do 5 (split; [reflexivity|]). intros x Hx. exists (lut_value x n). split; [apply lut_grid; [lia|lia|reflexivity]|].
  unfold texel, lut_image. cbn [sh_block pb_size pb_data bs_w bs_h bs_nc].
  replace ((0 <=? x) && (x <? n) && (0 <=? 0) && (0 <? 1) && (0 <=? 0) && (0 <? 1)) with true by lia.
  replace (1 * (0 * n + x) + 0) with x by lia. specialize (A x). replace ((0 <=? x) && (x <? n)) with true in A by lia.
  unfold at_z in *. destruct (0 <=? x); [|discriminate A]. now apply map_nth_error.
Qed.

(** Any other number of channels aborts, the two the size is computed for too. *)
Theorem ops_channels s n nc cap : nc <> 1 -> nc <> 3 -> get_ops_lut p X s n nc (with_capacity cap) = Panic.
Proof.
  intros N1 N3. assert (G : generate_ops_lut p X n nc (st_ops s) = Panic).
  { unfold generate_ops_lut. replace (identity_block p n nc) with (@Panic pixelblock); [reflexivity|].
    unfold identity_block. destruct (lut_size p n nc) as [(w, h)|]; cbn [bind]; [|reflexivity].
    destruct (pb_new p (BS w h nc) Float32) as [b|]; cbn [bind]; [|reflexivity].
    destruct (slice_f32 (pb_data b)) as [l|]; cbn [bind]; [|reflexivity].
    unfold identity_lut. rewrite (proj2 (Z.eqb_neq _ _) N1), (proj2 (Z.eqb_neq _ _) N3). reflexivity. }
  unfold get_ops_lut. destruct (ops_lut_bytes p X n nc (st_ops s)) as [b|]; cbn [bind]; [|reflexivity].
  unfold get_lut. rewrite G. cbn. reflexivity.
Qed.

(** The table of a conversion is the converter's result on the identity cube,
    or the identity cube if the converter fails. *)
Theorem conversion_table n from to : 2 <= n <= 894 -> bytes_eqb from to = false ->
  exists idl px h, generate_transform_lut p X n 3 from from = Ok idl
    /\ sh_block idl = PB (BS (n * n) h 3) (DF32 px)
    /\ generate_transform_lut p X n 3 from to =
         match x_convert X px (n * n) h 3 (-1) false from to with
         | Some px' => Ok (Shared (PB (BS (n * n) h 3) (DF32 px')) (sh_display idl) (sh_data idl)
                             (set_color_space (sh_spec idl) to))
         | None => Ok idl
         end.
Proof.
  intros N NE. destruct (identity_block_3 p n N) as (h & out & E & _).
  unfold generate_transform_lut. rewrite E. cbn [bind].
  unfold bake_colorspace.
  change (pb_convert (PB (BS (n * n) h 3) (DF32 out)) Float32) with (Ok (PB (BS (n * n) h 3) (DF32 out))).
  cbn [bind]. rewrite bytes_eqb_refl, NE. cbn [bind pb_size bs_nc bs_w bs_h slice_f32 pb_data].
  change (3 >? 3) with false. cbv iota.
  eexists _, out, h. split; [reflexivity|]. split; [reflexivity|].
  cbn [sp_unassociated_alpha set_color_space spec_new].
  destruct (x_convert X out (n * n) h 3 (-1) false from to) as [px'|]; reflexivity.
Qed.

(** A warm cache answers the second of two requests that share a key with the
    table of the first. *)
Theorem shared_key_answer from to n from' to' n' cap img c :
  cap <> 0 -> transform_lut_bytes n from to = transform_lut_bytes n' from' to' ->
  get_transform_lut p X from to n (with_capacity cap) = Ok (img, c) ->
  exists c', get_transform_lut p X from' to' n' c = Ok (img, c').
Proof.
  intros C E G. unfold get_transform_lut in *. rewrite <- E. unfold get_lut in *.
  set (k := x_digest X (transform_lut_bytes n from to)) in *.
  cbn [get with_capacity lru lhm_get_refresh lhm_find] in G.
  apply bind_ok in G. destruct G as (i & Ei & G). apply bind_ok in G. destruct G as (c2 & Ec & G).
  assert (i = img /\ c2 = c) as [-> ->] by (split; congruence).
  pose proof (fun H => insert_then_get image_bytes p _ _ _ _ H Ec) as W. cbn [capacity with_capacity] in W.
  specialize (W C).
  destruct (get c k) as [c3 o]. cbn [snd] in W. subst o. eauto.
Qed.
End Contents.

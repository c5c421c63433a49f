From Coq Require Import Floats.SpecFloat.
From Verif Require Import Machine Loops FloatModel BBoxModel BBoxSpec PixelModel PixelSpec PixelProofs MergeModel StreamModel NodeModel CrateModel CrateSpec.

Definition scaled (s : Z) : f32 := f32_div (f32_of_Z s) (f32_of_Z 255).
Definition about_b (v : f32) (n d : Z) : bool :=
  a_number v && (Z.abs (sf_num v * d - n * sf_den v) * 2 ^ 22 <=? n * sf_den v).
Lemma about_of v n d : about_b v n d = true -> about v n d.
Proof. unfold about_b, about. intro H. apply andb_prop in H. destruct H as [H1 H2]. split; [exact H1|now apply Z.leb_le]. Qed.

Definition bright_base (x : f32) : f32 :=
  f32_mul (f32_add x lit_055) (f32_div f32_one (f32_add f32_one lit_055)).
Definition light_b (s : Z) : bool :=
  let x := scaled s in
  if s <=? 10 then f32_le x lit_04045 && about_b (f32_mul x (f32_div f32_one lit_1292)) (100 * s) (255 * 1292)
  else negb (f32_le x lit_04045) && about_b (bright_base x) (1000 * s + 255 * 55) (255 * 1055).

Lemma light_checked : forallb light_b (zrange 0 256) = true.
Proof. vm_compute. reflexivity. Qed.
Lemma exponent : about_b lit_24 24 10 = true.
Proof. vm_compute. reflexivity. Qed.

Lemma decoded : forall pow s, 0 <= s <= 255 -> light_of pow s (srgb_to_linear pow (scaled s)).
Proof.
  intros pow s H. pose proof light_checked as L. rewrite forallb_forall in L. specialize (L s).
  rewrite zrange_in in L. specialize (L ltac:(lia)). unfold light_b in L. cbv zeta in L.
  unfold light_of, srgb_to_linear. fold (bright_base (scaled s)).
  destruct (s <=? 10) eqn:S; apply andb_prop in L; destruct L as [L1 L2].
  - left. apply Z.leb_le in S. rewrite L1. split; [exact S|]. exact (about_of _ _ _ L2).
  - right. apply Z.leb_gt in S. apply Bool.negb_true_iff in L1. rewrite L1. split; [lia|].
    exists (bright_base (scaled s)), lit_24. split; [reflexivity|]. split; [exact (about_of _ _ _ L2)|exact (about_of _ _ _ exponent)].
Qed.

(** A block is taken from data exactly when the data has the length its size
    says. *)
Lemma taken : forall p b d, 0 <= bs_w b -> 0 <= bs_h b -> 0 <= bs_nc b -> count_fits (bs_w b) (bs_h b) (bs_nc b) ->
  pb_from_datablock p b d = if db_len d =? bs_w b * bs_h b * bs_nc b then Ok (PB b d) else Panic.
Proof.
  intros p b d W H N F. unfold pb_from_datablock. rewrite (bs_size_ok p b W H N F). cbn [bind].
  now rewrite Z.eqb_sym.
Qed.

Lemma wrap_same : forall z, 0 <= z < two31 -> wrap_i32 z = z.
Proof. intros z H. unfold wrap_i32, two31, two32 in *. rewrite Z.mod_small; lia. Qed.

Lemma read_exact : forall p pow img, whole_picture img ->
  let win := BBox 0 0 (di_w img) (di_h img) in
  read_with_crate p pow (Some img) =
  Ok (Shared (PB (BS (di_w img) (di_h img) (channels (di_kind img))) (DF32 (map (fun x => srgb_to_linear pow (scaled x)) (di_samples img)))) win win spec_new).
Proof.
  intros p pow [w h k ss] (K & W & H & F & L & S). cbn [di_w di_h di_kind di_samples] in *.
  assert (NK : 0 <= channels k) by (destruct k; cbn [channels]; lia). cbv zeta.
  unfold read_with_crate, from_dynamic_image. cbn [di_w di_h di_kind di_samples]. cbv zeta. rewrite !wrap_same by assumption.
  fold (channels k).
  replace (match k with Rgb8 => Ok ss | Rgba8 => Ok ss | OtherKind => Panic end) with (Ok ss) by (destruct k; congruence).
  cbn [bind]. rewrite taken; cbn [bs_w bs_h bs_nc]; [|lia|lia|exact NK|exact F].
  unfold db_len. rewrite zlen_map, L, Z.eqb_refl. reflexivity.
Qed.

Lemma read_whole : forall p pow img, whole_picture img ->
  exists pb, let win := BBox 0 0 (di_w img) (di_h img) in
  read_with_crate p pow (Some img) = Ok (Shared pb win win spec_new) /\
  wf_block pb /\ pb_size pb = BS (di_w img) (di_h img) (channels (di_kind img)) /\ db_type (pb_data pb) = Float32 /\
  forall x y c, in_box win x y -> 0 <= c < channels (di_kind img) ->
    exists s v, at_z (di_samples img) ((y * di_w img + x) * channels (di_kind img) + c) = Some s /\
      pixel_val pb win x y c = Some (EF v) /\ light_of pow s v.
Proof.
  intros p pow [w h k ss] (K & W & H & F & L & S). cbn [di_w di_h di_kind di_samples] in *.
  exists (PB (BS w h (channels k)) (DF32 (map (fun x => srgb_to_linear pow (scaled x)) ss))).
  assert (NK : 0 <= channels k) by (destruct k; cbn [channels]; lia).
  cbv zeta. split; [|split; [|split; [|split]]].
  - exact (read_exact p pow (DynImage w h k ss) (conj K (conj W (conj H (conj F (conj L S)))))).
  - unfold wf_block. cbn [pb_size pb_data bs_w bs_h bs_nc]. unfold db_len. rewrite zlen_map. lia.
  - reflexivity.
  - reflexivity.
  - intros x y c I C. unfold in_box in I. cbn [min_x min_y max_x max_y] in I.
    assert (R : 0 <= (y * w + x) * channels k + c < zlen ss).
    { rewrite L. assert (y * w + x + 1 <= w * h) by nia. nia. }
    destruct (at_z_some ss _ R) as (s & E). exists s, (srgb_to_linear pow (scaled s)). split; [exact E|]. split.
    + unfold pixel_val, offset. cbn [pb_size pb_data elems bs_nc min_x min_y max_x max_y]. rewrite !Z.sub_0_r, !at_z_map, E. reflexivity.
    + apply decoded. rewrite Forall_forall in S. apply S. unfold at_z in E. destruct (0 <=? _); [|discriminate]. eapply nth_error_In, E.
Qed.

(** What is written for one value. *)
Definition byte_of (pow : f32 -> f32 -> f32) (x : f32) : Z := f32_as_u8 (f32_mul (linear_to_srgb pow x) (f32_of_Z 255)).

Lemma written : forall pow save img l, wf_block (sh_block img) ->
  let b := pb_size (sh_block img) in bs_w b < two31 -> bs_h b < two31 ->
  pb_data (sh_block img) = DF32 l ->
  write_with_crate pow save img =
  Ok (if (bs_nc b =? 3) || (bs_nc b =? 4) then save (ImageBuffer (bs_w b) (bs_h b) (bs_nc b) (map (byte_of pow) l)) else false).
Proof.
  intros pow save [[b d] dw cw sp] l (W & H & N & L) b' BW BH E. cbn [sh_block pb_size pb_data] in *. subst d b'.
  unfold db_len in L.
  unfold write_with_crate, image_buffer_u8, from_raw. cbn [sh_block pb_size pb_data slice_f32 bind].
  fold (byte_of pow). rewrite zlen_map, L, !Z.mod_small by (unfold two32, two31 in *; lia).
  destruct (bs_nc b =? 3) eqn:E3; [apply Z.eqb_eq in E3; rewrite E3, Z.leb_refl; reflexivity|].
  destruct (bs_nc b =? 4) eqn:E4; [apply Z.eqb_eq in E4; rewrite E4, Z.leb_refl; reflexivity|]. reflexivity.
Qed.

(** The darkest samples come back. *)
Definition dark_b (s : Z) : bool :=
  let x := f32_mul (scaled s) (f32_div f32_one lit_1292) in
  f32_le (scaled s) lit_04045 && f32_le x lit_0031308 &&
  (f32_as_u8 (f32_mul (f32_mul x lit_1292) (f32_of_Z 255)) =? s).
Lemma dark_checked : forallb dark_b (zrange 0 11) = true.
Proof. vm_compute. reflexivity. Qed.
Lemma dark : forall pow s, 0 <= s <= 10 -> byte_of pow (srgb_to_linear pow (scaled s)) = s.
Proof.
  intros pow s H. pose proof dark_checked as L. rewrite forallb_forall in L. specialize (L s).
  rewrite zrange_in in L. specialize (L ltac:(lia)). unfold dark_b in L. cbv zeta in L.
  apply andb_prop in L. destruct L as [L L3]. apply andb_prop in L. destruct L as [L1 L2].
  unfold byte_of, srgb_to_linear, linear_to_srgb. rewrite L1, L2. now apply Z.eqb_eq.
Qed.

(** White does not, however good the powers are. *)
Lemma white : forall pow, (forall e, pow f32_one e = f32_one) -> byte_of pow (srgb_to_linear pow (scaled 255)) = 254.
Proof.
  intros pow P.
  assert (E : srgb_to_linear pow (scaled 255) = pow f32_one lit_24) by (unfold srgb_to_linear; vm_compute; reflexivity).
  rewrite E, P. unfold byte_of, linear_to_srgb.
  replace (f32_le f32_one lit_0031308) with false by (vm_compute; reflexivity). rewrite P. vm_compute. reflexivity.
Qed.

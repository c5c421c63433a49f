(** Proofs about colour spaces in baking. *)
From Coq Require Import Floats.SpecFloat.
From Verif Require Import Machine FloatModel BBoxModel PixelModel MergeModel MergeSpec EnumModel AttrModel
  StreamModel GradeModel DeformModel BakeModel BakeSpec BakeProofs SpaceSpec.

Section Space.
Variables (p : profile) (nx : numerics) (convert : list f32 -> Z -> Z -> Z -> Z -> bool -> list Z -> list Z -> option (list f32)).

Lemma colorspace_step w h nc blk sp from to px px' : nc = 3 \/ nc = 4 ->
  pb_convert blk Float32 = Ok (PB (BS w h nc) (DF32 px)) -> into_space convert w h nc sp from to px px' ->
  exists sp', bake_colorspace convert blk sp from to = Ok (PB (BS w h nc) (DF32 px'), sp') /\
    sp_unassociated_alpha sp' = sp_unassociated_alpha sp /\ forall c, set_color_space sp' c = set_color_space sp c.
Proof.
  intros N C I. unfold bake_colorspace. rewrite C. cbn [bind]. destruct I as [(-> & ->)|(NE & I)].
  - rewrite bytes_eqb_refl. exists sp. split; [reflexivity|]. split; reflexivity.
  - destruct (bytes_eqb from to) eqn:E; [apply bytes_eqb_true in E; contradiction|].
    cbn [pb_size pb_data bs_w bs_h bs_nc slice_f32 bind].
    replace (if nc >? 3 then 3 else -1) with (if nc =? 4 then 3 else -1) by (destruct N as [-> | ->]; reflexivity).
    rewrite I. eexists. split; [reflexivity|]. split; reflexivity.
Qed.

Lemma bake_spaces w h nc blk px px1 px2 px3 disp data sp s from to ty r : nc = 3 \/ nc = 4 ->
  pb_convert blk Float32 = Ok (PB (BS w h nc) (DF32 px)) ->
  into_space convert w h nc sp from linear_name px px1 ->
  bake_colorgrade nx (PB (BS w h nc) (DF32 px1)) (st_matrix s) (st_ops s) = Ok (PB (BS w h nc) (DF32 px2)) ->
  enabled (st_deformers s) = [] ->
  into_space convert w h nc sp linear_name to px2 px3 ->
  ty <> UnknownType -> pb_convert (PB (BS w h nc) (DF32 px3)) ty = Ok r ->
  do_process p nx convert BakeAll blk disp data sp s from to ty =
  Ok (Baked r data (set_color_space sp to)
        (Stream (st_state s) (st_hash s) (st_display s) (st_data s) identity4 (st_spec s) (st_block s) [] [])).
Proof.
  intros N C I1 G D I2 T R. unfold do_process.
  replace (match ty with UnknownType => db_type (pb_data blk) | _ => ty end) with ty by (destruct ty; congruence).
  destruct (colorspace_step w h nc blk sp from linear_name px px1 N C I1) as (sp1 & -> & U1 & S1). cbn [bind].
  unfold bake_stream_colorgrade. rewrite G. cbn [bind]. cbn [st_deformers clear_color_ops set_color_matrix].
  unfold deform_pixels. rewrite D. cbn [bind].
  assert (I2' : into_space convert w h nc sp1 linear_name to px2 px3) by (unfold into_space in *; rewrite U1; exact I2).
  destruct (colorspace_step w h nc (PB (BS w h nc) (DF32 px2)) sp1 linear_name to px2 px3 N (pb_convert_f32 _ _) I2') as (sp2 & -> & _ & S2).
  cbn [bind]. rewrite R. cbn [bind]. rewrite S2, S1. reflexivity.
Qed.

Lemma spaces_4 w h blk ps ps1 px disp data sp s from to ty r :
  pb_convert blk Float32 = Ok (PB (BS w h 4) (DF32 (flat4 ps))) ->
  into_space convert w h 4 sp from linear_name (flat4 ps) (flat4 ps1) ->
  enabled (st_deformers s) = [] ->
  into_space convert w h 4 sp linear_name to (flat4 (map (pixel_meaning (nx_powf nx) (st_matrix s) (st_ops s)) ps1)) px ->
  ty <> UnknownType -> pb_convert (PB (BS w h 4) (DF32 px)) ty = Ok r ->
  do_process p nx convert BakeAll blk disp data sp s from to ty =
  Ok (Baked r data (set_color_space sp to)
        (Stream (st_state s) (st_hash s) (st_display s) (st_data s) identity4 (st_spec s) (st_block s) [] [])).
Proof. intros C I1 D I2 T R. eapply bake_spaces; try eassumption; [now right|]. apply colorgrade_4. Qed.
Lemma spaces_3 w h blk ps ps1 px disp data sp s from to ty r :
  pb_convert blk Float32 = Ok (PB (BS w h 3) (DF32 (flat3 ps))) ->
  into_space convert w h 3 sp from linear_name (flat3 ps) (flat3 ps1) ->
  enabled (st_deformers s) = [] ->
  into_space convert w h 3 sp linear_name to (flat3 (map (rgb_meaning (nx_powf nx) (st_matrix s) (st_ops s)) ps1)) px ->
  ty <> UnknownType -> pb_convert (PB (BS w h 3) (DF32 px)) ty = Ok r ->
  do_process p nx convert BakeAll blk disp data sp s from to ty =
  Ok (Baked r data (set_color_space sp to)
        (Stream (st_state s) (st_hash s) (st_display s) (st_data s) identity4 (st_spec s) (st_block s) [] [])).
Proof. intros C I1 D I2 T R. eapply bake_spaces; try eassumption; [now left|]. apply colorgrade_3. Qed.

(** A conversion that fails is skipped. *)
Lemma failed_spaces blk disp data sp s from to ty :
  do_process p nx (fun _ _ _ _ _ _ _ _ => None) BakeAll blk disp data sp s from to ty =
  let* r := do_process p nx convert BakeAll blk disp data sp s linear_name linear_name ty in
  Ok (Baked (bk_block r) (bk_data r) (set_color_space sp to) (bk_stream r)).
Proof.
  assert (N : forall blk sp a b, bake_colorspace (fun _ _ _ _ _ _ _ _ => None) blk sp a b =
     let* r := bake_colorspace convert blk sp linear_name linear_name in
     let* _ := (if bytes_eqb a b then Ok tt else let* _ := slice_f32 (pb_data (fst r)) in Ok tt) in Ok r).
  { intros b0 s0 a b. unfold bake_colorspace. destruct (pb_convert b0 Float32) as [b1|]; [|reflexivity]. cbn [bind].
    rewrite bytes_eqb_refl. cbn [bind fst]. destruct (bytes_eqb a b); [reflexivity|]. destruct (slice_f32 (pb_data b1)); reflexivity. }
  assert (F : forall b0 b1, pb_convert b0 Float32 = Ok b1 -> exists l, slice_f32 (pb_data b1) = Ok l).
  { intros b0 b1 E. unfold pb_convert in E. destruct (pb_data b0); cbn [db_convert bind] in E; injection E as <-; eexists; reflexivity. }
  assert (N' : forall blk sp a b, bake_colorspace (fun _ _ _ _ _ _ _ _ => None) blk sp a b = bake_colorspace convert blk sp linear_name linear_name).
  { intros b0 s0 a b. rewrite N. unfold bake_colorspace. destruct (pb_convert b0 Float32) as [b1|] eqn:E; [|reflexivity]. cbn [bind].
    rewrite bytes_eqb_refl. cbn [bind fst]. destruct (bytes_eqb a b); [reflexivity|]. destruct (F _ _ E) as (l & ->). reflexivity. }
  assert (K : forall blk sp b1 sp1, bake_colorspace convert blk sp linear_name linear_name = Ok (b1, sp1) -> sp1 = sp).
  { intros b0 s0 b1 sp1. unfold bake_colorspace. destruct (pb_convert b0 Float32); [|discriminate]. cbn [bind]. rewrite bytes_eqb_refl. now intros [= _ <-]. }
  unfold do_process. rewrite N'. destruct (bake_colorspace convert blk sp linear_name linear_name) as [[b1 sp1]|] eqn:E1; [|reflexivity]. cbn [bind].
  apply K in E1. subst sp1.
  destruct (bake_stream_colorgrade _ _ _) as [[b2 s2]|]; [|reflexivity]. cbn [bind].
  destruct (deform_pixels _ _ _ _ _ _) as [[b3 d3]|]; [|reflexivity]. cbn [bind]. rewrite N'.
  destruct (bake_colorspace convert b3 sp linear_name linear_name) as [[b4 sp4]|] eqn:E4; [|reflexivity]. cbn [bind].
  apply K in E4. subst sp4.
  destruct (pb_convert b4 _); reflexivity.
Qed.
End Space.

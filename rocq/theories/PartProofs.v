(** Proofs about bake options. *)
From Coq Require String.
Import String.StringSyntax.
From Coq Require Import Floats.SpecFloat.
From Verif Require Import Machine Loops FloatModel BBoxModel PixelModel PixelSpec MergeModel MergeSpec EnumModel AttrModel CacheModel
  StreamModel GradeModel DeformModel BakeModel BakeSpec BakeProofs SpaceSpec SpaceProofs GraphModel NodeModel HashModel
  NodeSpec NodeProofs ViewSpec ViewProofs PartSpec.
Local Open Scope string_scope.

Section Part.
Variables (p : profile) (nx : numerics) (convert : list f32 -> Z -> Z -> Z -> Z -> bool -> list Z -> list Z -> option (list f32)).
Notation bake := (do_process p nx convert).

Lemma nothing_done blk disp data sp s from to ty : bake BakeNothing blk disp data sp s from to ty = Ok (Baked blk data sp s).
Proof. reflexivity. Qed.

Lemma space_step w h nc blk sp from to px px' : nc = 1 \/ nc = 3 \/ nc = 4 ->
  pb_convert blk Float32 = Ok (PB (BS w h nc) (DF32 px)) -> into_space convert w h nc sp from to px px' ->
  bake_colorspace convert blk sp from to =
  Ok (PB (BS w h nc) (DF32 px'), if bytes_eqb from to then sp else set_color_space sp to).
Proof.
  intros N C I. unfold bake_colorspace. rewrite C. cbn [bind]. destruct I as [(-> & ->)|(NE & I)].
  - now rewrite bytes_eqb_refl.
  - destruct (bytes_eqb from to) eqn:E; [apply bytes_eqb_true in E; contradiction|].
    cbn [pb_size pb_data bs_w bs_h bs_nc slice_f32 bind].
    replace (if nc >? 3 then 3 else -1) with (if nc =? 4 then 3 else -1) by (destruct N as [-> | [-> | ->]]; reflexivity).
    now rewrite I.
Qed.

Lemma color_space w h nc blk px px' disp data sp s from to ty r : nc = 1 \/ nc = 3 \/ nc = 4 ->
  pb_convert blk Float32 = Ok (PB (BS w h nc) (DF32 px)) -> into_space convert w h nc sp from to px px' ->
  pb_convert (PB (BS w h nc) (DF32 px')) (asked_type ty blk) = Ok r -> sp_color_space sp = from ->
  bake BakeColorSpace blk disp data sp s from to ty = Ok (Baked r data (set_color_space sp to) s).
Proof.
  intros N C I R F. unfold do_process. rewrite (space_step w h nc blk sp from to px px' N C I). cbn [bind].
  fold (asked_type ty blk). rewrite R. cbn [bind]. destruct (bytes_eqb from to) eqn:E; [|reflexivity].
  apply bytes_eqb_true in E. subst. destruct sp; reflexivity.
Qed.

Lemma color_space_failed b blk px disp data sp s from to ty r :
  pb_convert blk Float32 = Ok (PB b (DF32 px)) ->
  (forall c u, convert px (bs_w b) (bs_h b) (bs_nc b) c u from to = None) ->
  pb_convert (PB b (DF32 px)) (asked_type ty blk) = Ok r ->
  bake BakeColorSpace blk disp data sp s from to ty = Ok (Baked r data sp s).
Proof.
  intros C F R. unfold do_process, bake_colorspace. rewrite C. cbn [bind]. fold (asked_type ty blk).
  destruct (bytes_eqb from to); cbn [bind].
  - rewrite R. reflexivity.
  - cbn [pb_size pb_data slice_f32 bind]. rewrite F. cbn [bind]. rewrite R. reflexivity.
Qed.

Lemma coloured_step w h nc m ops px px' : coloured (nx_powf nx) m ops nc px px' ->
  bake_colorgrade nx (PB (BS w h nc) (DF32 px)) m ops = Ok (PB (BS w h nc) (DF32 px')).
Proof.
  intros [(-> & ps & -> & ->)|[(-> & ps & -> & ->)|(-> & ->)]]; [apply colorgrade_4|apply colorgrade_3|apply colorgrade_1].
Qed.
Lemma coloured_nc powf m ops nc px px' : coloured powf m ops nc px px' -> nc = 1 \/ nc = 3 \/ nc = 4.
Proof. intros [(-> & _)|[(-> & _)|(-> & _)]]; auto. Qed.

Lemma grade_done w h nc blk px px1 px2 px3 disp data sp s from to ty r :
  pb_convert blk Float32 = Ok (PB (BS w h nc) (DF32 px)) ->
  into_space convert w h nc sp from linear_name px px1 ->
  coloured (nx_powf nx) (st_matrix s) (st_ops s) nc px1 px2 ->
  into_space convert w h nc sp linear_name to px2 px3 ->
  pb_convert (PB (BS w h nc) (DF32 px3)) (asked_type ty blk) = Ok r ->
  bake BakeColorSpaceAndGrade blk disp data sp s from to ty = Ok (Baked r data (set_color_space sp to) (colours_done s)).
Proof.
  intros C I1 G I2 R. pose proof (coloured_nc _ _ _ _ _ _ G) as N. unfold do_process. fold (asked_type ty blk).
  rewrite (space_step w h nc blk sp from linear_name px px1 N C I1). cbn [bind].
  unfold bake_stream_colorgrade. rewrite (coloured_step _ _ _ _ _ _ _ G). cbn [bind].
  set (sp1 := if bytes_eqb from linear_name then sp else set_color_space sp linear_name).
  assert (U : sp_unassociated_alpha sp1 = sp_unassociated_alpha sp) by (subst sp1; destruct (bytes_eqb from linear_name); reflexivity).
  assert (S : forall c, set_color_space sp1 c = set_color_space sp c) by (intro c; subst sp1; destruct (bytes_eqb from linear_name); reflexivity).
  assert (I2' : into_space convert w h nc sp1 linear_name to px2 px3) by (unfold into_space in *; rewrite U; exact I2).
  rewrite (space_step w h nc (PB (BS w h nc) (DF32 px2)) sp1 linear_name to px2 px3 N (pb_convert_f32 _ _) I2'). cbn [bind].
  rewrite R. cbn [bind]. unfold colours_done. do 2 f_equal.
  destruct (bytes_eqb linear_name to); [apply S|]. rewrite <- S. reflexivity.
Qed.

Lemma all_is_grade blk disp data sp s from to ty : enabled (st_deformers s) = [] ->
  bake BakeAll blk disp data sp s from to ty =
  let* r := bake BakeColorSpaceAndGrade blk disp data sp s from to ty in
  Ok (Baked (bk_block r) (bk_data r) (bk_spec r) (all_done s)).
Proof.
  intro D. unfold do_process. destruct (bake_colorspace convert blk sp from linear_name) as [[b1 s1]|]; [|reflexivity]. cbn [bind].
  unfold bake_stream_colorgrade. destruct (bake_colorgrade _ _ _ _) as [b2|]; [|reflexivity]. cbn [bind].
  cbn [st_deformers clear_color_ops set_color_matrix]. unfold deform_pixels. rewrite D. cbn [bind].
  destruct (bake_colorspace convert b2 s1 linear_name to) as [[b4 s4]|]; [|reflexivity]. cbn [bind].
  destruct (pb_convert b4 _); reflexivity.
Qed.

Lemma failed_grade blk disp data sp s from to ty :
  do_process p nx (fun _ _ _ _ _ _ _ _ => None) BakeColorSpaceAndGrade blk disp data sp s from to ty =
  let* r := bake BakeColorSpaceAndGrade blk disp data sp s linear_name linear_name ty in
  Ok (Baked (bk_block r) (bk_data r) (set_color_space sp to) (bk_stream r)).
Proof.
  assert (F : forall b0 b1, pb_convert b0 Float32 = Ok b1 -> exists l, slice_f32 (pb_data b1) = Ok l).
  { intros b0 b1 E. unfold pb_convert in E. destruct (pb_data b0); cbn [db_convert bind] in E; injection E as <-; eexists; reflexivity. }
  assert (N : forall blk sp a b, bake_colorspace (fun _ _ _ _ _ _ _ _ => None) blk sp a b = bake_colorspace convert blk sp linear_name linear_name).
  { intros b0 s0 a b. unfold bake_colorspace. destruct (pb_convert b0 Float32) as [b1|] eqn:E; [|reflexivity]. cbn [bind].
    rewrite bytes_eqb_refl. destruct (bytes_eqb a b); [reflexivity|]. destruct (F _ _ E) as (l & ->). reflexivity. }
  assert (K : forall blk sp b1 sp1, bake_colorspace convert blk sp linear_name linear_name = Ok (b1, sp1) -> sp1 = sp).
  { intros b0 s0 b1 sp1. unfold bake_colorspace. destruct (pb_convert b0 Float32); [|discriminate]. cbn [bind]. rewrite bytes_eqb_refl. now intros [= _ <-]. }
  unfold do_process. rewrite N. destruct (bake_colorspace convert blk sp linear_name linear_name) as [[b1 sp1]|] eqn:E1; [|reflexivity]. cbn [bind].
  apply K in E1. subst sp1.
  destruct (bake_stream_colorgrade _ _ _) as [[b2 s2]|]; [|reflexivity]. cbn [bind]. rewrite N.
  destruct (bake_colorspace convert b2 sp linear_name linear_name) as [[b4 sp4]|] eqn:E4; [|reflexivity]. cbn [bind].
  apply K in E4. subst sp4. destruct (pb_convert b4 _); reflexivity.
Qed.

Lemma converted_type b t b' : pb_convert b t = Ok b' -> db_type (pb_data b') = t /\ pb_size b' = pb_size b.
Proof.
  unfold pb_convert, db_convert. destruct (datatype_eqb (db_type (pb_data b)) t) eqn:E; cbn [bind].
  - intros [= <-]. split; [|reflexivity]. cbn [pb_data]. revert E. destruct (db_type (pb_data b)), t; try discriminate; reflexivity.
  - destruct t; [destruct (to_f32 _)|destruct (to_f16 _)|destruct (to_u8 _)|destruct (to_u16 _)|];
      cbn [bind]; try discriminate; intros [= <-]; split; reflexivity.
Qed.

Lemma type_asked opt blk disp data sp s from to ty r : opt <> BakeNothing ->
  bake opt blk disp data sp s from to ty = Ok r -> db_type (pb_data (bk_block r)) = asked_type ty blk.
Proof.
  intros N. unfold do_process. fold (asked_type ty blk). destruct opt; [contradiction| | | |discriminate].
  - destruct (bake_colorspace convert blk sp from to) as [[b1 s1]|]; [|discriminate]. cbn [bind].
    destruct (pb_convert b1 (asked_type ty blk)) as [b2|] eqn:E; [|discriminate]. cbn [bind]. intros [= <-].
    exact (proj1 (converted_type _ _ _ E)).
  - destruct (bake_colorspace convert blk sp from linear_name) as [[b1 s1]|]; [|discriminate]. cbn [bind].
    destruct (bake_stream_colorgrade _ _ _) as [[b2 s2]|]; [|discriminate]. cbn [bind].
    destruct (bake_colorspace convert b2 s1 linear_name to) as [[b3 s3]|]; [|discriminate]. cbn [bind].
    destruct (pb_convert b3 (asked_type ty blk)) as [b4|] eqn:E; [|discriminate]. cbn [bind]. intros [= <-].
    exact (proj1 (converted_type _ _ _ E)).
  - destruct (bake_colorspace convert blk sp from linear_name) as [[b1 s1]|]; [|discriminate]. cbn [bind].
    destruct (bake_stream_colorgrade _ _ _) as [[b2 s2]|]; [|discriminate]. cbn [bind].
    destruct (deform_pixels _ _ _ _ _ _) as [[b5 d5]|]; [|discriminate]. cbn [bind].
    destruct (bake_colorspace convert b5 s1 linear_name to) as [[b3 s3]|]; [|discriminate]. cbn [bind].
    destruct (pb_convert b3 (asked_type ty blk)) as [b4|] eqn:E; [|discriminate]. cbn [bind]. intros [= <-].
    exact (proj1 (converted_type _ _ _ E)).
Qed.

(** What each option leaves. *)
Lemma left_over opt blk disp data sp s from to ty r : bake opt blk disp data sp s from to ty = Ok r ->
  bk_stream r = match opt with BakeColorSpaceAndGrade => colours_done s | BakeAll => all_done s | _ => s end /\
  (opt <> BakeAll -> bk_data r = data /\ pb_size (bk_block r) = pb_size blk).
Proof.
  assert (CS : forall b sp a c b' sp', bake_colorspace convert b sp a c = Ok (b', sp') -> pb_size b' = pb_size b).
  { intros b0 sp0 a c b' sp'. unfold bake_colorspace. destruct (pb_convert b0 Float32) as [b1|] eqn:E; [|discriminate]. cbn [bind].
    pose proof (proj2 (converted_type _ _ _ E)) as Z1. destruct (bytes_eqb a c); [now intros [= <- _]|].
    destruct (slice_f32 (pb_data b1)); [|discriminate]. cbn [bind]. destruct (convert _ _ _ _ _ _ _ _); intros [= <- _]; exact Z1. }
  assert (CG : forall b m ops b', bake_colorgrade nx b m ops = Ok b' -> pb_size b' = pb_size b).
  { intros b0 m ops b'. unfold bake_colorgrade. destruct (slice_f32 _); [|discriminate]. cbn [bind].
    destruct (apply_color_matrix _ _ _); [|discriminate]. cbn [bind]. destruct (apply_color_ops _ _ _ _); [|discriminate]. cbn [bind].
    now intros [= <-]. }
  unfold do_process. fold (asked_type ty blk). destruct opt; [intros [= <-]; now split| | | |discriminate].
  - destruct (bake_colorspace convert blk sp from to) as [[b1 s1]|] eqn:E1; [|discriminate]. cbn [bind].
    destruct (pb_convert b1 (asked_type ty blk)) as [b2|] eqn:E; [|discriminate]. cbn [bind]. intros [= <-].
    split; [reflexivity|]. intros _. split; [reflexivity|]. cbn [bk_block].
    rewrite (proj2 (converted_type _ _ _ E)). exact (CS _ _ _ _ _ _ E1).
  - destruct (bake_colorspace convert blk sp from linear_name) as [[b1 s1]|] eqn:E1; [|discriminate]. cbn [bind].
    unfold bake_stream_colorgrade. destruct (bake_colorgrade _ _ _ _) as [b2|] eqn:E2; [|discriminate]. cbn [bind].
    destruct (bake_colorspace convert b2 s1 linear_name to) as [[b3 s3]|] eqn:E3; [|discriminate]. cbn [bind].
    destruct (pb_convert b3 (asked_type ty blk)) as [b4|] eqn:E; [|discriminate]. cbn [bind]. intros [= <-].
    split; [reflexivity|]. intros _. split; [reflexivity|]. cbn [bk_block].
    rewrite (proj2 (converted_type _ _ _ E)), (CS _ _ _ _ _ _ E3), (CG _ _ _ _ E2). exact (CS _ _ _ _ _ _ E1).
  - destruct (bake_colorspace convert blk sp from linear_name) as [[b1 s1]|]; [|discriminate]. cbn [bind].
    unfold bake_stream_colorgrade. destruct (bake_colorgrade _ _ _ _) as [b2|] eqn:E2; [|discriminate]. cbn [bind].
    destruct (deform_pixels _ _ _ _ _ _) as [[b5 d5]|]; [|discriminate]. cbn [bind].
    destruct (bake_colorspace convert b5 s1 linear_name to) as [[b3 s3]|]; [|discriminate]. cbn [bind].
    destruct (pb_convert b3 (asked_type ty blk)) as [b4|] eqn:E; [|discriminate]. cbn [bind]. intros [= <-].
    split; [reflexivity|]. intro H. contradiction.
Qed.

(* ------------------------------ in two stages ------------------------------ *)

Lemma plain_identity nc px px' : Forall plain_value px -> coloured (nx_powf nx) identity4 [] nc px px' ->
  Forall2 same_number px' px.
Proof.
  assert (ONE : plain_value f32_one) by (split; vm_compute; auto).
  intros P [(-> & ps & -> & ->)|[(-> & ps & -> & ->)|(-> & ->)]].
  - induction ps as [|[[[r g] b] a] ps IH]; [constructor|]. cbn [flat4 flat_map app map] in *.
    inversion_clear P as [|? ? R P1]. inversion_clear P1 as [|? ? G P2]. inversion_clear P2 as [|? ? B P3]. inversion_clear P3 as [|? ? A P4].
    pose proof (identity_pixel r g b a R G B A) as I. unfold pixel_meaning at 1. cbn [fold_left]. rewrite <- through_vec.
    destruct (mat_vec identity4 (r, g, b, a)) as [[[r' g'] b'] a']. destruct I as (I1 & I2 & I3 & I4).
    cbn [app]. repeat (constructor; [assumption|]). exact (IH P4).
  - induction ps as [|[[r g] b] ps IH]; [constructor|]. cbn [flat3 flat_map app map] in *.
    inversion_clear P as [|? ? R P1]. inversion_clear P1 as [|? ? G P2]. inversion_clear P2 as [|? ? B P3].
    pose proof (identity_pixel r g b f32_one R G B ONE) as I. unfold rgb_meaning at 1. cbn [fold_left opaque_step]. rewrite <- through_vec.
    destruct (mat_vec identity4 (r, g, b, f32_one)) as [[[r' g'] b'] a']. destruct I as (I1 & I2 & I3 & _).
    cbn [app]. repeat (constructor; [assumption|]). exact (IH P3).
  - induction px as [|a px IH]; [constructor|]. cbn [map]. inversion_clear P as [|? ? A P1]. constructor; [|exact (IH P1)].
    pose proof (identity_pixel f32_one f32_one f32_one a ONE ONE ONE A) as I. unfold alpha_meaning, alpha_step. cbn [fold_left]. rewrite <- through_vec.
    destruct (mat_vec identity4 (f32_one, f32_one, f32_one, a)) as [[[r' g'] b'] a']. apply I.
Qed.

Definition both {A} (R : A -> A -> Prop) (a b : Res A) : Prop :=
  match a, b with Ok a, Ok b => R a b | Panic, Panic => True | _, _ => False end.
Lemma both_bind {A B} (R : A -> A -> Prop) (Q : B -> B -> Prop) a a' f f' :
  both R a a' -> (forall x x', R x x' -> both Q (f x) (f' x')) -> both Q (bind a f) (bind a' f').
Proof. destruct a, a'; cbn [both bind]; intros H F; try contradiction; auto. Qed.
Lemma both_same {A} (R : A -> A -> Prop) a : (forall x, R x x) -> both R a a.
Proof. intro H. destruct a; cbn; auto. Qed.

Lemma alike_idx l l' i : Forall2 same_number l l' -> both same_number (idx l i) (idx l' i).
Proof.
  intro F. unfold idx, zlen. assert (L : length l = length l') by (clear - F; induction F; cbn; congruence). rewrite L. clear L. destruct ((0 <=? i) && (i <? Z.of_nat (length l'))); [|exact I].
  generalize (Z.to_nat i). induction F as [|a b l l' H F IH]; intros [|n]; cbn [nth_error both]; auto.
Qed.

Lemma alike_rgba l l' w h xs ys x y : Forall2 same_number l l' ->
  both same4 (sample_rgba p l w h xs ys x y) (sample_rgba p l' w h xs ys x y).
Proof.
  intro F. unfold sample_rgba. destruct (clamp_coord p x w); [|exact I]. cbn [bind]. destruct (clamp_coord p y h); [|exact I]. cbn [bind].
  destruct (get_pixel_index p w h xs ys _ _) as [i|]; [|exact I]. cbn [bind]. destruct (i >=? 0).
  - eapply both_bind; [apply alike_idx, F|]. intros. eapply both_bind; [apply alike_idx, F|]. intros.
    eapply both_bind; [apply alike_idx, F|]. intros. eapply both_bind; [apply alike_idx, F|]. intros. cbn [both same4]. auto.
  - cbn [both same4]. repeat split; now left.
Qed.
Lemma alike_rgb l l' w h xs ys x y : Forall2 same_number l l' ->
  both (fun '(r, g, b) '(r', g', b') => same_number r r' /\ same_number g g' /\ same_number b b')
    (sample_rgb p l w h xs ys x y) (sample_rgb p l' w h xs ys x y).
Proof.
  intro F. unfold sample_rgb. destruct (clamp_coord p x w); [|exact I]. cbn [bind]. destruct (clamp_coord p y h); [|exact I]. cbn [bind].
  destruct (get_pixel_index p w h xs ys _ _) as [i|]; [|exact I]. cbn [bind]. destruct (i >=? 0).
  - eapply both_bind; [apply alike_idx, F|]. intros. eapply both_bind; [apply alike_idx, F|]. intros.
    eapply both_bind; [apply alike_idx, F|]. intros. cbn [both]. auto.
  - cbn [both]. repeat split; now left.
Qed.

Lemma alike_remap l l' disp src mx my w h nc ys : Forall2 same_number l l' -> forall n coords, (length coords <= n)%nat ->
  both (Forall2 same_number) (remap_pixels p disp src mx my l w h nc ys coords) (remap_pixels p disp src mx my l' w h nc ys coords).
Proof.
  intro F. induction n as [|n IH]; intros coords L.
  - destruct coords; [|cbn in L; lia]. cbn. constructor.
  - destruct coords as [|x [|y t]]; try (cbn; constructor). cbn [remap_pixels].
    eapply (both_bind (Forall2 same_number)).
    + destruct (nc =? 4).
      * eapply both_bind; [apply alike_rgba, F|]. intros [[[r g] b] a] [[[r' g'] b'] a'] (R & G & B & A). cbn [both]. auto.
      * eapply both_bind; [apply alike_rgb, F|]. intros [[r g] b] [[r' g'] b'] (R & G & B). cbn [both]. auto.
    + intros u u' U. eapply both_bind; [apply IH; cbn in L; lia|]. intros v v' V. cbn [both]. now apply Forall2_app.
Qed.

Lemma alike_deform ds disp b l l' win : Forall2 same_number l l' ->
  both (fun '(a, w) '(a', w') => same_picture a a' /\ w = w')
    (deform_pixels nx p ds disp (PB b (DF32 l)) win) (deform_pixels nx p ds disp (PB b (DF32 l')) win).
Proof.
  intro F. unfold deform_pixels. destruct (enabled ds) as [|e es].
  { cbn [both]. split; [|reflexivity]. split; [reflexivity|]. exists l, l'. auto. }
  destruct (fold_box _ _ _ _) as [bx|]; [|exact I]. cbn [bind].
  destruct (width_i32 p _) as [dw|]; [|exact I]. cbn [bind]. destruct (height_i32 p _) as [dh|]; [|exact I]. cbn [bind pb_size pb_data db_type].
  unfold pb_resize. destruct (bs_size p _) as [n|]; [|exact I]. cbn [bind pb_data]. unfold db_resize.
  destruct (n >=? 2 ^ 63); [exact I|]. cbn [bind pb_size].
  destruct (_ || _); [exact I|]. destruct (apply_each _ _ _) as [cs|]; [|exact I]. cbn [bind].
  destruct (negb _); [exact I|]. destruct (i32_of p (bs_w b * bs_nc b)); [|exact I]. cbn [bind].
  destruct (i32_of p (max_x win - 1)); [|exact I]. cbn [bind]. destruct (i32_of p (max_y win - 1)); [|exact I]. cbn [bind].
  eapply both_bind; [eapply (alike_remap _ _ _ _ _ _ _ _ _ _ F); reflexivity|]. intros o o' O. cbn [both].
  split; [|reflexivity]. split; [reflexivity|]. exists o, o'. auto.
Qed.

Lemma coloured_total powf m ops nc n px : nc = 1 \/ nc = 3 \/ nc = 4 -> length px = (n * Z.to_nat nc)%nat -> exists px', coloured powf m ops nc px px'.
Proof.
  intros [-> | [-> | ->]] L; unfold coloured.
  - eexists. right. right. auto.
  - destruct (flat3_of n px L) as (ps & -> & _). eexists. right. left. split; [reflexivity|]. eexists. split; reflexivity.
  - destruct (flat4_of n px L) as (ps & -> & _). eexists. left. split; [reflexivity|]. eexists. split; reflexivity.
Qed.
Lemma coloured_length powf m ops nc px px' : coloured powf m ops nc px px' -> exists n, length px' = (n * Z.to_nat nc)%nat.
Proof.
  intros [(-> & ps & _ & ->)|[(-> & ps & _ & ->)|(-> & ->)]].
  - exists (length (map (pixel_meaning powf m ops) ps)). induction (map (pixel_meaning powf m ops) ps) as [|[[[r g] b] a] l IH]; [reflexivity|].
    change (length (flat4 ((r, g, b, a) :: l))) with (4 + length (flat4 l))%nat. rewrite IH. cbn [length]. lia.
  - exists (length (map (rgb_meaning powf m ops) ps)). induction (map (rgb_meaning powf m ops) ps) as [|[[r g] b] l IH]; [reflexivity|].
    change (length (flat3 ((r, g, b) :: l))) with (3 + length (flat3 l))%nat. rewrite IH. cbn [length]. lia.
  - exists (length px). rewrite map_length. lia.
Qed.

Lemma two_stages w h nc px px1 disp data sp s :
  coloured (nx_powf nx) (st_matrix s) (st_ops s) nc px px1 -> Forall plain_value px1 ->
  exists r1 : baked, bake BakeColorSpaceAndGrade (PB (BS w h nc) (DF32 px)) disp data sp s linear_name linear_name Float32 = Ok r1 /\
    same_bake
      (bake BakeAll (bk_block r1) disp (bk_data r1) (bk_spec r1) (bk_stream r1) linear_name linear_name Float32)
      (bake BakeAll (PB (BS w h nc) (DF32 px)) disp data sp s linear_name linear_name Float32).
Proof.
  intros G P. pose proof (coloured_nc _ _ _ _ _ _ G) as N. destruct (coloured_length _ _ _ _ _ _ G) as (n & L).
  destruct (coloured_total (nx_powf nx) identity4 [] nc n px1 N L) as (px2 & G2).
  pose proof (plain_identity nc px1 px2 P G2) as E.
  eexists. split.
  - eapply grade_done; [reflexivity|left; split; reflexivity|exact G|left; split; reflexivity|reflexivity].
  - cbn [bk_block bk_data bk_spec bk_stream].
    rewrite (bake_linear p nx convert w h nc px px1 disp data sp s (coloured_step w h nc _ _ _ _ G)).
    rewrite (bake_linear p nx convert w h nc px1 px2 disp data _ (colours_done s) (coloured_step w h nc _ _ _ _ G2)).
    cbn [colours_done st_deformers].
    pose proof (alike_deform (st_deformers s) disp (BS w h nc) px2 px1 data E) as A.
    destruct (deform_pixels nx p (st_deformers s) disp (PB (BS w h nc) (DF32 px2)) data) as [[a d]|],
             (deform_pixels nx p (st_deformers s) disp (PB (BS w h nc) (DF32 px1)) data) as [[a' d']|]; cbn [both bind] in *; try contradiction; [|exact I].
    destruct A as (A1 & ->). cbn [same_bake bk_block bk_data bk_spec bk_stream]. auto.
Qed.
End Part.

Lemma typed b ty : viewer_type b ty <-> datatype_of (data_type_from (gi TViewer b "bake_pixel_data_type")) = ty.
Proof.
  unfold viewer_type. change (node_get_i32 (Node TViewer 0 0 b) "bake_pixel_data_type") with (gi TViewer b "bake_pixel_data_type").
  generalize (gi TViewer b "bake_pixel_data_type"). intro k.
  assert (K : k = 0 \/ k = 1 \/ k = 2 \/ k = 3 \/ (k < 0 \/ 3 < k)) by lia.
  destruct K as [->|[->|[->|[->|K]]]]; cbn [data_type_from datatype_of].
  1-4: destruct ty; split; intro H; try reflexivity; try discriminate H; try lia.
  assert (E : data_type_from k = DtUnknown).
  { destruct k as [|q|q]; [lia| |reflexivity]. destruct q as [[q|q|]|[q|q|]|]; try reflexivity; lia. }
  rewrite E. cbn [datatype_of]. destruct ty; split; intro H; try reflexivity; try discriminate H; try lia.
Qed.

Section View.
Context {D : Type}.
Variable p : profile.
Variable x : externals D.

Lemma viewer_alone b h mode out (w : world D) fr :
  compute_op p x TViewer b fr h mode [] out w = compute_op p x TViewer b fr h mode [stream_new] out w.
Proof. reflexivity. Qed.

Lemma viewer_bakes b o ty h mode s rest out (w : world D) fr :
  gi TViewer b "enable" = 1 -> told_to_bake b o -> o <> BakeNothing -> gi TViewer b "crop_to_format" = 0 ->
  gi TViewer b "use_cache" = 0 -> viewer_type b ty ->
  compute_op p x TViewer b fr h mode (s :: rest) out w =
  let* r := do_process p (x_numerics x) (x_convert x) o (st_block s) (st_display s) (st_data s) (st_spec s) s
              (sp_color_space (st_spec s)) (node_get_str (Node TViewer 0 0 b) "bake_color_space") ty in
  Ok (NsValid, viewed s h r, w).
Proof.
  intros E T N C U Y. apply told in T. apply typed in Y. cbn [compute_op]. unfold viewer_compute. rewrite E. cbn [Z.eqb negb first_input Pos.eqb].
  assert (B : bake_from (gi TViewer b "bake_option") = o).
  { unfold viewer_bake in T. rewrite C in T. cbn [Z.eqb negb] in T. destruct (bake_from (gi TViewer b "bake_option")); exact T. }
  change (node_get_str (Node TViewer 0 0 b) "bake_color_space") with (gs TViewer b "bake_color_space").
  rewrite T, B, C, U, Y. cbn [Z.eqb negb]. unfold cached, viewer_process.
  destruct (do_process p (x_numerics x) (x_convert x) o (st_block s) (st_display s) (st_data s) (st_spec s) s
     (sp_color_space (st_spec s)) (gs TViewer b "bake_color_space") ty) as [r|] eqn:R;
    destruct o; try contradiction; cbn [bind]; try reflexivity; unfold viewed; cbn [sh_data sh_display sh_block sh_spec];
    destruct (left_over _ _ _ _ _ _ _ _ _ _ _ _ _ R) as (-> & _); cbn; try reflexivity; try discriminate R.
Qed.

(** With the cache, finding nothing there. *)
Lemma viewer_stores b o ty h mode s rest out (w : world D) fr st s' w' :
  gi TViewer b "enable" = 1 -> told_to_bake b o -> o <> BakeNothing -> gi TViewer b "crop_to_format" = 0 ->
  misses w h -> viewer_type b ty ->
  compute_op p x TViewer b fr h mode (s :: rest) out w = Ok (st, s', w') ->
  exists r, do_process p (x_numerics x) (x_convert x) o (st_block s) (st_display s) (st_data s) (st_spec s) s
              (sp_color_space (st_spec s)) (node_get_str (Node TViewer 0 0 b) "bake_color_space") ty = Ok r /\
    st = NsValid /\ s' = viewed s h r /\ w_disk w' = w_disk w.
Proof.
  intros E T N C M Y H. apply told in T. apply typed in Y. cbn [compute_op] in H. unfold viewer_compute in H. rewrite E in H.
  cbn [Z.eqb negb first_input Pos.eqb] in H.
  assert (B : bake_from (gi TViewer b "bake_option") = o).
  { unfold viewer_bake in T. rewrite C in T. cbn [Z.eqb negb] in T. destruct (bake_from (gi TViewer b "bake_option")); exact T. }
  change (node_get_str (Node TViewer 0 0 b) "bake_color_space") with (gs TViewer b "bake_color_space").
  rewrite T, B, C, Y in H. cbn [Z.eqb negb] in H.
  assert (K : exists img s1, cached p (negb (gi TViewer b "use_cache" =? 0)) h w s (viewer_process p x s o ty false (gs TViewer b "bake_color_space")) = Ok (img, s1, w')
    /\ st = NsValid /\ s' = (let s := match o with BakeAll => clear_deformers s1 | _ => s1 end in
      set_image_spec (set_pixel_block (set_hash (set_display_window (set_data_window s (sh_data img)) (sh_display img)) h) (sh_block img)) (sh_spec img))).
  { destruct o; try contradiction; (destruct (cached _ _ _ _ _ _) as [[[img s1] w1]|] in H |- *; [|discriminate H]); cbn [bind] in H; injection H as <- <- <-; eauto. }
  destruct K as (img & s1 & CA & -> & ->). destruct (cached_fresh _ _ _ _ _ _ _ _ _ CA (or_intror M)) as (V & DK).
  unfold viewer_process in V.
  destruct (do_process p (x_numerics x) (x_convert x) o (st_block s) (st_display s) (st_data s) (st_spec s) s
     (sp_color_space (st_spec s)) (gs TViewer b "bake_color_space") ty) as [r|] eqn:R; [|discriminate V]. cbn [bind] in V. injection V as <- <-.
  exists r. split; [reflexivity|]. split; [reflexivity|]. split; [|exact DK]. unfold viewed. cbn [sh_data sh_display sh_block sh_spec].
  destruct (left_over _ _ _ _ _ _ _ _ _ _ _ _ _ R) as (-> & _). destruct o; reflexivity.
Qed.
End View.

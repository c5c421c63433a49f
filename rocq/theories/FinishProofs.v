(** Baking, number by number. *)
From Coq Require String.
Import String.StringSyntax.
From Coq Require Import Lia Reals Floats.SpecFloat.
From Verif Require Import Machine Loops FloatModel FloatReal BBoxModel BBoxSpec PixelModel PixelSpec PixelProofs PixelProofs2 PathModel MergeModel MergeSpec EnumModel AttrModel AttrSpec HashModel StreamModel
  GradeModel DeformModel BakeModel BakeSpec BakeProofs SpaceSpec RemapSpec RemapProofs EdgeSpec EdgeProofs LevelSpec LevelProofs PartSpec PartProofs ViewSpec ViewProofs SafeSpec SafeProofs
  GraphModel GraphSpec NodeModel ChainSpec ShowSpec SceneSpec EachSpec FinishSpec.
Local Open Scope string_scope.

(* ------------------------------ numbers ------------------------------ *)

Lemma taken_f32 blk : exists px, pb_convert blk Float32 = Ok (PB (pb_size blk) (DF32 px)) /\
  Forall2 (taken_as (db_type (pb_data blk))) (elems (pb_data blk)) px /\ zlen px = db_len (pb_data blk).
Proof.
  destruct blk as [b d]. unfold pb_convert. cbn [pb_size pb_data].
  destruct d as [l|l|l|l]; cbn [db_convert db_type datatype_eqb to_f32 bind elems db_len].
  - exists l. split; [reflexivity|]. split; [|reflexivity]. induction l; cbn [map]; constructor; [reflexivity|assumption].
  - exists (map u8_to_f32 l). split; [reflexivity|]. split; [|unfold zlen; now rewrite map_length].
    induction l as [|h l IH]; cbn [map]; constructor; [|exact IH]. cbn [taken_as]. intros H. apply (shade_right 255 h); lia.
  - exists (map u16_to_f32 l). split; [reflexivity|]. split; [|unfold zlen; now rewrite map_length].
    induction l as [|h l IH]; cbn [map]; constructor; [|exact IH]. cbn [taken_as]. intros H. apply (shade_right 65535 h); lia.
  - exists (map f32_of_f16 l). split; [reflexivity|]. split; [|unfold zlen; now rewrite map_length].
    induction l as [|h l IH]; cbn [map]; constructor; [|exact IH]. cbn [taken_as]. intros H F. now apply half_widened.
Qed.

Lemma put_f32 b px ty r : pb_convert (PB b (DF32 px)) ty = Ok r ->
  pb_size r = b /\ db_type (pb_data r) = ty /\ Forall2 (put_as ty) px (elems (pb_data r)).
Proof.
  unfold pb_convert. destruct ty; cbn [pb_data db_convert db_type datatype_eqb to_f16 to_u8 to_u16 bind pb_size]; intro H; try discriminate H;
    injection H as <-; (split; [reflexivity|split; [reflexivity|]]); cbn [pb_data elems]; rewrite ?map_map; induction px as [|v px IH]; cbn [map];
    constructor; auto; cbn [put_as].
  - reflexivity.
  - apply half_right.
  - intro V. apply (level_right 255); [lia|exact V].
  - intro V. apply (level_right 65535); [lia|exact V].
Qed.

(* ------------------------------ the bake ------------------------------ *)

Section Bake.
Variables (p : profile) (nx : numerics) (convert : list f32 -> Z -> Z -> Z -> Z -> bool -> list Z -> list Z -> option (list f32)).
Hypothesis CV : forall px w h nc a u from to px', convert px w h nc a u from to = Some px' -> length px' = length px.
Notation bake := (do_process p nx convert).

Lemma recoloured_step b blk sp from to px : bs_nc b = 1 \/ bs_nc b = 3 \/ bs_nc b = 4 ->
  pb_convert blk Float32 = Ok (PB b (DF32 px)) ->
  exists px' sp', bake_colorspace convert blk sp from to = Ok (PB b (DF32 px'), sp') /\ length px' = length px /\
    (into_space convert (bs_w b) (bs_h b) (bs_nc b) sp from to px px' /\ sp' = (if bytes_eqb from to then sp else set_color_space sp to) \/
     no_conversion convert b sp from to px /\ px' = px /\ sp' = sp).
Proof.
  intros N C. unfold bake_colorspace, into_space, no_conversion. rewrite C. cbn [bind].
  destruct (bytes_eqb from to) eqn:E.
  - apply bytes_eqb_true in E. exists px, sp. split; [reflexivity|]. split; [reflexivity|]. left. split; [left; auto|reflexivity].
  - assert (NE : from <> to) by (intros ->; rewrite bytes_eqb_refl in E; discriminate).
    cbn [pb_size pb_data slice_f32 bind].
    replace (if bs_nc b >? 3 then 3 else -1) with (if bs_nc b =? 4 then 3 else -1) by (destruct N as [-> | [-> | ->]]; reflexivity).
    destruct (convert px _ _ _ _ _ from to) as [px'|] eqn:K.
    + exists px', (set_color_space sp to). split; [reflexivity|]. split; [exact (CV _ _ _ _ _ _ _ _ _ K)|]. left. split; [right; auto|reflexivity].
    + exists px, sp. split; [reflexivity|]. split; [reflexivity|]. right. auto.
Qed.

(** Another description with the same alpha mode. *)
Lemma recoloured_alpha b sp sp' from to px px' : sp_unassociated_alpha sp = sp_unassociated_alpha sp' ->
  recoloured convert b sp from to px px' -> recoloured convert b sp' from to px px'.
Proof. intro U. unfold recoloured, into_space, no_conversion. now rewrite U. Qed.

Lemma recoloured_any b blk sp from to px : bs_nc b = 1 \/ bs_nc b = 3 \/ bs_nc b = 4 ->
  pb_convert blk Float32 = Ok (PB b (DF32 px)) ->
  exists px' sp', bake_colorspace convert blk sp from to = Ok (PB b (DF32 px'), sp') /\ length px' = length px /\
    recoloured convert b sp from to px px' /\ sp_unassociated_alpha sp = sp_unassociated_alpha sp' /\
    (forall c, set_color_space sp' c = set_color_space sp c).
Proof.
  intros N C. destruct (recoloured_step b blk sp from to px N C) as (px' & sp' & A & L & Q). exists px', sp'. split; [exact A|]. split; [exact L|].
  destruct Q as [(I & ->)|(F & -> & ->)]; unfold recoloured.
  - split; [now left|]. destruct (bytes_eqb from to); split; reflexivity.
  - split; [right; auto|]. split; reflexivity.
Qed.

(** The first half of a bake. *)
Lemma linear_step s : PixelSpec.wf_block (st_block s) ->
  bs_nc (pb_size (st_block s)) = 1 \/ bs_nc (pb_size (st_block s)) = 3 \/ bs_nc (pb_size (st_block s)) = 4 ->
  exists b1 sp1 px, bake_colorspace convert (st_block s) (st_spec s) (sp_color_space (st_spec s)) linear_name = Ok (b1, sp1) /\
    bake_stream_colorgrade nx b1 s = Ok (PB (pb_size (st_block s)) (DF32 px), clear_color_ops (set_color_matrix s identity4)) /\
    linear_colours nx convert s px /\ sp_unassociated_alpha (st_spec s) = sp_unassociated_alpha sp1 /\
    (forall c, set_color_space sp1 c = set_color_space (st_spec s) c) /\ zlen px = db_len (pb_data (st_block s)).
Proof.
  intros W N. destruct (taken_f32 (st_block s)) as (px0 & C & T & L).
  destruct (recoloured_any _ _ (st_spec s) (sp_color_space (st_spec s)) linear_name px0 N C) as (px1 & sp1 & A & L1 & Q & U & SC).
  destruct (st_block s) as [[bw bh nc] d] eqn:EB. cbn [pb_size pb_data bs_nc bs_w bs_h] in *.
  assert (LL : length px1 = (Z.to_nat (bw * bh) * Z.to_nat nc)%nat).
  { destruct W as (W1 & W2 & W3 & W4). cbn [pb_size pb_data bs_nc bs_w bs_h] in *. rewrite L1. unfold zlen in L. apply Nat2Z.inj.
    rewrite L, W4, Nat2Z.inj_mul, !Z2Nat.id by (try apply Z.mul_nonneg_nonneg; lia). reflexivity. }
  destruct (coloured_total (nx_powf nx) (st_matrix s) (st_ops s) nc _ px1 N LL) as (px & G).
  exists (PB (BS bw bh nc) (DF32 px1)), sp1, px. split; [exact A|].
  pose proof (coloured_step nx bw bh nc _ _ _ _ G) as CG.
  split; [unfold bake_stream_colorgrade; rewrite CG; reflexivity|]. split.
  - exists px0, px1. rewrite EB. cbn [pb_size pb_data bs_nc]. split; [exact T|]. split; [exact Q|exact G].
  - split; [exact U|]. split; [exact SC|]. rewrite <- L. unfold zlen. f_equal. rewrite <- L1.
    destruct G as [(-> & ps & -> & ->)|[(-> & ps & -> & ->)|(-> & ->)]].
    + clear. induction ps as [|[[[r g] b] a] l IH]; [reflexivity|]. cbn [map].
      destruct (pixel_meaning (nx_powf nx) (st_matrix s) (st_ops s) (r, g, b, a)) as [[[r' g'] b'] a'].
      change (4 + length (flat4 (map (pixel_meaning (nx_powf nx) (st_matrix s) (st_ops s)) l)) = 4 + length (flat4 l))%nat. now rewrite IH.
    + clear. induction ps as [|[[r g] b] l IH]; [reflexivity|]. cbn [map].
      destruct (rgb_meaning (nx_powf nx) (st_matrix s) (st_ops s) (r, g, b)) as [[r' g'] b'].
      change (3 + length (flat3 (map (rgb_meaning (nx_powf nx) (st_matrix s) (st_ops s)) l)) = 3 + length (flat3 l))%nat. now rewrite IH.
    + apply map_length.
Qed.

Lemma enabled_none ds : enabled ds = [] -> forall d, In d ds -> vi (def_vals d) "enable" <> 1.
Proof.
  intros E d I Q. assert (X : In d (enabled ds)) by (apply filter_In; split; [exact I|now rewrite Q]). rewrite E in X. destruct X.
Qed.
Lemma box_folded disp ds : forall b b', fold_box nx ds b (bboxf_of disp) = Ok b' -> box_through nx disp ds b b'.
Proof.
  induction ds as [|d ds IH]; intros b b' H; cbn [fold_box] in H.
  - injection H as <-. constructor.
  - apply bind_ok in H. destruct H as (b1 & A & H). econstructor; [exact A|now apply IH].
Qed.

(** Everything. *)
Theorem bake_finished s to ty r :
  PixelSpec.wf_block (st_block s) ->
  bs_nc (pb_size (st_block s)) = 1 \/ bs_nc (pb_size (st_block s)) = 3 \/ bs_nc (pb_size (st_block s)) = 4 ->
  (forall d, In d (st_deformers s) -> vi (def_vals d) "enable" = 1 ->
     bs_nc (pb_size (st_block s)) <> 1 /\ coords_small (st_data s) /\ 1 <= bs_w (pb_size (st_block s)) /\ 1 <= bs_h (pb_size (st_block s)) /\
     bs_w (pb_size (st_block s)) * bs_h (pb_size (st_block s)) * bs_nc (pb_size (st_block s)) < two31 /\
     min_x (bk_data r) <= max_x (bk_data r) /\ min_y (bk_data r) <= max_y (bk_data r)) ->
  bake BakeAll (st_block s) (st_display s) (st_data s) (st_spec s) s (sp_color_space (st_spec s)) to ty = Ok r ->
  finished nx convert s to (asked_type ty (st_block s)) (bk_block r) (bk_data r).
Proof.
  intros W N DC H. destruct (linear_step s W N) as (b1 & sp1 & px & A1 & A2 & LC & U & SC & L).
  unfold do_process in H. fold (asked_type ty (st_block s)) in H. rewrite A1 in H. cbn [bind] in H. rewrite A2 in H. cbn [bind] in H.
  cbn [st_deformers clear_color_ops set_color_matrix] in H.
  apply bind_ok in H. destruct H as ([mid win] & DP & H).
  destruct (deform_f32 _ _ _ _ _ _ _ _ _ DP) as (bm & px2 & EM). subst mid.
  apply bind_ok in H. destruct H as ([b3 sp3] & S3 & H). apply bind_ok in H. destruct H as (b4 & CT & H). injection H as <-.
  cbn [bk_block bk_data] in *.
  assert (DD : displaced nx (st_display s) (st_deformers s) (PB (pb_size (st_block s)) (DF32 px)) (st_data s) (PB bm (DF32 px2)) win /\ bs_nc bm = bs_nc (pb_size (st_block s))).
  { destruct (enabled (st_deformers s)) as [|e es] eqn:EN.
    - unfold deform_pixels in DP. rewrite EN in DP. injection DP as <- <- <-. split; [|reflexivity]. left.
      split; [exact (enabled_none _ EN)|]. split; reflexivity.
    - assert (NE : enabled (st_deformers s) <> []) by (rewrite EN; discriminate).
      assert (IE : In e (enabled (st_deformers s))) by (rewrite EN; now left). apply filter_In in IE. destruct IE as (I1 & I2). apply Z.eqb_eq in I2.
      destruct (DC e I1 I2) as (D1 & D2 & D3 & D4 & D5 & D6 & D7).
      assert (FP : float_picture (PB (pb_size (st_block s)) (DF32 px))).
      { split; [eexists; reflexivity|]. split; [|cbn [pb_size]; split; [tauto|auto]].
        destruct W as (W1 & W2 & W3 & W4). unfold PixelSpec.wf_block. cbn [pb_size pb_data db_len]. rewrite L. auto. }
      destruct (deform_pixels_moved nx p (st_deformers s) (st_display s) _ (st_data s) _ win NE FP D2 DP D6 D7) as (_ & _ & MP).
      split.
      + right. split; [exists e; auto|]. split; [exact MP|].
        destruct (fold_box nx (enabled (st_deformers s)) (bboxf_of (st_data s)) (bboxf_of (st_display s))) as [bx|] eqn:FB.
        * exists bx. split; [exact (box_folded _ _ _ _ FB)|exact (window_encloses _ _ _ _ _ _ _ _ _ NE FB DP)].
        * exfalso. unfold deform_pixels in DP. rewrite EN in DP. rewrite <- EN in DP. rewrite FB in DP. discriminate DP.
      + destruct MP as (MS & _). cbn [pb_size] in MS. now rewrite MS. }
  destruct DD as (DD & NB).
  destruct (recoloured_any bm (PB bm (DF32 px2)) sp1 linear_name to px2) as (px3 & sp3' & S3' & _ & RC & _); [rewrite NB; exact N|reflexivity|].
  rewrite S3 in S3'. injection S3' as E3 <-. subst b3.
  destruct (put_f32 _ _ _ _ CT) as (P1 & P2 & P3).
  exists px, (PB bm (DF32 px2)), px2, px3. split; [exact LC|]. split; [exact DD|]. split; [reflexivity|].
  split; [exact (recoloured_alpha _ _ _ _ _ _ _ (eq_sym U) RC)|]. auto.
Qed.

(** The colours. *)
Theorem bake_half_finished s to ty r :
  PixelSpec.wf_block (st_block s) ->
  bs_nc (pb_size (st_block s)) = 1 \/ bs_nc (pb_size (st_block s)) = 3 \/ bs_nc (pb_size (st_block s)) = 4 ->
  bake BakeColorSpaceAndGrade (st_block s) (st_display s) (st_data s) (st_spec s) s (sp_color_space (st_spec s)) to ty = Ok r ->
  half_finished nx convert s to (asked_type ty (st_block s)) (bk_block r) /\ bk_data r = st_data s /\ bk_spec r = set_color_space (st_spec s) to.
Proof.
  intros W N H. destruct (linear_step s W N) as (b1 & sp1 & px & A1 & A2 & LC & U & SC & L).
  unfold do_process in H. fold (asked_type ty (st_block s)) in H. rewrite A1 in H. cbn [bind] in H. rewrite A2 in H. cbn [bind] in H.
  destruct (recoloured_any (pb_size (st_block s)) (PB (pb_size (st_block s)) (DF32 px)) sp1 linear_name to px N eq_refl) as (px3 & sp3 & S3 & _ & RC & _ & SC3).
  rewrite S3 in H. cbn [bind] in H. apply bind_ok in H. destruct H as (b4 & CT & H). injection H as <-. cbn [bk_block bk_data bk_spec].
  destruct (put_f32 _ _ _ _ CT) as (P1 & P2 & P3). split; [|split; [reflexivity|now rewrite SC3, SC]].
  exists px, px3. split; [exact LC|]. split; [exact (recoloured_alpha _ _ _ _ _ _ _ (eq_sym U) RC)|]. auto.
Qed.

(** Only the colour space. *)
Theorem bake_converted s to ty r :
  bs_nc (pb_size (st_block s)) = 1 \/ bs_nc (pb_size (st_block s)) = 3 \/ bs_nc (pb_size (st_block s)) = 4 ->
  bake BakeColorSpace (st_block s) (st_display s) (st_data s) (st_spec s) s (sp_color_space (st_spec s)) to ty = Ok r ->
  converted convert s to (asked_type ty (st_block s)) (bk_block r) (bk_spec r) /\ bk_data r = st_data s.
Proof.
  intros N H. destruct (taken_f32 (st_block s)) as (px & C & T & L).
  destruct (recoloured_step (pb_size (st_block s)) _ (st_spec s) (sp_color_space (st_spec s)) to px N C) as (px1 & sp1 & S1 & _ & Q).
  unfold do_process in H. fold (asked_type ty (st_block s)) in H. rewrite S1 in H. cbn [bind] in H. apply bind_ok in H. destruct H as (b4 & CT & H).
  injection H as <-. cbn [bk_block bk_data bk_spec]. destruct (put_f32 _ _ _ _ CT) as (P1 & P2 & P3). split; [|reflexivity].
  exists px, px1. split; [exact T|]. split; [|auto]. destruct Q as [(I & E)|Q]; [left; split; [exact I|]|right; exact Q].
  rewrite E. destruct (bytes_eqb (sp_color_space (st_spec s)) to) eqn:EB; [|reflexivity]. apply bytes_eqb_true in EB. rewrite <- EB. destruct (st_spec s); reflexivity.
Qed.
End Bake.

(* ------------------------------ one pixel ------------------------------ *)

Lemma both_at {A C} (P : A -> C -> Prop) l l' : Forall2 P l l' -> forall i a, nth_error l i = Some a -> exists c, nth_error l' i = Some c /\ P a c.
Proof.
  induction 1 as [|a c l l' H F IH]; intros [|i] a0 E; try discriminate E; cbn [nth_error] in *.
  - injection E as <-. eauto.
  - now apply IH.
Qed.
Lemma both_back {A C} (P : A -> C -> Prop) l l' : Forall2 P l l' -> forall i c, nth_error l' i = Some c -> exists a, nth_error l i = Some a /\ P a c.
Proof.
  induction 1 as [|a c l l' H F IH]; intros [|i] c0 E; try discriminate E; cbn [nth_error] in *.
  - injection E as <-. eauto.
  - now apply IH.
Qed.

Lemma nth_mapped {A C} (g : A -> C) l : forall i e, nth_error (map g l) i = Some e -> exists u, e = g u /\ nth_error l i = Some u.
Proof.
  induction l as [|a l IH]; intros [|i] e H; try discriminate H; cbn [map nth_error] in *; [|now apply IH].
  injection H as <-. eauto.
Qed.

Lemma same_space convert b sp px px' : recoloured convert b sp linear_name linear_name px px' -> px' = px.
Proof. intros [[(_ & E)|(N & _)]|((N & _) & _)]; [exact E|now elim N|now elim N]. Qed.

Lemma flat4_at ps k c : 0 <= k -> 0 <= c < 4 ->
  nth_error (flat4 ps) (Z.to_nat (k * 4 + c)) = match nth_error ps (Z.to_nat k) with Some v => Some (channel c v) | None => None end.
Proof.
  intros K C. rewrite nth_flat4. replace (Z.to_nat (k * 4 + c)) with (Z.to_nat c + Z.to_nat k * 4)%nat by lia.
  rewrite Nat.div_add, Nat.mod_add by lia.
  assert (Q : c = 0 \/ c = 1 \/ c = 2 \/ c = 3) by lia.
  destruct Q as [-> | [-> | [-> | ->]]];
    [change (Z.to_nat 0) with 0%nat; change (0 / 4 + Z.to_nat k)%nat with (Z.to_nat k)
    |change (Z.to_nat 1) with 1%nat; change (1 / 4 + Z.to_nat k)%nat with (Z.to_nat k)
    |change (Z.to_nat 2) with 2%nat; change (2 / 4 + Z.to_nat k)%nat with (Z.to_nat k)
    |change (Z.to_nat 3) with 3%nat; change (3 / 4 + Z.to_nat k)%nat with (Z.to_nat k)];
    destruct (nth_error ps (Z.to_nat k)) as [[[[r g] b] a]|]; reflexivity.
Qed.

Theorem finished_pixel nx convert s ty r win :
  PixelSpec.wf_block (st_block s) -> bs_nc (pb_size (st_block s)) = 4 -> placed (st_block s) (st_data s) ->
  sp_color_space (st_spec s) = linear_name -> finished nx convert s linear_name ty r win ->
  forall X Y, in_box win X Y -> one_pixel_right nx s ty r win X Y.
Proof.
  intros W N (PW & PH) SP (px & mid & px2 & px3 & (px0 & px1 & T0 & R1 & G) & DI & M2 & R3 & SR & TR & P3) X Y IB.
  rewrite SP in R1. apply same_space in R1. apply same_space in R3. subst px1 px3.
  rewrite N in G. destruct G as [(_ & ps & -> & ->)|[(Q & _)|(Q & _)]]; try discriminate Q.
  set (f := pixel_meaning (nx_powf nx) (st_matrix s) (st_ops s)) in *. set (b := pb_size (st_block s)) in *.
  assert (L0 : length (elems (pb_data (st_block s))) = length (flat4 ps)) by (clear - T0; induction T0; cbn; congruence).
  assert (LP : Z.of_nat (length ps) = bs_w b * bs_h b).
  { destruct W as (_ & _ & _ & W4). fold b in W4. rewrite N in W4.
    assert (E : Z.of_nat (length (elems (pb_data (st_block s)))) = db_len (pb_data (st_block s))) by (destruct (pb_data (st_block s)); cbn [elems db_len]; unfold zlen; now rewrite map_length).
    assert (F4 : length (flat4 ps) = (4 * length ps)%nat).
    { clear. induction ps as [|[[[r g] b] a] l IH]; [reflexivity|]. change (length (flat4 ((r, g, b, a) :: l))) with (4 + length (flat4 l))%nat. rewrite IH. cbn [length]. lia. }
    rewrite L0, F4 in E. lia. }
  (* the values of the middle picture *)
  assert (MID : exists sx sy, comes_from nx (st_display s) (st_deformers s) (bs_w b) (bs_h b) (st_data s) X Y sx sy /\ 0 <= sy * bs_w b + sx /\
    forall c, 0 <= c < 4 -> exists u, nth_error px2 (Z.to_nat (offset win 4 X Y c)) = Some u /\ 0 <= offset win 4 X Y c /\
      nth_error (flat4 (map f ps)) (Z.to_nat ((sy * bs_w b + sx) * 4 + c)) = Some u).
  { destruct IB as (IX & IY).
    assert (OF : forall c, 0 <= c < 4 -> 0 <= offset win 4 X Y c).
    { intros c C. unfold offset. assert (0 <= (Y - min_y win) * (max_x win - min_x win)) by (apply Z.mul_nonneg_nonneg; lia). lia. }
    destruct DI as [(NE & -> & ->)|(SE & (MS & MW & _ & MV) & _)].
    - cbn [pb_data] in M2. injection M2 as <-. exists (X - min_x (st_data s)), (Y - min_y (st_data s)).
      fold b in PW, PH.
      assert (K : 0 <= (Y - min_y (st_data s)) * bs_w b) by (apply Z.mul_nonneg_nonneg; lia).
      split; [left; auto|]. split; [lia|]. intros c C.
      assert (OE : offset (st_data s) 4 X Y c = ((Y - min_y (st_data s)) * bs_w b + (X - min_x (st_data s))) * 4 + c) by (unfold offset; now rewrite PW).
      rewrite OE, flat4_at by lia.
      destruct (nth_error (map f ps) (Z.to_nat ((Y - min_y (st_data s)) * bs_w b + (X - min_x (st_data s))))) as [v|] eqn:EV.
      + exists (channel c v). split; [reflexivity|]. split; [lia|reflexivity].
      + exfalso. apply nth_error_None in EV. rewrite map_length in EV.
        assert ((Y - min_y (st_data s)) * bs_w b + (X - min_x (st_data s)) < bs_w b * bs_h b) by (clear - IX IY PW PH; nia). lia.
    - destruct (MV X Y IX IY) as (qx & qy & sx & sy & TB & PX & PY & FE).
      exists sx, sy. split; [right; split; [exact SE|]; exists qx, qy; auto|].
      cbn [pb_size pb_data] in FE. unfold fetched in FE. cbn [pb_size pb_data elems] in FE. fold b in FE. rewrite N in FE.
      assert (NM : bs_nc (pb_size mid) = 4) by (rewrite MS; cbn [bs_nc pb_size]; exact N).
      assert (AT : forall (l : list f32) i e, at_z (map EF l) i = Some e -> 0 <= i /\ exists u, e = EF u /\ nth_error l (Z.to_nat i) = Some u).
      { intros l i e. unfold at_z. destruct (Z.leb_spec 0 i); [|discriminate]. intro Q. split; [lia|].
        apply nth_mapped in Q. exact Q. }
      split; [destruct (FE 0 ltac:(lia)) as (e & _ & E2); apply AT in E2; destruct E2 as (E2 & _); lia|].
      intros c C. destruct (FE c C) as (e & E1 & E2). unfold pixel_val in E1. rewrite M2, NM in E1. cbn [elems] in E1.
      apply AT in E1. apply AT in E2. destruct E1 as (E0 & u & -> & E1). destruct E2 as (_ & u' & EU & E2). injection EU as <-.
      exists u. auto. }
  destruct MID as (sx & sy & CF & K0 & MV).
  assert (PV : exists v, nth_error ps (Z.to_nat (sy * bs_w b + sx)) = Some v).
  { destruct (MV 0 ltac:(lia)) as (u & _ & _ & E). rewrite flat4_at in E by lia. destruct (nth_error (map f ps) (Z.to_nat (sy * bs_w b + sx))) as [v0|] eqn:EV; [|discriminate E].
    apply nth_mapped in EV. destruct EV as (v & _ & EV). exists v. exact EV. }
  destruct PV as (v & PV). exists sx, sy, v. split; [exact CF|]. intros c C.
  destruct (MV c C) as (u & E1 & E0 & E2). rewrite flat4_at in E2 by lia. rewrite (map_nth_error f _ ps PV) in E2. injection E2 as <-.
  destruct (both_back _ _ _ T0 (Z.to_nat ((sy * bs_w b + sx) * 4 + c)) (channel c v)) as (e & EE & TE); [rewrite flat4_at by lia; now rewrite PV|].
  destruct (both_at _ _ _ P3 _ _ E1) as (e' & EE' & PE).
  exists e, e'. split; [unfold at_z; fold b; replace (0 <=? (sy * bs_w b + sx) * 4 + c) with true by lia; exact EE|]. split; [exact TE|].
  split; [|exact PE]. unfold pixel_val.
  assert (NR : bs_nc (pb_size r) = 4).
  { rewrite SR. destruct DI as [(_ & -> & _)|(_ & (MS & _) & _)]; [exact N|rewrite MS; exact N]. }
  rewrite NR. unfold at_z. replace (0 <=? offset win 4 X Y c) with true by lia. exact EE'.
Qed.

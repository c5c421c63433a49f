(** Validation, caching and reporting by the nodes: proofs. *)
From Coq Require String.
Import String.StringSyntax.
From Coq Require Import Floats.SpecFloat.
From Verif Require Import Machine CacheModel CacheProofs FloatModel BBoxModel PixelModel EnumModel AttrModel
  HashModel StreamModel GradeModel DeformModel BakeModel GraphModel NodeModel NodeSpec.
Local Open Scope string_scope.

(* ------------------------------ validation ------------------------------ *)

Lemma nones_length n : length (nones n) = n.
Proof. apply repeat_length. Qed.

Lemma within_refl_land mode k : within mode (Z.land mode k).
Proof. intros i H. rewrite Z.land_spec in H. now apply andb_prop in H. Qed.
Lemma within_zero mode : within mode 0.
Proof. intros i H. now rewrite Z.bits_0 in H. Qed.
Lemma within_nones mode n : Forall (within mode) (nones n).
Proof. apply Forall_forall. intros m H. apply repeat_spec in H. subst. apply within_zero. Qed.

Lemma validate_length t b mode n l : validate_op t b mode n = Ok l -> length l = n.
Proof.
  assert (F : length (validate_first mode n) = n).
  { unfold validate_first. destruct n; cbn [length]; [reflexivity|]. now rewrite nones_length. }
  destruct t; cbn [validate_op]; try (intros [= <-]; exact F).
  - intros [= <-]. unfold validate_merge. destruct n as [|[|n]]; cbn [length]; try reflexivity.
    now rewrite nones_length.
  - unfold validate_viewer. destruct n as [|n]; [intros [= <-]; reflexivity|].
    destruct (gi TViewer b "enable" =? 0); cbn [bind].
    + intros [= <-]. cbn [length]. now rewrite nones_length.
    + destruct (viewer_bake b); cbn [bind]; intros [= <-]; cbn [length]; now rewrite nones_length.
Qed.

Lemma validate_within t b mode n l : (t = TViewer -> gi TViewer b "enable" <> 0) ->
  validate_op t b mode n = Ok l -> Forall (within mode) l.
Proof.
  intros HV.
  assert (F : Forall (within mode) (validate_first mode n)).
  { unfold validate_first. destruct n; constructor; [apply within_refl_land|apply within_nones]. }
  destruct t; cbn [validate_op]; try (intros [= <-]; exact F).
  - intros [= <-]. unfold validate_merge.
    destruct n as [|[|n]]; repeat constructor; try apply within_refl_land. apply within_nones.
  - unfold validate_viewer. destruct n as [|n]; [intros [= <-]; constructor|].
    replace (gi TViewer b "enable" =? 0) with false by (symmetry; apply Z.eqb_neq; now apply HV).
    destruct (viewer_bake b); cbn [bind]; intros [= <-]; constructor; try apply within_refl_land;
      apply within_nones.
Qed.

Lemma nones_nth n i m : nth_error (nones n) i = Some m -> m = 0.
Proof. intro H. apply nth_error_In in H. now apply repeat_spec in H. Qed.

Lemma validate_unread t b mode n l i m : t <> TRead -> validate_op t b mode n = Ok l ->
  nth_error l i = Some m -> m <> 0 -> (i < reads t)%nat.
Proof.
  intros HR.
  assert (F : nth_error (validate_first mode n) i = Some m -> m <> 0 -> (i < 1)%nat).
  { unfold validate_first. destruct n as [|n].
    - destruct i; discriminate.
    - destruct i as [|i]; [lia|]. cbn [nth_error]. intros H K. apply nones_nth in H. congruence. }
  destruct t; cbn [validate_op reads]; try contradiction; try (intros [= <-]; exact F).
  - intros [= <-]. unfold validate_merge. destruct n as [|[|n]].
    + destruct i; discriminate.
    + destruct i as [|[|i]]; intros; lia || discriminate.
    + destruct i as [|[|i]]; [lia|lia|]. cbn [nth_error]. intros H K. apply nones_nth in H. congruence.
  - unfold validate_viewer. destruct n as [|n]; [intros [= <-]; destruct i; discriminate|].
    assert (G : forall z, nth_error (z :: nones n) i = Some m -> m <> 0 -> (i < 1)%nat).
    { intros z. destruct i as [|i]; [lia|]. cbn [nth_error]. intros H K. apply nones_nth in H. congruence. }
    destruct (gi TViewer b "enable" =? 0); cbn [bind]; [intros [= <-]; apply G|].
    destruct (viewer_bake b); cbn [bind]; intros [= <-]; apply G.
Qed.

Lemma validate_panics_iff t b mode n : validate_op t b mode n = Panic <->
  t = TViewer /\ n <> O /\ gi TViewer b "enable" <> 0 /\ viewer_bake b = BakeUninitialized.
Proof.
  split.
  - destruct t; cbn [validate_op]; try discriminate. unfold validate_viewer.
    destruct n as [|n]; [discriminate|]. destruct (gi TViewer b "enable" =? 0) eqn:E; [discriminate|].
    apply Z.eqb_neq in E. destruct (viewer_bake b); cbn [bind]; try discriminate. auto.
  - intros (-> & H1 & H2 & H3). cbn [validate_op]. unfold validate_viewer. destruct n as [|n]; [congruence|].
    replace (gi TViewer b "enable" =? 0) with false by (symmetry; now apply Z.eqb_neq).
    now rewrite H3.
Qed.

Section Compute.
Context {D : Type}.
Variable p : profile.
Variable x : externals D.
Notation compute := (compute_op p x).

(** Inputs beyond the first [reads t] are ignored. *)
Lemma compute_reads t b fr h mode ins ins' out w :
  firstn (reads t) ins = firstn (reads t) ins' ->
  (t = TResample -> p = Debug -> length ins = length ins') ->
  compute t b fr h mode ins out w = compute t b fr h mode ins' out w.
Proof.
  intros H HR.
  destruct t; cbn [reads compute_op firstn] in *; try reflexivity;
    try (destruct ins as [|s ins], ins' as [|s' ins']; cbn [firstn] in H; try discriminate; try reflexivity;
         injection H as <-; reflexivity).
  - (* merge *)
    unfold merge_compute. destruct (negb _); [reflexivity|].
    destruct ins as [|s ins], ins' as [|s' ins']; cbn [firstn] in H; try discriminate; try reflexivity.
    injection H as <- H. destruct ins as [|u ins], ins' as [|u' ins']; try discriminate; try reflexivity.
    injection H as <-. reflexivity.
  - (* resample *)
    destruct ins as [|s ins], ins' as [|s' ins']; cbn [firstn] in H; try discriminate; try reflexivity.
    injection H as <-. unfold resample_compute. destruct (negb (gi TResample b "enable" =? 1)); [reflexivity|].
    destruct p; [|reflexivity]. assert (E : length ins = length ins') by (specialize (HR eq_refl eq_refl); cbn in HR; lia).
    now rewrite E.
Qed.

(* ------------------------------ caching ------------------------------ *)

Lemma cached_cold {E} use h (w : world D) (hit : E) make img e (w1 : world D) img' :
  cached p use h w hit make = Ok (img, e, w1) -> misses w h -> holds w1 h img' ->
  use = true /\ make = Ok (img, e) /\ img' = img.
Proof.
  unfold cached, misses, holds. intros H M R. destruct use.
  - destruct (get (w_cache w) h) as [c r] eqn:G. cbn [snd] in M. subst r.
    destruct make as [[i e']|]; [|discriminate]. cbn [bind] in H.
    destruct (insert image_bytes p c h i) as [c1|] eqn:I; [|discriminate]. cbn [bind] in H.
    injection H as -> -> <-. cbn [w_cache] in R. split; [reflexivity|]. split; [reflexivity|].
    destruct (Z.eq_dec (capacity c) 0) as [Z0|Z0].
    + unfold insert in I. rewrite Z0 in I. cbn in I. injection I as <-.
      assert (c = fst (get (w_cache w) h)) as -> by now rewrite G.
      assert (X : snd (get (fst (get (w_cache w) h)) h) = None).
      { unfold get, lhm_get_refresh in G |- *. destruct (lhm_find h (lru (w_cache w))) eqn:F; [discriminate|].
        cbn [fst lru]. now rewrite F. }
      congruence.
    + pose proof (insert_then_get image_bytes p c c1 h img Z0 I) as X. congruence.
  - destruct make as [[i e']|]; [|discriminate]. cbn [bind] in H. injection H as -> -> <-. congruence.
Qed.

Lemma cached_warm {E} h (w : world D) (hit : E) make img : holds w h img ->
  exists w', cached p true h w hit make = Ok (img, hit, w').
Proof.
  unfold cached, holds. intro H. destruct (get (w_cache w) h) as [c r]. cbn [snd] in H. subst r. eauto.
Qed.

Lemma bake_all_stream nx convert blk disp data sp s from to ty r :
  do_process p nx convert BakeAll blk disp data sp s from to ty = Ok r ->
  bk_stream r = clear_deformers (clear_color_ops (set_color_matrix s identity4)).
Proof.
  unfold do_process. destruct (bake_colorspace convert blk sp from linear_name) as [[b1 s1]|]; [|discriminate].
  cbn [bind]. unfold bake_stream_colorgrade.
  destruct (bake_colorgrade _ _ _ _) as [b2|]; [|discriminate]. cbn [bind].
  destruct (deform_pixels _ _ _ _ _ _) as [[b3 d3]|]; [|discriminate]. cbn [bind].
  destruct (bake_colorspace _ _ _ _ _) as [[b4 s4]|]; [|discriminate]. cbn [bind].
  destruct (pb_convert _ _); [|discriminate]. cbn [bind]. intros [= <-]. reflexivity.
Qed.
Lemma bake_grade_stream nx convert blk disp data sp s from to ty r :
  do_process p nx convert BakeColorSpaceAndGrade blk disp data sp s from to ty = Ok r ->
  bk_stream r = clear_color_ops (set_color_matrix s identity4).
Proof.
  unfold do_process. destruct (bake_colorspace convert blk sp from linear_name) as [[b1 s1]|]; [|discriminate].
  cbn [bind]. unfold bake_stream_colorgrade.
  destruct (bake_colorgrade _ _ _ _) as [b2|]; [|discriminate]. cbn [bind].
  destruct (bake_colorspace _ _ _ _ _) as [[b4 s4]|]; [|discriminate]. cbn [bind].
  destruct (pb_convert _ _); [|discriminate]. cbn [bind]. intros [= <-]. reflexivity.
Qed.
Lemma bake_space_stream nx convert blk disp data sp s from to ty r :
  do_process p nx convert BakeColorSpace blk disp data sp s from to ty = Ok r -> bk_stream r = s.
Proof.
  unfold do_process. destruct (bake_colorspace _ _ _ _ _) as [[b1 s1]|]; [|discriminate].
  cbn [bind]. destruct (pb_convert _ _); [|discriminate]. cbn [bind]. intros [= <-]. reflexivity.
Qed.

Lemma clean_colour s : no_colour_pending s -> clear_color_ops (set_color_matrix s identity4) = s.
Proof. intros [H K]. destruct s. cbn in *. subst. reflexivity. Qed.

Theorem warm_cold t b fr h mode ins out w0 st s w1 img w :
  settled x t b ins -> misses w0 h -> compute t b fr h mode ins out w0 = Ok (st, s, w1) ->
  holds w1 h img -> holds w h img -> w_disk w = w_disk w0 ->
  exists w2, compute t b fr h mode ins out w = Ok (st, s, w2).
Proof.
  intros SE M C H1 H ED.
  assert (SAME : forall s', Ok (st, s', w0) = Ok (st, s, w1) :> Res (@result D) -> False).
  { intros s' E. injection E as _ <-. unfold misses, holds in *. congruence. }
  destruct t; cbn [compute_op] in *.
  - (* null *) unfold null_compute in C. destruct ins; injection C as <- <- <-; elim (SAME _ eq_refl).
  - (* read *)
    unfold read_compute in *. destruct (Z.land mode m_pixel =? 0); [injection C as <- <- <-; elim (SAME _ eq_refl)|].
    destruct (gi TRead b "enable" =? 0); [injection C as <- <- <-; elim (SAME _ eq_refl)|].
    destruct (PathModel.expand_string _ _ _) as [path|]; [|discriminate]. cbn [bind] in *. rewrite ED.
    destruct (x_kind x (w_disk w0) path).
    + injection C as <- <- <-; elim (SAME _ eq_refl).
    + destruct (cached _ _ _ _ _ _) as [[[i u] w1']|] eqn:E; [|discriminate]. cbn [bind] in C.
      injection C as <- <- <-. destruct (cached_cold _ _ _ _ _ _ _ _ _ E M H1) as (U & MK & ->). rewrite U.
      destruct (cached_warm h w tt (Ok (x_read x (w_disk w0) path empty_image, tt)) i H) as [w2 ->].
      cbn [bind]. eauto.
    + destruct (gi TRead b "enable" =? 1); injection C as <- <- <-; elim (SAME _ eq_refl).
  - (* write *)
    unfold write_compute in C. destruct (gi TWrite b "enable" =? 0); [injection C as <- <- <-; elim (SAME _ eq_refl)|].
    destruct ins as [|s0 ins]; [injection C as <- <- <-; elim (SAME _ eq_refl)|].
    destruct (gi TWrite b "execute" =? 0); [injection C as <- <- <-; elim (SAME _ eq_refl)|].
    destruct (write_process _ _ _ _ _ _) as [[d ok]|]; [|discriminate]. cbn [bind] in C.
    injection C as <- <- <-. unfold misses, holds in *. cbn in H1. congruence.
  - (* grade *)
    unfold grade_compute in C. destruct (first_input ins) as [s0 st0].
    destruct (negb _); injection C as <- <- <-; elim (SAME _ eq_refl).
  - (* lens *)
    unfold lens_compute in C. destruct (first_input ins) as [s0 st0].
    destruct (gi TLens b "enable" =? 1); [|injection C as <- <- <-; elim (SAME _ eq_refl)].
    destruct (x_lens_ok x _); [|discriminate]. injection C as <- <- <-; elim (SAME _ eq_refl).
  - (* transform *)
    unfold transform_compute in C. destruct (first_input ins) as [s0 st0].
    injection C as <- <- <-; elim (SAME _ eq_refl).
  - (* merge *)
    unfold merge_compute in *. destruct (negb (gi TMerge b "enable" =? 1)); [injection C as <- <- <-; elim (SAME _ eq_refl)|].
    destruct ins as [|sa rest]; [injection C as <- <- <-; elim (SAME _ eq_refl)|].
    destruct (match rest with [] => _ | _ => _ end) as [sb st0].
    destruct (cached _ _ _ _ _ _) as [[[i u] w1']|] eqn:E; [|discriminate]. cbn [bind] in C.
    injection C as <- <- <-. destruct (cached_cold _ _ _ _ _ _ _ _ _ E M H1) as (U & MK & ->). rewrite U, MK in *.
    destruct (cached_warm h w tt (Ok (i, u)) i H) as [w2 ->]. cbn [bind]. eauto.
  - (* crop *)
    unfold crop_compute in *. destruct ins as [|s0 ins]; [injection C as <- <- <-; elim (SAME _ eq_refl)|].
    cbn [settled first_input fst] in SE.
    destruct (negb (gi TCrop b "enable" =? 1)); [injection C as <- <- <-; elim (SAME _ eq_refl)|].
    match type of C with context [cached p ?u h w0 ?hit ?mk] => set (make := mk) in * end.
    destruct (cached p _ h w0 _ make) as [[[i [s1 st1]] w1']|] eqn:E; [|discriminate]. cbn [bind] in C.
    injection C as <- <- <-. destruct (cached_cold _ _ _ _ _ _ _ _ _ E M H1) as (U & MK & ->). rewrite U.
    destruct (cached_warm h w (s0, NsValid) make i H) as [w2 ->]. cbn [bind].
    assert (X : (s1, st1) = (s0, NsValid)).
    { unfold make, crop_process in MK. destruct (do_process _ _ _ _ _ _ _ _ _ _ _ _) as [r|] eqn:R; [|discriminate].
      cbn [bind] in MK. destruct (crop_image_in_place _ _ _ _ _ _); [|discriminate]. cbn [bind] in MK.
      injection MK as <- <- <-. apply bake_all_stream in R. rewrite R. destruct SE as [SE1 SE2].
      rewrite clean_colour by exact SE1. destruct s0; cbn in *. now subst. }
    injection X as -> ->. eauto.
  - (* viewer *)
    unfold viewer_compute in *. destruct (negb (gi TViewer b "enable" =? 1)); [injection C as <- <- <-; elim (SAME _ eq_refl)|].
    cbn [settled] in SE.
    destruct (first_input ins) as [s0 st0]. cbn [fst] in SE.
    assert (VP : forall i s1, viewer_process p x s0 (viewer_bake b)
        (datatype_of (data_type_from (gi TViewer b "bake_pixel_data_type")))
        (negb (gi TViewer b "crop_to_format" =? 0)) (gs TViewer b "bake_color_space") = Ok (i, s1) ->
        match viewer_bake b with BakeAll => clear_deformers s1 | _ => s1 end
        = match viewer_bake b with BakeAll => clear_deformers s0 | _ => s0 end).
    { intros i s1 R. unfold viewer_process in R.
      destruct (do_process _ _ _ _ _ _ _ _ _ _ _ _) as [r|] eqn:E; [|discriminate]. cbn [bind] in R.
      assert (S1 : s1 = bk_stream r).
      { destruct (negb (gi TViewer b "crop_to_format" =? 0)); [destruct (crop_image_in_place _ _ _ _ _ _); [|discriminate]; cbn [bind] in R|];
          now injection R as _ <-. }
      subst s1. destruct (viewer_bake b).
      - unfold do_process in E. now injection E as <-.
      - now apply bake_space_stream in E.
      - apply bake_grade_stream in E. rewrite E. now apply clean_colour.
      - apply bake_all_stream in E. rewrite E, clean_colour by exact SE. reflexivity.
      - discriminate. }
    destruct (bake_from (gi TViewer b "bake_option")) eqn:BO;
      try (injection C as <- <- <-; elim (SAME _ eq_refl));
      (match type of C with context [cached p ?u h w0 ?hit ?mk] => set (make := mk) in * end;
       destruct (cached p _ h w0 _ make) as [[[i s1] w1']|] eqn:E; [|discriminate]; cbn [bind] in C;
       injection C as <- <- <-; destruct (cached_cold _ _ _ _ _ _ _ _ _ E M H1) as (U & MK & ->); rewrite U;
       destruct (cached_warm h w s0 make i H) as [w2 ->]; cbn [bind];
       rewrite (VP _ _ MK); eauto).
  - (* resample *)
    unfold resample_compute in *. destruct ins as [|s0 ins]; [injection C as <- <- <-; elim (SAME _ eq_refl)|].
    cbn [settled first_input fst] in SE.
    destruct (negb (gi TResample b "enable" =? 1)); [injection C as <- <- <-; elim (SAME _ eq_refl)|].
    match type of C with context [if ?c then Panic else _] => destruct c; [discriminate|] end.
    destruct (gi TResample b "factor" =? 0); [injection C as <- <- <-; elim (SAME _ eq_refl)|].
    match type of C with context [cached p ?u h w0 ?hit ?mk] => set (make := mk) in * end.
    destruct (cached p _ h w0 _ make) as [[[i st1] w1']|] eqn:E; [|discriminate]. cbn [bind] in C.
    injection C as <- <- <-. destruct (cached_cold _ _ _ _ _ _ _ _ _ E M H1) as (U & MK & ->). rewrite U.
    destruct (cached_warm h w NsValid make i H) as [w2 ->]. cbn [bind].
    assert (X : st1 = NsValid).
    { unfold make in MK. change (gi TResample b "factor") with (b_i32 b "factor") in MK.
      change (gi TResample b "interpolate") with (b_i32 b "interpolate") in MK.
      destruct (x_resample x _ _ _ _) as [ok im]. cbn [fst] in SE. subst ok. now injection MK as _ <-. }
    subst st1. eauto.
Qed.
End Compute.

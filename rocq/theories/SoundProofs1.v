(** What a node does, with the use of the cache split off. *)
From Coq Require String.
Import String.StringSyntax.
From Coq Require Import Floats.SpecFloat.
From Verif Require Import Machine Loops CacheModel FloatModel BBoxModel PixelModel MergeModel PathModel EnumModel AttrModel
  HashModel HashSpec HashProofs StreamModel GradeModel DeformModel BakeModel GraphModel NodeModel NodeSpec NodeProofs
  SoundSpec.
Local Open Scope string_scope.

Section Plan.
Context {D : Type}.
Variable p : profile.
Variable x : externals D.

(** The output stays; is something not marked with the key; is marked with the
    key; or is made from an image kept under the key. *)
Inductive plan :=
| PKeep
| PPass (r : Res (node_status * stream * D))
| PMark (st : node_status) (s : stream)
| PImage (use : bool) (hit : stream * node_status) (make : Res (shared * (stream * node_status)))
    (fin : shared -> stream -> stream).

Definition plan_of (t : node_type) (b : block) (fr : spec_float) (h : Z) (ins : list stream) (d : D) : plan :=
  match t with
  | TNull => PPass (Ok (match ins with [] => (NsWarning, stream_new, d) | s :: _ => (NsValid, s, d) end))
  | TRead =>
      if gi TRead b "enable" =? 0 then PPass (Ok (NsWarning, stream_new, d)) else
      match node_path x b fr with
      | Panic => PPass Panic
      | Ok path =>
          match x_kind x d path with
          | NoEntry => PPass (Ok (NsWarning, stream_new, d))
          | RegularFile =>
              PImage (negb (gi TRead b "use_cache" =? 0)) (stream_new, NsValid)
                (Ok (x_read x d path empty_image, (stream_new, NsValid)))
                (fun img s => set_image_spec (set_pixel_block (set_hash (set_display_window
                   (set_data_window s (sh_data img)) (sh_display img)) h) (sh_block img)) (sh_spec img))
          | OtherEntry => if gi TRead b "enable" =? 1 then PKeep else PMark NsValid (set_hash stream_new h)
          end
      end
  | TWrite =>
      PPass (if gi TWrite b "enable" =? 0 then Ok (NsValid, stream_new, d) else
             match ins with
             | [] => Ok (NsWarning, stream_new, d)
             | s :: _ =>
                 if gi TWrite b "execute" =? 0 then Ok (NsValid, s, d) else
                 let* (d, ok) := write_process p x b fr s d in Ok (NsValid, s, d)
             end)
  | TGrade =>
      let (s, st) := first_input ins in
      if negb ((gi TGrade b "enable" =? 1)
        && (negb (gi TGrade b "process_r" =? 0) || negb (gi TGrade b "process_g" =? 0)
            || negb (gi TGrade b "process_b" =? 0) || negb (gi TGrade b "process_a" =? 0)))
      then PPass (Ok (st, s, d)) else PMark st (set_hash (push_color_op s (grade_op b)) h)
  | TLens =>
      let (s, st) := first_input ins in
      if gi TLens b "enable" =? 1 then
        if x_lens_ok x (lens_op b) then PMark st (set_hash (push_deformer s (DTde4 (lens_op b))) h) else PPass Panic
      else PMark st (set_hash s h)
  | TTransform =>
      let (s, st) := first_input ins in
      PMark st (set_hash (if gi TTransform b "enable" =? 1
                          then push_deformer s (DTransform (transform_op b)) else s) h)
  | TMerge =>
      if negb (gi TMerge b "enable" =? 1) then PPass (Ok (NsWarning, stream_new, d)) else
      match ins with
      | [] => PPass (Ok (NsWarning, stream_new, d))
      | sa :: rest =>
          let (sb, st) := match rest with [] => (stream_new, NsWarning) | sb :: _ => (sb, NsValid) end in
          PImage (negb (gi TMerge b "use_cache" =? 0)) (stream_new, st)
            (let* (img, _) := merge_process p x sa sb (merge_mode_of (gi TMerge b "mode")) (gf TMerge b "mix") in
             Ok (img, (stream_new, st)))
            (fun img s => set_pixel_block (set_hash (set_display_window (set_data_window s (sh_data img))
                (sh_display img)) h) (sh_block img))
      end
  | TCrop =>
      match ins with
      | [] => PPass (Ok (NsWarning, stream_new, d))
      | s :: _ =>
          if negb (gi TCrop b "enable" =? 1) then PPass (Ok (NsValid, s, d)) else
          PImage (negb (gi TCrop b "use_cache" =? 0)) (s, NsValid)
            (crop_process p x s (BBox (gi TCrop b "window_min_x") (gi TCrop b "window_min_y")
                      (gi TCrop b "window_max_x") (gi TCrop b "window_max_y"))
               (gi TCrop b "reformat" =? 1) (gi TCrop b "black_outside" =? 1) (gi TCrop b "intersect" =? 1))
            (fun img s => set_pixel_block (set_display_window (set_data_window (set_hash s h) (sh_data img))
                (sh_display img)) (sh_block img))
      end
  | TViewer =>
      if negb (gi TViewer b "enable" =? 1) then PKeep else
      let (s, _) := first_input ins in
      match bake_from (gi TViewer b "bake_option") with
      | BakeNothing => PPass (Ok (NsValid, s, d))
      | _ =>
          PImage (negb (gi TViewer b "use_cache" =? 0)) (s, NsValid)
            (let* (img, s) := viewer_process p x s (viewer_bake b)
                (datatype_of (data_type_from (gi TViewer b "bake_pixel_data_type")))
                (negb (gi TViewer b "crop_to_format" =? 0)) (gs TViewer b "bake_color_space") in
             Ok (img, (s, NsValid)))
            (fun img s => set_image_spec (set_pixel_block (set_hash (set_display_window
               (set_data_window (match viewer_bake b with BakeAll => clear_deformers s | _ => s end) (sh_data img))
               (sh_display img)) h) (sh_block img)) (sh_spec img))
      end
  | TResample =>
      match ins with
      | [] => PPass (Ok (NsWarning, stream_new, d))
      | s :: rest =>
          if negb (gi TResample b "enable" =? 1) then PPass (Ok (NsValid, s, d)) else
          if (match p with Debug => negb (Nat.eqb (length rest) 0) | Release => false end) then PPass Panic else
          if gi TResample b "factor" =? 0 then PPass (Ok (NsValid, s, d)) else
          PImage (negb (gi TResample b "use_cache" =? 0)) (s, NsValid)
            (let (ok, img) := x_resample x (Shared (st_block s) (st_display s) (st_data s) (st_spec s)) empty_image
                                (gi TResample b "factor") (negb (gi TResample b "interpolate" =? 0)) in
             Ok (img, (s, if ok then NsValid else NsError)))
            (fun img s => set_hash (set_pixel_block (set_display_window (set_data_window s (sh_data img))
                (sh_display img)) (sh_block img)) h)
      end
  end.

(** Not asked for pixels. *)
Definition skips (t : node_type) (mode : Z) : bool :=
  match t with TRead => Z.land mode m_pixel =? 0 | _ => false end.

Definition run_plan (pl : plan) (h : Z) (out : stream) (w : world D) : Res (@result D) :=
  match pl with
  | PKeep => Ok (NsValid, out, w)
  | PPass r => let* (st, s, d) := r in Ok (st, s, World (w_cache w) d)
  | PMark st s => Ok (st, s, w)
  | PImage use hit make fin =>
      let* (img, (s, st), w) := cached p use h w hit make in Ok (st, fin img s, w)
  end.

Lemma world_eta (w : world D) : World (w_cache w) (w_disk w) = w.
Proof. now destruct w. Qed.

(** Changing what is carried beside the image. *)
Lemma cached_map {E F} use h (w : world D) (hit : E) make (f : E -> F) :
  cached p use h w (f hit) (let* (img, e) := make in Ok (img, f e)) =
  let* (img, e, w) := cached p use h w hit make in Ok (img, f e, w).
Proof.
  unfold cached. destruct use.
  - destruct (get (w_cache w) h) as [c [i|]]; [reflexivity|].
    destruct make as [[i e]|]; cbn [bind]; [|reflexivity]. destruct (insert _ _ _ _ _); reflexivity.
  - destruct make as [[i e]|]; reflexivity.
Qed.

Lemma compute_plan t b fr h mode ins out w :
  compute_op p x t b fr h mode ins out w =
  if skips t mode then Ok (NsValid, out, w)
  else run_plan (plan_of t b fr h ins (w_disk w)) h out w.
Proof.
  destruct t; cbn [compute_op skips plan_of].
  - unfold null_compute. destruct ins; cbn [run_plan bind]; now rewrite world_eta.
  - unfold read_compute. destruct (Z.land mode m_pixel =? 0); [reflexivity|].
    destruct (gi TRead b "enable" =? 0); [cbn [run_plan bind]; now rewrite world_eta|].
    unfold node_path. change (b_str b "file_path") with (gs TRead b "file_path").
    destruct (expand_string _ _ _) as [path|]; [cbn [bind]|reflexivity].
    destruct (x_kind x (w_disk w) path).
    + cbn [run_plan bind]. now rewrite world_eta.
    + cbn [run_plan].
      change (@Ok (shared * (stream * node_status)) (x_read x (w_disk w) path empty_image, (stream_new, NsValid))) with
        (let* (img, e) := Ok (x_read x (w_disk w) path empty_image, tt) in Ok (img, (fun _ : unit => (stream_new, NsValid)) e)).
      change (stream_new, NsValid) with ((fun _ : unit => (stream_new, NsValid)) tt) at 1.
      rewrite cached_map. destruct (cached _ _ _ _ _ _) as [[[i e] w1]|]; reflexivity.
    + destruct (gi TRead b "enable" =? 1); reflexivity.
  - unfold write_compute. cbn [run_plan]. destruct (gi TWrite b "enable" =? 0); [cbn [bind]; now rewrite world_eta|].
    destruct ins as [|s ins]; [cbn [bind]; now rewrite world_eta|].
    destruct (gi TWrite b "execute" =? 0); [cbn [bind]; now rewrite world_eta|].
    destruct (write_process _ _ _ _ _ _) as [[d ok]|]; reflexivity.
  - unfold grade_compute. destruct (first_input ins) as [s st]. destruct (negb _); cbn [run_plan bind]; [now rewrite world_eta|reflexivity].
  - unfold lens_compute. destruct (first_input ins) as [s st]. destruct (gi TLens b "enable" =? 1); [|reflexivity].
    destruct (x_lens_ok _ _); reflexivity.
  - unfold transform_compute. destruct (first_input ins) as [s st]. reflexivity.
  - unfold merge_compute. destruct (negb _); [cbn [run_plan bind]; now rewrite world_eta|].
    destruct ins as [|sa rest]; [cbn [run_plan bind]; now rewrite world_eta|].
    destruct (match rest with [] => _ | _ => _ end) as [sb st]. cbn [run_plan].
    set (make := merge_process _ _ _ _ _ _).
    pose proof (cached_map (negb (gi TMerge b "use_cache" =? 0)) h w tt make (fun _ => (stream_new, st))) as Q.
    cbn beta in Q. rewrite Q. clear Q.
    destruct (cached _ _ _ _ _ make) as [[[i e] w1]|]; reflexivity.
  - unfold crop_compute. destruct ins as [|s ins]; [cbn [run_plan bind]; now rewrite world_eta|].
    destruct (negb _); [cbn [run_plan bind]; now rewrite world_eta|reflexivity].
  - unfold viewer_compute. destruct (negb _); [reflexivity|].
    destruct (first_input ins) as [s st].
    assert (Q : forall use make, cached p use h w (s, NsValid) (let* (img, s) := make in Ok (img, (s, NsValid))) =
      let* (img, e, w) := cached p use h w s make in Ok (img, (e, NsValid), w)).
    { intros use make. exact (cached_map use h w s make (fun s => (s, NsValid))). }
    destruct (bake_from (gi TViewer b "bake_option")); cbn [run_plan bind]; try (now rewrite world_eta);
      (rewrite Q; destruct (cached _ _ _ _ _ _) as [[[i e] w1]|]; reflexivity).
  - unfold resample_compute. destruct ins as [|s ins]; [cbn [run_plan bind]; now rewrite world_eta|].
    destruct (negb _); [cbn [run_plan bind]; now rewrite world_eta|].
    destruct (match p with Debug => _ | Release => _ end); [reflexivity|].
    destruct (gi TResample b "factor" =? 0); [cbn [run_plan bind]; now rewrite world_eta|].
    cbn [run_plan].
    match goal with |- context [cached p ?u h w NsValid ?m] => set (make := m) end.
    pose proof (cached_map (negb (gi TResample b "use_cache" =? 0)) h w NsValid make (fun st => (s, st))) as Q.
    cbn beta in Q. subst make. destruct (x_resample _ _ _ _ _) as [ok img]. cbn [bind] in Q.
    rewrite Q. clear Q. destruct (cached _ _ _ _ NsValid _) as [[[i e] w1]|]; reflexivity.
Qed.

(** The stream a node produces from nothing but its settings, inputs and files,
    if it marks it with its key. *)
Definition fresh (t : node_type) (b : block) (fr : spec_float) (h : Z) (ins : list stream) (d : D) : Res stream :=
  match plan_of t b fr h ins d with
  | PKeep | PPass _ => Panic
  | PMark _ s => Ok s
  | PImage _ _ make fin => let* (img, (s, _)) := make in Ok (fin img s)
  end.

Lemma mark_hash t b fr h ins d st s : plan_of t b fr h ins d = PMark st s -> st_hash s = h.
Proof.
  destruct t; cbn [plan_of]; intro H; try discriminate.
  - destruct (gi TRead b "enable" =? 0); [discriminate|]. destruct (node_path _ _ _); [|discriminate].
    destruct (x_kind _ _ _); try discriminate. destruct (gi TRead b "enable" =? 1); [discriminate|]. now injection H as _ <-.
  - destruct (first_input ins). destruct (negb _); [discriminate|]. now injection H as _ <-.
  - destruct (first_input ins). destruct (gi TLens b "enable" =? 1); [destruct (x_lens_ok _ _); [|discriminate]|]; now injection H as _ <-.
  - destruct (first_input ins). now injection H as _ <-.
  - destruct (negb _); [discriminate|]. destruct ins as [|sa rest]; [discriminate|].
    destruct (match rest with [] => _ | _ => _ end). discriminate.
  - destruct ins; [discriminate|]. destruct (negb _); discriminate.
  - destruct (negb _); [discriminate|]. destruct (first_input ins). destruct (bake_from _); discriminate.
  - destruct ins as [|s0 rest]; [discriminate|]. destruct (negb _); [discriminate|].
    destruct (match p with Debug => _ | Release => _ end); [discriminate|].
    destruct (gi TResample b "factor" =? 0); discriminate.
Qed.

Lemma fin_hash t b fr h ins d use hit make fin : plan_of t b fr h ins d = PImage use hit make fin ->
  forall img s, st_hash (fin img s) = h.
Proof.
  destruct t; cbn [plan_of]; intro H; try discriminate.
  - destruct (gi TRead b "enable" =? 0); [discriminate|]. destruct (node_path _ _ _); [|discriminate].
    destruct (x_kind _ _ _); try discriminate; [now injection H as _ _ _ <-|]. destruct (gi TRead b "enable" =? 1); discriminate.
  - destruct (first_input ins). destruct (negb _); discriminate.
  - destruct (first_input ins). destruct (gi TLens b "enable" =? 1); [destruct (x_lens_ok _ _)|]; discriminate.
  - destruct (first_input ins). discriminate.
  - destruct (negb _); [discriminate|]. destruct ins as [|sa rest]; [discriminate|].
    destruct (match rest with [] => _ | _ => _ end). now injection H as _ _ _ <-.
  - destruct ins; [discriminate|]. destruct (negb _); [discriminate|]. now injection H as _ _ _ <-.
  - destruct (negb _); [discriminate|]. destruct (first_input ins).
    destruct (bake_from _); try discriminate; now injection H as _ _ _ <-.
  - destruct ins as [|s0 rest]; [discriminate|]. destruct (negb _); [discriminate|].
    destruct (match p with Debug => _ | Release => _ end); [discriminate|].
    destruct (gi TResample b "factor" =? 0); [discriminate|]. now injection H as _ _ _ <-.
Qed.

(** What is passed on is nothing new. *)
Lemma pass_known t b fr h ins d st s d' : plan_of t b fr h ins d = PPass (Ok (st, s, d')) -> s = stream_new \/ In s ins.
Proof.
  assert (FI : forall s st, first_input ins = (s, st) -> s = stream_new \/ In s ins).
  { intros s0 st0 Q. destruct ins as [|s1 r]; injection Q as <- _; [now left|right; now left]. }
  destruct t; cbn [plan_of]; intro H; try discriminate.
  - destruct ins as [|s0 r]; injection H as <- <- <-; [now left|right; now left].
  - destruct (gi TRead b "enable" =? 0); [injection H as <- <- <-; now left|]. destruct (node_path _ _ _); [|discriminate].
    destruct (x_kind _ _ _); try discriminate; [injection H as <- <- <-; now left|]. destruct (gi TRead b "enable" =? 1); discriminate.
  - destruct (gi TWrite b "enable" =? 0); [injection H as <- <- <-; now left|].
    destruct ins as [|s0 r]; [injection H as <- <- <-; now left|].
    destruct (gi TWrite b "execute" =? 0); [injection H as <- <- <-; right; now left|].
    destruct (write_process _ _ _ _ _ _) as [[d1 ok]|]; [|discriminate]. cbn [bind] in H.
    injection H as <- <- <-. right; now left.
  - destruct (first_input ins) eqn:F. destruct (negb _); [|discriminate]. injection H as <- <- <-. eapply FI; reflexivity.
  - destruct (first_input ins). destruct (gi TLens b "enable" =? 1); [destruct (x_lens_ok _ _)|]; discriminate.
  - destruct (first_input ins). discriminate.
  - destruct (negb _); [injection H as <- <- <-; now left|]. destruct ins as [|sa rest]; [injection H as <- <- <-; now left|].
    destruct (match rest with [] => _ | _ => _ end). discriminate.
  - destruct ins as [|s0 r]; [injection H as <- <- <-; now left|]. destruct (negb _); [|discriminate]. injection H as <- <- <-. right; now left.
  - destruct (negb _); [discriminate|]. destruct (first_input ins) eqn:F.
    destruct (bake_from _); try discriminate. injection H as <- <- <-. eapply FI; reflexivity.
  - destruct ins as [|s0 rest]; [injection H as <- <- <-; now left|]. destruct (negb _); [injection H as <- <- <-; right; now left|].
    destruct (match p with Debug => _ | Release => _ end); [discriminate|].
    destruct (gi TResample b "factor" =? 0); [|discriminate]. injection H as <- <- <-. right; now left.
Qed.

(** Settled inputs: making the image changes nothing a hit would not. *)
Lemma settled_hit t b fr h ins d use hit make fin img e : settled x t b ins ->
  plan_of t b fr h ins d = PImage use hit make fin -> make = Ok (img, e) ->
  fin img (fst e) = fin img (fst hit) /\ snd e = snd hit.
Proof.
  intro SE. destruct t; cbn [plan_of settled] in *; intros H MK; try discriminate.
  - destruct (gi TRead b "enable" =? 0); [discriminate|]. destruct (node_path _ _ _); [|discriminate].
    destruct (x_kind _ _ _); try discriminate; [|destruct (gi TRead b "enable" =? 1); discriminate].
    injection H as _ <- <- <-. injection MK as <- <-. now split.
  - destruct (first_input ins). destruct (negb _); discriminate.
  - destruct (first_input ins). destruct (gi TLens b "enable" =? 1); [destruct (x_lens_ok _ _)|]; discriminate.
  - destruct (first_input ins). discriminate.
  - destruct (negb _); [discriminate|]. destruct ins as [|sa rest]; [discriminate|].
    destruct (match rest with [] => _ | _ => _ end). injection H as _ <- <- <-.
    destruct (merge_process _ _ _ _ _ _) as [[i u]|]; [|discriminate]. cbn [bind] in MK. injection MK as <- <-. now split.
  - destruct ins as [|s0 rest]; [discriminate|]. destruct (negb _); [discriminate|]. injection H as _ <- <- <-.
    cbn [first_input fst] in SE.
    unfold crop_process in MK. destruct (do_process _ _ _ _ _ _ _ _ _ _ _ _) as [r|] eqn:R; [|discriminate].
    cbn [bind] in MK. destruct (crop_image_in_place _ _ _ _ _ _); [|discriminate]. cbn [bind] in MK.
    injection MK as <- <-. apply bake_all_stream in R. destruct SE as [SE1 SE2].
    cbn [fst snd]. rewrite R, clean_colour by exact SE1. split; [|reflexivity]. destruct s0; cbn in *. now subst.
  - destruct (negb _); [discriminate|]. destruct (first_input ins) as [s0 st0]. cbn [fst] in SE.
    assert (VP : forall i s1, viewer_process p x s0 (viewer_bake b)
        (datatype_of (data_type_from (gi TViewer b "bake_pixel_data_type")))
        (negb (gi TViewer b "crop_to_format" =? 0)) (gs TViewer b "bake_color_space") = Ok (i, s1) ->
        match viewer_bake b with BakeAll => clear_deformers s1 | _ => s1 end
        = match viewer_bake b with BakeAll => clear_deformers s0 | _ => s0 end).
    { intros i s1 R. unfold viewer_process in R.
      destruct (do_process _ _ _ _ _ _ _ _ _ _ _ _) as [r|] eqn:E; [|discriminate]. cbn [bind] in R.
      assert (S1 : s1 = bk_stream r).
      { destruct (negb (gi TViewer b "crop_to_format" =? 0)); [destruct (crop_image_in_place _ _ _ _ _ _); [|discriminate]; cbn [bind] in R|];
          now injection R as _ <-. }
      subst s1. destruct (viewer_bake b).
      - unfold do_process in E. now injection E as <-.
      - now apply bake_space_stream in E.
      - apply bake_grade_stream in E. rewrite E. now apply clean_colour.
      - apply bake_all_stream in E. rewrite E, clean_colour by exact SE. reflexivity.
      - discriminate. }
    destruct (bake_from _); try discriminate; injection H as _ <- <- <-;
      (match type of MK with bind ?m _ = _ => destruct m as [[i s1]|] eqn:R; [|discriminate] end;
       cbn [bind] in MK; injection MK as <- <-; cbn [fst snd]; rewrite (VP _ _ eq_refl); now split).
  - destruct ins as [|s0 rest]; [discriminate|]. cbn [first_input fst] in SE. destruct (negb (gi TResample b "enable" =? 1)); [discriminate|].
    destruct (match p with Debug => _ | Release => _ end); [discriminate|].
    destruct (gi TResample b "factor" =? 0); [discriminate|]. injection H as _ <- <- <-.
    change (gi TResample b "factor") with (b_i32 b "factor") in MK.
    change (gi TResample b "interpolate") with (b_i32 b "interpolate") in MK.
    destruct (x_resample _ _ _ _ _) as [ok i]. cbn [fst] in SE. subst ok. injection MK as <- <-. now split.
Qed.

(** Images are made by active nodes only, which use the cache if told to. *)
Lemma image_active t b fr h ins d use hit make fin : plan_of t b fr h ins d = PImage use hit make fin ->
  (t = TRead -> b_i32 b "enable" = 0 \/ b_i32 b "enable" = 1) ->
  active t b /\ use = negb (b_i32 b "use_cache" =? 0).
Proof.
  destruct t; cbn [plan_of active]; intros H RE; try discriminate.
  - change (gi TRead b "enable") with (b_i32 b "enable") in H. specialize (RE eq_refl).
    destruct (b_i32 b "enable" =? 0) eqn:E; [discriminate|]. destruct (node_path _ _ _); [|discriminate].
    destruct (x_kind _ _ _); try discriminate; [|destruct (b_i32 b "enable" =? 1); discriminate].
    injection H as <- _ _ _. apply Z.eqb_neq in E. split; [tauto|reflexivity].
  - destruct (first_input ins). destruct (negb _); discriminate.
  - destruct (first_input ins). destruct (gi TLens b "enable" =? 1); [destruct (x_lens_ok _ _)|]; discriminate.
  - destruct (first_input ins). discriminate.
  - change (gi TMerge b "enable") with (b_i32 b "enable") in H.
    destruct (b_i32 b "enable" =? 1) eqn:E; [|discriminate]. apply Z.eqb_eq in E. cbn [negb] in H.
    destruct ins as [|sa rest]; [discriminate|].
    destruct (match rest with [] => _ | _ => _ end). injection H as <- _ _ _. now split.
  - destruct ins; [discriminate|]. change (gi TCrop b "enable") with (b_i32 b "enable") in H.
    destruct (b_i32 b "enable" =? 1) eqn:E; [|discriminate]. apply Z.eqb_eq in E. cbn [negb] in H. injection H as <- _ _ _. now split.
  - change (gi TViewer b "enable") with (b_i32 b "enable") in H.
    destruct (b_i32 b "enable" =? 1) eqn:E; [|discriminate]. apply Z.eqb_eq in E. cbn [negb] in H.
    destruct (first_input ins). change (gi TViewer b "bake_option") with (b_i32 b "bake_option") in H.
    assert (BO : b_i32 b "bake_option" <> 0) by (intro Q; rewrite Q in H; discriminate).
    destruct (bake_from _); try discriminate; injection H as <- _ _ _; now split.
  - destruct ins; [discriminate|]. change (gi TResample b "enable") with (b_i32 b "enable") in H.
    destruct (b_i32 b "enable" =? 1) eqn:E; [|discriminate]. apply Z.eqb_eq in E. cbn [negb] in H.
    destruct (match p with Debug => _ | Release => _ end); [discriminate|].
    change (gi TResample b "factor") with (b_i32 b "factor") in H.
    destruct (b_i32 b "factor" =? 0) eqn:F; [discriminate|]. apply Z.eqb_neq in F. injection H as <- _ _ _. now split.
Qed.
End Plan.

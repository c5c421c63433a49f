(** Pictures that are kept are not made again. *)
From Coq Require String.
Import String.StringSyntax.
From Coq Require Import Floats.SpecFloat.
From Verif Require Import Machine CacheModel CacheProofs BBoxModel PixelModel EnumModel MergeModel AttrModel PathModel
  HashModel HashSpec StreamModel BakeModel GraphModel NodeModel NodeSpec AgainSpec.
Local Open Scope string_scope.

Section Again.
Context {D : Type}.
Variable p : profile.
Variable x : externals D.

Lemma cached_hit {E} h (w : world D) (hit : E) make img : holds w h img ->
  cached p true h w hit make = Ok (img, hit, World (fst (get (w_cache w) h)) (w_disk w)).
Proof. unfold cached, holds. intro H. destruct (get (w_cache w) h) as [c r]. cbn [snd fst] in *. now subst r. Qed.

Lemma get_capacity (c : cache shared) k : capacity (fst (get c k)) = capacity c.
Proof. unfold get. destruct (lhm_get_refresh k (lru c)) as [[v|] l]; reflexivity. Qed.

Lemma get_again (c : cache shared) k v : snd (get c k) = Some v -> snd (get (fst (get c k)) k) = Some v.
Proof.
  intro H. rewrite !get_find in *. unfold get, lhm_get_refresh. rewrite H. cbn [fst lru].
  apply (find_insert_same image_bytes).
Qed.

Lemma cached_keeps {E} h (w : world D) (hit : E) make img e w1 : capacity (w_cache w) <> 0 ->
  cached p true h w hit make = Ok (img, e, w1) -> holds w1 h img.
Proof.
  unfold cached, holds. intros C H. destruct (get (w_cache w) h) as [c r] eqn:G.
  pose proof (get_capacity (w_cache w) h) as K. rewrite G in K. cbn [fst] in K.
  destruct r as [i|].
  - injection H as <- _ <-. cbn [w_cache]. pose proof (get_again (w_cache w) h i) as X. rewrite G in X. exact (X eq_refl).
  - destruct make as [[i e']|]; [|discriminate H]. cbn [bind] in H.
    destruct (insert image_bytes p c h i) as [c1|] eqn:I; [|discriminate H]. cbn [bind] in H. injection H as <- _ <-.
    cbn [w_cache]. apply (insert_then_get image_bytes p c c1 h i); [congruence|exact I].
Qed.

Lemma pixel_bit mode : Z.testbit mode 0 = true -> (Z.land mode m_pixel =? 0) = false.
Proof.
  intro H. apply Z.eqb_neq. intro E. assert (X : Z.testbit (Z.land mode m_pixel) 0 = false) by now rewrite E.
  rewrite Z.land_spec, H in X. discriminate X.
Qed.

Lemma nz z : z <> 0 -> negb (z =? 0) = true.
Proof. intro H. apply negb_true_iff, Z.eqb_neq. exact H. Qed.
Lemma one z : z = 1 -> negb (z =? 1) = false.
Proof. intros ->. reflexivity. Qed.

(** The result of a node that keeps its picture, through the cache. *)
Lemma keeps_kept t b fr h mode ins out w st s w1 : capacity (w_cache w) <> 0 ->
  keeps_picture x t b fr mode ins (w_disk w) ->
  compute_op p x t b fr h mode ins out w = Ok (st, s, w1) ->
  exists img, holds w1 h img /\ shows s img.
Proof.
  intros C (U & K) H. apply nz in U. destruct t; try contradiction; cbn [compute_op] in H.
  - destruct K as (K1 & K2 & path & K3 & K4). unfold read_compute in H. rewrite (pixel_bit _ K2) in H.
    change (gi TRead b "enable") with (b_i32 b "enable") in H. apply Z.eqb_neq in K1. rewrite K1 in H.
    change (gs TRead b "file_path") with (b_str b "file_path") in H. rewrite K3 in H. cbn [bind] in H. rewrite K4 in H.
    change (gi TRead b "use_cache") with (b_i32 b "use_cache") in H. rewrite U in H.
    destruct (cached p true h w tt _) as [[[img e] w']|] eqn:E; [|discriminate H]. cbn [bind] in H.
    injection H as <- <- <-. exists img. split; [exact (cached_keeps _ _ _ _ _ _ _ C E)|]. repeat split.
  - destruct K as (K1 & K2). unfold merge_compute in H.
    change (gi TMerge b "enable") with (b_i32 b "enable") in H. rewrite (one _ K1) in H.
    destruct ins as [|sa rest]; [contradiction|]. destruct (match rest with [] => _ | _ => _ end) as [sb st0].
    change (gi TMerge b "use_cache") with (b_i32 b "use_cache") in H. rewrite U in H.
    destruct (cached p true h w tt _) as [[[img e] w']|] eqn:E; [|discriminate H]. cbn [bind] in H.
    injection H as <- <- <-. exists img. split; [exact (cached_keeps _ _ _ _ _ _ _ C E)|]. repeat split.
  - destruct K as (K1 & K2). unfold crop_compute in H. destruct ins as [|s0 rest]; [contradiction|].
    change (gi TCrop b "enable") with (b_i32 b "enable") in H. rewrite (one _ K1) in H.
    change (gi TCrop b "use_cache") with (b_i32 b "use_cache") in H. rewrite U in H.
    destruct (cached p true h w _ _) as [[[img [s' st']] w']|] eqn:E; [|discriminate H]. cbn [bind] in H.
    injection H as <- <- <-. exists img. split; [exact (cached_keeps _ _ _ _ _ _ _ C E)|]. repeat split.
  - destruct K as (K1 & K2). unfold viewer_compute in H.
    change (gi TViewer b "enable") with (b_i32 b "enable") in H. rewrite (one _ K1) in H.
    change (gi TViewer b "use_cache") with (b_i32 b "use_cache") in H. rewrite U in H.
    change (gi TViewer b "bake_option") with (b_i32 b "bake_option") in H.
    destruct (first_input ins) as [s0 st0].
    assert (N : bake_from (b_i32 b "bake_option") <> BakeNothing).
    { intro Q. apply K2. destruct (b_i32 b "bake_option") as [|[[]|[]|]|]; [reflexivity|discriminate Q..]. }
    destruct (bake_from (b_i32 b "bake_option")); try (now elim N);
    (destruct (cached p true h w _ _) as [[[img s'] w']|] eqn:E; [|discriminate H]; cbn [bind] in H;
     injection H as <- <- <-; exists img; split; [exact (cached_keeps _ _ _ _ _ _ _ C E)|]; repeat split).
  - destruct K as (K1 & K2 & K3). unfold resample_compute in H. destruct ins as [|s0 rest]; [discriminate K3|].
    change (gi TResample b "enable") with (b_i32 b "enable") in H. rewrite (one _ K1) in H.
    change (gi TResample b "use_cache") with (b_i32 b "use_cache") in H. rewrite U in H.
    change (gi TResample b "factor") with (b_i32 b "factor") in H. apply Z.eqb_neq in K2. rewrite K2 in H.
    destruct rest; [|discriminate K3]. cbn [length Nat.eqb negb] in H.
    assert (Q : match p with Debug => false | Release => false end = false) by now destruct p. rewrite Q in H.
    destruct (cached p true h w _ _) as [[[img e] w']|] eqn:E; [|discriminate H]. cbn [bind] in H.
    injection H as <- <- <-. exists img. split; [exact (cached_keeps _ _ _ _ _ _ _ C E)|]. repeat split.
Qed.

(** With the picture in the cache, nothing but the cache is looked at. *)
Lemma not_made_again t b fr h mode ins out w img :
  keeps_picture x t b fr mode ins (w_disk w) -> holds w h img ->
  exists st s, compute_op p x t b fr h mode ins out w = Ok (st, s, World (fst (get (w_cache w) h)) (w_disk w)) /\ shows s img.
Proof.
  intros (U & K) H. apply nz in U. destruct t; try contradiction; cbn [compute_op].
  - destruct K as (K1 & K2 & path & K3 & K4). unfold read_compute. rewrite (pixel_bit _ K2).
    change (gi TRead b "enable") with (b_i32 b "enable"). apply Z.eqb_neq in K1. rewrite K1.
    change (gs TRead b "file_path") with (b_str b "file_path"). rewrite K3. cbn [bind]. rewrite K4.
    change (gi TRead b "use_cache") with (b_i32 b "use_cache"). rewrite U.
    rewrite (cached_hit h w tt _ img H). cbn [bind]. eexists _, _. split; [reflexivity|]. repeat split.
  - destruct K as (K1 & K2). unfold merge_compute.
    change (gi TMerge b "enable") with (b_i32 b "enable"). rewrite (one _ K1).
    destruct ins as [|sa rest]; [contradiction|]. destruct (match rest with [] => _ | _ => _ end) as [sb st0].
    change (gi TMerge b "use_cache") with (b_i32 b "use_cache"). rewrite U.
    rewrite (cached_hit h w tt _ img H). cbn [bind]. eexists _, _. split; [reflexivity|]. repeat split.
  - destruct K as (K1 & K2). unfold crop_compute. destruct ins as [|s0 rest]; [contradiction|].
    change (gi TCrop b "enable") with (b_i32 b "enable"). rewrite (one _ K1).
    change (gi TCrop b "use_cache") with (b_i32 b "use_cache"). rewrite U.
    rewrite (cached_hit h w _ _ img H). cbn [bind]. eexists _, _. split; [reflexivity|]. repeat split.
  - destruct K as (K1 & K2). unfold viewer_compute.
    change (gi TViewer b "enable") with (b_i32 b "enable"). rewrite (one _ K1).
    change (gi TViewer b "use_cache") with (b_i32 b "use_cache"). rewrite U.
    change (gi TViewer b "bake_option") with (b_i32 b "bake_option").
    destruct (first_input ins) as [s0 st0].
    assert (N : bake_from (b_i32 b "bake_option") <> BakeNothing).
    { intro Q. apply K2. destruct (b_i32 b "bake_option") as [|[[]|[]|]|]; [reflexivity|discriminate Q..]. }
    destruct (bake_from (b_i32 b "bake_option")); try (now elim N);
    (rewrite (cached_hit h w _ _ img H); cbn [bind]; eexists _, _; split; [reflexivity|]; repeat split).
  - destruct K as (K1 & K2 & K3). unfold resample_compute. destruct ins as [|s0 rest]; [discriminate K3|].
    change (gi TResample b "enable") with (b_i32 b "enable"). rewrite (one _ K1).
    change (gi TResample b "use_cache") with (b_i32 b "use_cache"). rewrite U.
    change (gi TResample b "factor") with (b_i32 b "factor"). apply Z.eqb_neq in K2. rewrite K2.
    destruct rest; [|discriminate K3]. cbn [length Nat.eqb negb].
    assert (Q : match p with Debug => false | Release => false end = false) by now destruct p. rewrite Q.
    rewrite (cached_hit h w _ _ img H). cbn [bind]. eexists _, _. split; [reflexivity|]. repeat split.
Qed.

(** A file is read once. *)
Lemma read_shape b fr h mode ins out w : keeps_picture x TRead b fr mode ins (w_disk w) ->
  exists path, compute_op p x TRead b fr h mode ins out w =
  (let* (img, _, w) := cached p true h w tt (Ok (x_read x (w_disk w) path empty_image, tt)) in
   Ok (NsValid, set_image_spec (set_pixel_block (set_hash (set_display_window
            (set_data_window stream_new (sh_data img)) (sh_display img)) h) (sh_block img)) (sh_spec img), w)).
Proof.
  intros (U & K1 & K2 & path & K3 & K4). apply nz in U. exists path. cbn [compute_op]. unfold read_compute. rewrite (pixel_bit _ K2).
  change (gi TRead b "enable") with (b_i32 b "enable"). apply Z.eqb_neq in K1. rewrite K1.
  change (gs TRead b "file_path") with (b_str b "file_path"). rewrite K3. cbn [bind]. rewrite K4.
  change (gi TRead b "use_cache") with (b_i32 b "use_cache"). rewrite U. reflexivity.
Qed.

Lemma read_once b fr h mode ins out w st s w1 : capacity (w_cache w) <> 0 ->
  keeps_picture x TRead b fr mode ins (w_disk w) ->
  compute_op p x TRead b fr h mode ins out w = Ok (st, s, w1) ->
  forall d out', keeps_picture x TRead b fr mode ins d ->
  exists w2, compute_op p x TRead b fr h mode ins out' (World (w_cache w1) d) = Ok (st, s, w2) /\ w_disk w2 = d.
Proof.
  intros C K H d out' K'. destruct (read_shape b fr h mode ins out w K) as (path & E). rewrite E in H. clear E.
  destruct (cached p true h w tt _) as [[[img e] w']|] eqn:E; [|discriminate H]. cbn [bind] in H. injection H as <- <- <-.
  pose proof (cached_keeps _ _ _ _ _ _ _ C E) as HI.
  destruct (read_shape b fr h mode ins out' (World (w_cache w') d) K') as (path' & E'). rewrite E'. clear E'.
  rewrite (cached_hit h (World (w_cache w') d) tt _ img HI). cbn [bind w_disk]. eexists. split; reflexivity.
Qed.

(** Nodes that do not keep a picture leave the cache alone. *)
Lemma cached_off {E} h (w : world D) (hit : E) make img e w1 :
  cached p false h w hit make = Ok (img, e, w1) -> w1 = w.
Proof. unfold cached. destruct make as [[i e']|]; [|discriminate]. cbn [bind]. now intros [= _ _ <-]. Qed.

Lemma leaves_cache t b fr h mode ins out w st s w1 :
  b_i32 b "use_cache" = 0 \/ ~ In t [TRead; TCrop; TMerge; TResample; TViewer] ->
  compute_op p x t b fr h mode ins out w = Ok (st, s, w1) -> w_cache w1 = w_cache w.
Proof.
  intros U H.
  assert (U' : In t [TRead; TCrop; TMerge; TResample; TViewer] -> negb (b_i32 b "use_cache" =? 0) = false).
  { intro I. destruct U as [-> |U]; [reflexivity|contradiction]. }
  clear U. destruct t; cbn [compute_op] in H; cbn [In] in U'.
  - unfold null_compute in H. destruct ins; now injection H as _ _ <-.
  - specialize (U' ltac:(auto 6)). unfold read_compute in H. change (gi TRead b "use_cache") with (b_i32 b "use_cache") in H. rewrite U' in H.
    destruct (_ =? 0); [now injection H as _ _ <-|]. destruct (_ =? 0); [now injection H as _ _ <-|].
    destruct (expand_string _ _ _) as [path|]; [|discriminate H]. cbn [bind] in H. destruct (x_kind _ _ _).
    + now injection H as _ _ <-.
    + destruct (cached p false h w tt _) as [[[img e] w']|] eqn:E; [|discriminate H]. cbn [bind] in H. injection H as _ _ <-.
      now rewrite (cached_off _ _ _ _ _ _ _ E).
    + destruct (_ =? 1); now injection H as _ _ <-.
  - unfold write_compute in H. destruct (_ =? 0); [now injection H as _ _ <-|]. destruct ins; [now injection H as _ _ <-|].
    destruct (_ =? 0); [now injection H as _ _ <-|]. destruct (write_process p x b fr s0 (w_disk w)) as [[d ok]|]; [|discriminate H].
    cbn [bind] in H. now injection H as _ _ <-.
  - unfold grade_compute in H. destruct (first_input ins). destruct (negb _); now injection H as _ _ <-.
  - unfold lens_compute in H. destruct (first_input ins). destruct (_ =? 1); [destruct (x_lens_ok _ _); [|discriminate H]|]; now injection H as _ _ <-.
  - unfold transform_compute in H. destruct (first_input ins). now injection H as _ _ <-.
  - specialize (U' ltac:(auto 6)). unfold merge_compute in H. change (gi TMerge b "use_cache") with (b_i32 b "use_cache") in H. rewrite U' in H.
    destruct (negb (_ =? 1)); [now injection H as _ _ <-|]. destruct ins as [|sa rest]; [now injection H as _ _ <-|].
    destruct (match rest with [] => _ | _ => _ end) as [sb st0].
    destruct (cached p false h w tt _) as [[[img e] w']|] eqn:E; [|discriminate H]. cbn [bind] in H. injection H as _ _ <-.
    now rewrite (cached_off _ _ _ _ _ _ _ E).
  - specialize (U' ltac:(auto 6)). unfold crop_compute in H. change (gi TCrop b "use_cache") with (b_i32 b "use_cache") in H. rewrite U' in H.
    destruct ins as [|sa rest]; [now injection H as _ _ <-|]. destruct (negb (_ =? 1)); [now injection H as _ _ <-|].
    destruct (cached p false h w _ _) as [[[img [s' st']] w']|] eqn:E; [|discriminate H]. cbn [bind] in H. injection H as _ _ <-.
    now rewrite (cached_off _ _ _ _ _ _ _ E).
  - specialize (U' ltac:(auto 6)). unfold viewer_compute in H. change (gi TViewer b "use_cache") with (b_i32 b "use_cache") in H. rewrite U' in H.
    destruct (negb (_ =? 1)); [now injection H as _ _ <-|]. destruct (first_input ins) as [s0 st0].
    destruct (bake_from _); try (now injection H as _ _ <-);
    (destruct (cached p false h w _ _) as [[[img s'] w']|] eqn:E; [|discriminate H]; cbn [bind] in H; injection H as _ _ <-;
     now rewrite (cached_off _ _ _ _ _ _ _ E)).
  - specialize (U' ltac:(auto 6)). unfold resample_compute in H. change (gi TResample b "use_cache") with (b_i32 b "use_cache") in H. rewrite U' in H.
    destruct ins as [|sa rest]; [now injection H as _ _ <-|]. destruct (negb (_ =? 1)); [now injection H as _ _ <-|].
    destruct (match p with Debug => _ | Release => _ end); [discriminate H|]. destruct (_ =? 0); [now injection H as _ _ <-|].
    destruct (cached p false h w _ _) as [[[img e] w']|] eqn:E; [|discriminate H]. cbn [bind] in H. injection H as _ _ <-.
    now rewrite (cached_off _ _ _ _ _ _ _ E).
Qed.

(* ------------------------------ keys ------------------------------ *)

Lemma agree_cons a l b b' : agree_on (a :: l) b b' -> agree_on [a] b b' /\ agree_on l b b'.
Proof. intro H. split; intros c I; apply H; [destruct I as [<-|[]]; now left|now right]. Qed.
Lemma agree_app l l' b b' : agree_on (l ++ l') b b' -> agree_on l b b' /\ agree_on l' b b'.
Proof. intro H. split; intros c I; apply H, in_app_iff; auto. Qed.
Lemma agree_i l b b' n : agree_on l b b' -> In (AI32 n) l -> b_i32 b n = b_i32 b' n.
Proof. intros H I. exact (H _ I). Qed.
Lemma agree_f l b b' n : agree_on l b b' -> In (AF32 n) l -> b_f32 b n = b_f32 b' n.
Proof. intros H I. exact (H _ I). Qed.
Lemma agree_s l b b' n : agree_on l b b' -> In (AStr n) l -> b_str b n = b_str b' n.
Proof. intros H I. exact (H _ I). Qed.

Ltac inlist := cbn; repeat (first [left; reflexivity | right]).
Ltac use_i A n := let E := fresh "E" in pose proof (agree_i _ _ _ n A ltac:(inlist)) as E; cbv beta in E; rewrite <- ?E.
Ltac use_f A n := let E := fresh "E" in pose proof (agree_f _ _ _ n A ltac:(inlist)) as E; cbv beta in E; rewrite <- ?E.

Lemma channel_eq b b' flag s : b_i32 b flag = b_i32 b' flag -> agree_on (processed b flag s) b b' ->
  (if negb (b_i32 b flag =? 0)
   then hash_f32s p (map (b_f32 b) (map (fun n => String.append n s) ["black_point_"; "white_point_"; "lift_"; "gain_"; "multiply_"; "offset_"; "gamma_"]))
   else Ok []) =
  (if negb (b_i32 b' flag =? 0)
   then hash_f32s p (map (b_f32 b') (map (fun n => String.append n s) ["black_point_"; "white_point_"; "lift_"; "gain_"; "multiply_"; "offset_"; "gamma_"]))
   else Ok []).
Proof.
  intros E A. rewrite <- E. unfold processed in A. destruct (b_i32 b flag =? 0); [reflexivity|]. cbn [negb]. f_equal.
  rewrite !map_map. apply map_ext_in. intros n I. apply (agree_f _ _ _ (String.append n s) A).
  unfold channel_attrs. apply in_map_iff. exists n. auto.
Qed.

Lemma same_key expand t b b' fr fr' ins :
  agree_on (key_attributes t b) b b' -> same_path expand t b b' fr fr' ->
  cache_hash_bytes p expand t b fr ins = cache_hash_bytes p expand t b' fr' ins.
Proof.
  intros A S. unfold cache_hash_bytes. assert (X : attr_hash p expand t b fr = attr_hash p expand t b' fr'); [|now rewrite X].
  unfold key_attributes in A. destruct t; cbn [attr_hash]; cbn [influences app] in A.
  - reflexivity.
  - unfold path_hash. use_i A "enable". cbn [same_path] in S. now rewrite S.
  - unfold path_hash. use_i A "enable". cbn [same_path] in S. now rewrite S.
  - apply agree_cons in A. destruct A as (A0 & A). rewrite <- !app_assoc in A. 
    do 4 (apply agree_cons in A; let A1 := fresh "P" in destruct A as (A1 & A)).
    apply agree_app in A. destruct A as (CR & A). apply agree_app in A. destruct A as (CG & A).
    apply agree_app in A. destruct A as (CB & A). apply agree_app in A. destruct A as (CA & A).
    apply agree_app in A. destruct A as (M & A).
    pose proof (agree_i _ _ _ "enable" A0 ltac:(inlist)) as E0.
    pose proof (agree_i _ _ _ "process_r" P ltac:(inlist)) as Er.
    pose proof (agree_i _ _ _ "process_g" P0 ltac:(inlist)) as Eg.
    pose proof (agree_i _ _ _ "process_b" P1 ltac:(inlist)) as Eb.
    pose proof (agree_i _ _ _ "process_a" P2 ltac:(inlist)) as Ea.
    pose proof (agree_i _ _ _ "clamp_black" A ltac:(inlist)) as K1.
    pose proof (agree_i _ _ _ "clamp_white" A ltac:(inlist)) as K2.
    pose proof (agree_i _ _ _ "premult" A ltac:(inlist)) as K3.
    pose proof (channel_eq b b' _ _ Er CR) as HR. pose proof (channel_eq b b' _ _ Eg CG) as HG.
    pose proof (channel_eq b b' _ _ Eb CB) as HB. pose proof (channel_eq b b' _ _ Ea CA) as HA.
    unfold grade_hash, grade_channel. cbn [map String.append] in HR, HG, HB, HA |- *. rewrite <- E0, HR, HG, HB, HA, <- Er, <- Eg, <- Eb, <- Ea, <- K1, <- K2, <- K3.
    clear - M. destruct (b_i32 b "enable" =? 0); [reflexivity|].
    destruct (b_i32 b "process_r" =? 0), (b_i32 b "process_g" =? 0), (b_i32 b "process_b" =? 0), (b_i32 b "process_a" =? 0);
      cbn [negb orb andb] in *; try reflexivity;
      (pose proof (agree_i _ _ _ "reverse" M ltac:(inlist)) as M1; pose proof (agree_f _ _ _ "mix" M ltac:(inlist)) as M2;
       rewrite <- M1, <- M2; reflexivity).
  - unfold lens_hash. use_i A "enable". cbn [map]. use_f A "lens_center_offset_x". use_f A "lens_center_offset_y". use_f A "distortion".
    use_f A "anamorphic_squeeze". use_f A "curvature_x". use_f A "curvature_y". use_f A "quartic_distortion". reflexivity.
  - unfold transform_hash. use_i A "enable". cbn [map]. use_i A "invert". use_f A "translate_x". use_f A "translate_y". use_f A "rotate".
    use_f A "rotate_center_x". use_f A "rotate_center_y". use_f A "scale_x". use_f A "scale_y". use_f A "pivot_x". use_f A "pivot_y". reflexivity.
  - unfold merge_hash. use_i A "enable". use_i A "mode". use_f A "mix". reflexivity.
  - unfold crop_hash. use_i A "enable". use_i A "window_min_x". use_i A "window_min_y". use_i A "window_max_x". use_i A "window_max_y".
    use_i A "reformat". use_i A "black_outside". use_i A "intersect". reflexivity.
  - unfold viewer_hash. use_i A "enable". use_i A "bake_option". use_i A "crop_to_format". use_i A "bake_pixel_data_type".
    pose proof (agree_s _ _ _ "bake_color_space" A ltac:(inlist)) as Es. rewrite <- Es. reflexivity.
  - unfold resample_hash. use_i A "enable". use_i A "factor". use_i A "interpolate". reflexivity.
Qed.

(** A node that is switched off has one key per type and inputs. *)
Lemma off_key expand t b b' fr fr' ins : t <> TNull -> b_i32 b "enable" = 0 -> b_i32 b' "enable" = 0 ->
  cache_hash_bytes p expand t b fr ins = cache_hash_bytes p expand t b' fr' ins.
Proof.
  intros N E E'. unfold cache_hash_bytes. assert (X : attr_hash p expand t b fr = attr_hash p expand t b' fr'); [|now rewrite X].
  destruct t; cbn [attr_hash]; unfold path_hash, grade_hash, lens_hash, transform_hash, merge_hash, crop_hash, viewer_hash, resample_hash;
    try rewrite E, E'; reflexivity.
Qed.
End Again.

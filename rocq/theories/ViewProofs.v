From Coq Require String.
Import String.StringSyntax.
From Coq Require Import Floats.SpecFloat.
From Verif Require Import Machine Loops FloatModel BBoxModel PixelModel EnumModel AttrModel CacheModel StreamModel DeformModel BakeModel GraphModel GraphSpec NodeModel HashModel NodeSpec NodeProofs NodePair NodeProofs2 ViewSpec.
Local Open Scope string_scope.

Lemma told b o : told_to_bake b o <-> viewer_bake b = o.
Proof.
  unfold told_to_bake, viewer_bake.
  change (node_get_i32 (Node TViewer 0 0 b) "bake_option") with (gi TViewer b "bake_option").
  change (node_get_i32 (Node TViewer 0 0 b) "crop_to_format") with (gi TViewer b "crop_to_format").
  set (c := gi TViewer b "crop_to_format"). set (k := gi TViewer b "bake_option"). clearbody c k.
  destruct (Z.eqb_spec c 0) as [C|C]; cbn [negb].
  - assert (K : k = 0 \/ k = 1 \/ k = 2 \/ k = 3 \/ (k < 0 \/ 3 < k)) by lia.
    destruct K as [->|[->|[->|[->|K]]]]; cbn [bake_from].
    1-4: destruct o; split; intro H; try reflexivity; try discriminate H; try lia.
    assert (E : bake_from k = BakeUninitialized).
    { destruct k as [|q|q]; [lia| |reflexivity]. destruct q as [[q|q|]|[q|q|]|]; try reflexivity; lia. }
    rewrite E. destruct o; split; intro H; try reflexivity; try discriminate H; try lia.
  - destruct (Z.eq_dec k 0) as [->|K]; cbn [bake_from].
    + destruct o; split; intro H; try reflexivity; try discriminate H; try lia.
    + assert (E : bake_from k <> BakeNothing).
      { destruct k as [|q|q]; [lia| |discriminate]. destruct q as [[q|q|]|[q|q|]|]; discriminate. }
      destruct (bake_from k); try contradiction; destruct o; split; intro H; try reflexivity; try discriminate H; try lia; try (right; lia).
Qed.

Lemma viewer_asks b o mode n : gi TViewer b "enable" <> 0 -> told_to_bake b o -> o <> BakeUninitialized ->
  exists m, validate_op TViewer b mode (S n) = Ok (m :: nones n) /\
    forall k, Z.testbit m k = Z.testbit mode k && Z.testbit mode_all k && negb (Z.testbit (baked_parts o) k).
Proof.
  intros H T U. apply told in T. cbn [validate_op]. unfold validate_viewer.
  replace (gi TViewer b "enable" =? 0) with false by (symmetry; now apply Z.eqb_neq). rewrite T.
  assert (B : forall a d k, 0 <= a <= 15 -> a = Z.ldiff mode_all d ->
    Z.testbit (Z.land mode a) k = Z.testbit mode k && Z.testbit mode_all k && negb (Z.testbit d k)).
  { intros a d k A ->. destruct (Z.neg_nonneg_cases k) as [N|N].
    - now rewrite !Z.testbit_neg_r by assumption.
    - now rewrite Z.land_spec, Z.ldiff_spec, andb_assoc. }
  destruct o; try contradiction; eexists; (split; [reflexivity|]); intro k;
    apply B; vm_compute; try (split; discriminate); reflexivity.
Qed.

Section Shown.
Context {D : Type}.
Variable p : profile.
Variable x : externals D.

Lemma crop_windows im w im' : crop_image_in_place p im w true false false = Ok im' -> im_display im' = w /\ im_data im' = w.
Proof.
  unfold crop_image_in_place. cbn [bind]. intro H.
  destruct (from_pixel_block p (im_block im) (im_data im) w) as [blk|]; cbn [bind] in H; [|discriminate H].
  destruct (width_i32 p w) as [a|]; cbn [bind] in H; [|discriminate H]. destruct (negb _); [discriminate H|].
  destruct (height_i32 p w) as [a'|]; cbn [bind] in H; [|discriminate H]. destruct (negb _); [discriminate H|].
  injection H as <-. split; reflexivity.
Qed.

(** Not using the cache, or not finding anything there. *)
Lemma cached_fresh {E} u h (w : world D) (hit : E) make img e w' : cached p u h w hit make = Ok (img, e, w') -> u = false \/ misses w h ->
  make = Ok (img, e) /\ w_disk w' = w_disk w.
Proof.
  unfold cached, misses. intros H M. destruct u.
  - destruct M as [M|M]; [discriminate M|]. destruct (get (w_cache w) h) as (c, r). cbn [snd] in M. subst r.
    destruct make as [(i0, e0)|]; cbn [bind] in H; [|discriminate H]. destruct (insert image_bytes p c h i0); cbn [bind] in H; [|discriminate H].
    injection H as <- <- <-. split; reflexivity.
  - destruct make as [(i0, e0)|]; cbn [bind] in H; [|discriminate H]. injection H as <- <- <-. split; reflexivity.
Qed.

Lemma cropped_view b h mode s rest out (w : world D) fr st s' w' :
  gi TViewer b "enable" = 1 -> gi TViewer b "bake_option" <> 0 -> gi TViewer b "crop_to_format" <> 0 ->
  gi TViewer b "use_cache" = 0 \/ misses w h ->
  compute_op p x TViewer b fr h mode (s :: rest) out w = Ok (st, s', w') ->
  st_display s' = st_display s /\ st_data s' = st_display s /\ nothing_pending s' /\ w_disk w' = w_disk w.
Proof.
  intros E K C U H. cbn [compute_op] in H. unfold viewer_compute in H. rewrite E in H. cbn [Z.eqb negb first_input Pos.eqb] in H.
  assert (T : viewer_bake b = BakeAll).
  { apply told. right. split; assumption. }
  assert (N : bake_from (gi TViewer b "bake_option") <> BakeNothing).
  { intro Q. unfold viewer_bake in T. rewrite Q in T. discriminate. }
  assert (H' : (let* (img, s1, w) :=
        cached p (negb (gi TViewer b "use_cache" =? 0)) h w s
          (viewer_process p x s BakeAll (datatype_of (data_type_from (gi TViewer b "bake_pixel_data_type")))
             true (gs TViewer b "bake_color_space")) in
      Ok (NsValid, set_image_spec (set_pixel_block (set_hash (set_display_window
            (set_data_window (clear_deformers s1) (sh_data img)) (sh_display img)) h) (sh_block img)) (sh_spec img), w)) = Ok (st, s', w')).
  { rewrite T in H. replace (negb (gi TViewer b "crop_to_format" =? 0)) with true in H
      by (symmetry; apply negb_true_iff; now apply Z.eqb_neq).
    destruct (bake_from (gi TViewer b "bake_option")); try contradiction; exact H. }
  clear H. rename H' into H.
  destruct (cached _ _ _ _ _ _) as [[[img s1] w1]|] eqn:CA in H; [|discriminate H]. cbn [bind] in H. injection H as <- <- <-.
  destruct (cached_fresh _ _ _ _ _ _ _ _ CA) as (V & DK).
  { destruct U as [U|U]; [left; now rewrite U|now right]. }
  unfold viewer_process in V.
  destruct (do_process p (x_numerics x) (x_convert x) BakeAll (st_block s) (st_display s) (st_data s) (st_spec s) s (sp_color_space (st_spec s))
    (gs TViewer b "bake_color_space") (datatype_of (data_type_from (gi TViewer b "bake_pixel_data_type")))) as [r|] eqn:B; cbn [bind] in V; [|discriminate V].
  destruct (crop_image_in_place p (Image (bk_block r) (st_display s) (bk_data r)) (st_display s) true false false) as [im|] eqn:I;
    cbn [bind] in V; [|discriminate V]. injection V as <- <-.
  destruct (crop_windows _ _ _ I) as [I1 I2].
  assert (S : bk_stream r = clear_deformers (clear_color_ops (set_color_matrix s identity4))) by (eapply bake_all_stream; exact B).
  rewrite S. split; [exact I1|]. split; [exact I2|]. split; [|exact DK].
  split; [split; reflexivity|reflexivity].
Qed.
End Shown.

Lemma viewer_panics_iff t b mode n : validate_op t b mode n = Panic <->
  t = TViewer /\ n <> O /\ gi TViewer b "enable" <> 0 /\ told_to_bake b BakeUninitialized.
Proof. rewrite told. apply validate_panics_iff. Qed.

Section Pair.
Context {D : Type}.
Variable p : profile.
Variable x : externals D.
Variable srt : edge_sort.
Hypothesis HS : sorts srt.
Lemma told_bakes_read fuel rd vw o slot out s e fr w rd' str sr w1 vw' st sb w2 :
  nd_type rd = TRead -> nd_type vw = TViewer -> nd_id rd <> nd_id vw ->
  gi TViewer (nd_attrs vw) "enable" <> 0 ->
  told_to_bake (nd_attrs vw) o -> o <> BakeAll -> o <> BakeUninitialized ->
  node_compute p x rd fr mode_all [] out w = Ok (rd', str, sr, w1) ->
  node_compute p x vw fr mode_all [sr] sr w1 = Ok (vw', st, sb, w2) ->
  (str = NsValid \/ str = NsWarning) -> (st = NsValid \/ st = NsWarning) ->
  exists g', execute (node_ops p x) srt (3 + fuel) (pair_graph (node_ops p x) rd vw slot out s e) (nd_id vw) [fr] w
             = Some (Ok (g', w2, ExSuccess)) /\ g_output g' = sb.
Proof. rewrite told. intros T V N E <- A U. now apply other_bakes_read. Qed.
Lemma told_all_rebakes fuel rd vw slot out s e fr w kr vw' st sb w2 :
  nd_type rd = TRead -> nd_type vw = TViewer -> nd_id rd <> nd_id vw ->
  gi TViewer (nd_attrs vw) "enable" <> 0 -> told_to_bake (nd_attrs vw) BakeAll ->
  cache_hash p (x_expand x) (x_digest x) TRead (nd_attrs rd) fr [] = Ok kr ->
  node_compute p x vw fr mode_all [out] out w = Ok (vw', st, sb, w2) ->
  st = NsValid \/ st = NsWarning ->
  exists g', execute (node_ops p x) srt (3 + fuel) (pair_graph (node_ops p x) rd vw slot out s e) (nd_id vw) [fr] w
             = Some (Ok (g', w2, ExSuccess)) /\ g_output g' = sb.
Proof. rewrite told. now apply bake_all_rebakes. Qed.
End Pair.

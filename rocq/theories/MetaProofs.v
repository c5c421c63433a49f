(** Proofs about metadata. *)
From Coq Require String.
Import String.StringSyntax.
From Coq Require Import Floats.SpecFloat Lia.
From Verif Require Import Machine CacheModel FloatModel BBoxModel PixelModel MergeModel EnumModel AttrModel StreamModel GradeModel DeformModel BakeModel GraphModel PathModel
  HashModel NodeModel NodeSpec ChainSpec FileModel FileSpec FileProofs MetaSpec.
Local Open Scope string_scope.

Section Travel.
Context {D : Type}.
Variables (p : profile) (x : externals D).

Lemma space_about cv blk sp from to blk' sp' :
  bake_colorspace cv blk sp from to = Ok (blk', sp') -> about sp' = about sp.
Proof.
  unfold bake_colorspace. destruct (pb_convert blk Float32) as [b|]; cbn [bind]; [|discriminate].
  destruct (bytes_eqb from to); [congruence|]. destruct (slice_f32 (pb_data b)); cbn [bind]; [|discriminate].
  match goal with |- context [match ?c with Some _ => _ | None => _ end] => destruct c end; intro E;
    (assert (H : forall (a b : pixelblock * image_spec), Ok a = Ok b -> a = b) by congruence); apply H in E; injection E as _ <-; reflexivity.
Qed.

Lemma bake_about nx cv opt blk display data sp s from to ty r :
  do_process p nx cv opt blk display data sp s from to ty = Ok r ->
  about (bk_spec r) = about sp /\ st_spec (bk_stream r) = st_spec s.
Proof.
  unfold do_process. destruct opt; [| | | |discriminate].
  - intro E. injection E as <-. split; reflexivity.
  - destruct (bake_colorspace cv blk sp from to) as [(b1, s1)|] eqn:A; cbn [bind]; [|discriminate].
    destruct (pb_convert b1 _); cbn [bind]; [|discriminate]. intro E. injection E as <-.
    split; [exact (space_about _ _ _ _ _ _ _ A)|reflexivity].
  - destruct (bake_colorspace cv blk sp from linear_name) as [(b1, s1)|] eqn:A; cbn [bind]; [|discriminate].
    unfold bake_stream_colorgrade. destruct (bake_colorgrade nx b1 (st_matrix s) (st_ops s)) as [b2|]; cbn [bind]; [|discriminate].
    destruct (bake_colorspace cv b2 s1 linear_name to) as [(b3, s3)|] eqn:B; cbn [bind]; [|discriminate].
    destruct (pb_convert b3 _); cbn [bind]; [|discriminate]. intro E. injection E as <-.
    apply space_about in A, B. split; [|reflexivity]. rewrite <- A, <- B. reflexivity.
  - destruct (bake_colorspace cv blk sp from linear_name) as [(b1, s1)|] eqn:A; cbn [bind]; [|discriminate].
    unfold bake_stream_colorgrade. destruct (bake_colorgrade nx b1 (st_matrix s) (st_ops s)) as [b2|]; cbn [bind]; [|discriminate].
    match goal with |- context [let* _ := ?d in _] => destruct d as [(b4, d4)|]; cbn [bind]; [|discriminate] end.
    destruct (bake_colorspace cv b4 s1 linear_name to) as [(b3, s3)|] eqn:B; cbn [bind]; [|discriminate].
    destruct (pb_convert b3 _); cbn [bind]; [|discriminate]. intro E. injection E as <-.
    apply space_about in A, B. split; [|reflexivity]. rewrite <- A, <- B. reflexivity.
Qed.

Lemma cached_miss {E} u h (w : world D) (hit : E) make img e w' : misses w h ->
  cached p u h w hit make = Ok (img, e, w') -> make = Ok (img, e).
Proof.
  unfold cached, misses. destruct u.
  - destruct (get (w_cache w) h) as (c, r). cbn [snd]. intros ->.
    destruct make as [(i, e0)|]; cbn [bind]; [|discriminate]. destruct (insert image_bytes p c h i); cbn [bind]; [|discriminate].
    intro E0. injection E0 as <- <- _. reflexivity.
  - intros _. destruct make as [(i, e0)|]; cbn [bind]; [|discriminate]. intro E0. injection E0 as <- <- _. reflexivity.
Qed.
Lemma cached_either {E} u h (w : world D) (hit : E) make img e w' :
  cached p u h w hit make = Ok (img, e, w') -> make = Ok (img, e) \/ e = hit.
Proof.
  unfold cached. destruct u.
  - destruct (get (w_cache w) h) as (c, [r|]).
    + intro E0. injection E0 as _ <- _. right. reflexivity.
    + destruct make as [(i, e0)|]; cbn [bind]; [|discriminate]. destruct (insert image_bytes p c h i); cbn [bind]; [|discriminate].
      intro E0. injection E0 as <- <- _. left. reflexivity.
  - destruct make as [(i, e0)|]; cbn [bind]; [|discriminate]. intro E0. injection E0 as <- <- _. left. reflexivity.
Qed.

Lemma crop_about b h s rest (w : world D) st s' w' : crop_compute p x b h (s :: rest) w = Ok (st, s', w') -> st_spec s' = st_spec s.
Proof.
  unfold crop_compute. destruct (negb _); [congruence|]. 
  match goal with |- context [cached p ?u h w ?hit ?make] => destruct (cached p u h w hit make) as [((img, (s1, st1)), w1)|] eqn:C end; cbn [bind]; [|discriminate].
  intro E. injection E as _ <- _. cbn [set_pixel_block set_display_window set_data_window set_hash st_spec].
  apply cached_either in C as [C|C].
  - unfold crop_process in C. match type of C with (let* _ := ?d in _) = _ => destruct d as [r|] eqn:B; cbn [bind] in C; [|discriminate] end.
    match type of C with (let* _ := ?d in _) = _ => destruct d as [im|]; cbn [bind] in C; [|discriminate] end.
    injection C as _ <- _. apply bake_about in B as (_ & B). exact B.
  - injection C as <- _. reflexivity.
Qed.

Lemma viewer_about b h s rest out (w : world D) st s' w' : b_i32 b "enable" = 1 -> misses w h ->
  viewer_compute p x b h (s :: rest) out w = Ok (st, s', w') -> about (st_spec s') = about (st_spec s).
Proof.
  intros EN MI. unfold viewer_compute. change (gi TViewer b "enable") with (b_i32 b "enable"). rewrite EN. cbn [Z.eqb Pos.eqb negb first_input].
  destruct (bake_from (gi TViewer b "bake_option")) eqn:BO; [intro E; injection E as _ <- _; reflexivity| | | |];
  (match goal with |- context [cached p ?u h w ?hit ?make] => destruct (cached p u h w hit make) as [((img, s1), w1)|] eqn:C end; cbn [bind]; [|discriminate]);
  intro E; injection E as _ <- _; cbn [set_image_spec set_pixel_block set_display_window set_data_window set_hash st_spec];
  apply (cached_miss _ _ _ _ _ _ _ _ MI) in C; unfold viewer_process in C;
  (match type of C with (let* _ := ?d in _) = _ => destruct d as [r|] eqn:B; cbn [bind] in C; [|discriminate] end);
  apply bake_about in B as (B & _); destruct (negb _) in C;
  try (match type of C with (let* _ := ?d in _) = _ => destruct d as [im|]; cbn [bind] in C; [|discriminate] end);
  injection C as <- _; exact B.
Qed.

Lemma travels n fr mode s rest out (w : world D) h n' st s' w' :
  cache_hash p (x_expand x) (x_digest x) (nd_type n) (nd_attrs n) fr (map st_hash (s :: rest)) = Ok h ->
  passes n h w -> node_compute p x n fr mode (s :: rest) out w = Ok (n', st, s', w') ->
  about (st_spec s') = about (st_spec s).
Proof.
  intros H P. unfold node_compute. rewrite H. cbn [bind].
  destruct (compute_op p x (nd_type n) (nd_attrs n) fr h mode (s :: rest) out w) as [((st1, s1), w1)|] eqn:C; cbn [bind]; [|discriminate].
  intro E. injection E as _ _ -> _. unfold passes in P. unfold compute_op in C.
  destruct (nd_type n).
  - injection C as _ <- _. reflexivity.
  - contradiction.
  - unfold write_compute in C. change (gi TWrite (nd_attrs n) "enable") with (b_i32 (nd_attrs n) "enable") in C.
    apply Z.eqb_neq in P. rewrite P in C. destruct (_ =? 0) in C; [injection C as _ <- _; reflexivity|].
    match type of C with (let* _ := ?d in _) = _ => destruct d as [(d1, o1)|]; cbn [bind] in C; [|discriminate] end.
    injection C as _ <- _. reflexivity.
  - unfold grade_compute in C. cbn [first_input] in C. destruct (negb _) in C; injection C as _ <- _; reflexivity.
  - unfold lens_compute in C. cbn [first_input] in C. destruct (_ =? 1) in C; [|injection C as _ <- _; reflexivity].
    destruct (x_lens_ok x _) in C; [|discriminate]. injection C as _ <- _. reflexivity.
  - unfold transform_compute in C. cbn [first_input] in C. injection C as _ <- _. destruct (_ =? 1); reflexivity.
  - contradiction.
  - now rewrite (crop_about _ _ _ _ _ _ _ _ C).
  - destruct P as (EN & MI). exact (viewer_about _ _ _ _ _ _ _ _ _ EN MI C).
  - unfold resample_compute in C. destruct (negb _) in C; [injection C as _ <- _; reflexivity|].
    destruct (match p with Debug => _ | Release => _ end) in C; [discriminate|].
    destruct (_ =? 0) in C; [injection C as _ <- _; reflexivity|].
    match type of C with (let* _ := ?d in _) = _ => destruct d as [((i1, t1), w2)|]; cbn [bind] in C; [|discriminate] end.
    injection C as _ <- _. reflexivity.
Qed.

Lemma merge_about n fr mode ins out (w : world D) n' st s' w' : nd_type n = TMerge ->
  node_compute p x n fr mode ins out w = Ok (n', st, s', w') -> st_spec s' = spec_new.
Proof.
  intros T. unfold node_compute. rewrite T. destruct (cache_hash _ _ _ _ _ _ _) as [h|]; cbn [bind]; [|discriminate].
  cbn [compute_op]. destruct (merge_compute p x (nd_attrs n) h ins w) as [((st1, s1), w1)|] eqn:C; cbn [bind]; [|discriminate].
  intro E. injection E as _ _ -> _. unfold merge_compute in C. destruct (negb _) in C; [injection C as _ <- _; reflexivity|].
  destruct ins as [|a rest]; [injection C as _ <- _; reflexivity|]. destruct (match rest with [] => _ | _ => _ end) as (sb, st2).
  match type of C with (let* _ := ?d in _) = _ => destruct d as [((i1, t1), w2)|]; cbn [bind] in C; [|discriminate] end.
  injection C as _ <- _. reflexivity.
Qed.
End Travel.

(** ** Files *)
Lemma allocate_spec p s img r : allocate p s img = Ok r -> sh_spec r = sh_spec img.
Proof.
  unfold allocate. repeat (match goal with |- (let* _ := ?d in _) = _ -> _ => destruct d; cbn [bind]; [|discriminate] end).
  intro E. injection E as <-. reflexivity.
Qed.

Lemma read_about p f img r : oiio_read_image p (Some f) img = Done (true, r) -> sh_spec r = read_spec (fi_spec f).
Proof.
  unfold oiio_read_image, oiio_read_with. destruct (_ <? 3); [discriminate|].
  match goal with |- match ?d with Ok _ => _ | Panic => _ end = _ -> _ => destruct d as [(n, i)|]; [|discriminate] end.
  match goal with |- match ?d with Some _ => _ | None => _ end = _ -> _ => destruct d as [d0|]; [|discriminate] end.
  intro E. injection E as <-. reflexivity.
Qed.

Lemma shifted p f img r k : oiio_read_image p (Some f) img = Done (true, r) -> o_orientation (fi_spec f) = Some k -> 1 <= k <= 8 ->
  ~ oriented (sh_spec r) k.
Proof.
  intros R O K (o & A & B). rewrite (read_about _ _ _ _ R) in A. unfold read_spec in A. cbn [sp_orientation] in A. rewrite O in A. cbn [default] in A.
  assert (C : k = 1 \/ k = 2 \/ k = 3 \/ k = 4 \/ k = 5 \/ k = 6 \/ k = 7 \/ k = 8) by lia.
  destruct C as [-> | [-> | [-> | [-> | [-> | [-> | [-> | ->]]]]]]]; destruct o; vm_compute in A; try discriminate A; discriminate B.
Qed.

Lemma next_one p f img r k : oiio_read_image p (Some f) img = Done (true, r) -> o_orientation (fi_spec f) = Some k -> 1 <= k <= 7 ->
  oriented (sh_spec r) (k + 1).
Proof.
  intros R O K. unfold oriented. rewrite (read_about _ _ _ _ R). unfold read_spec. cbn [sp_orientation]. rewrite O. cbn [default].
  assert (C : k = 1 \/ k = 2 \/ k = 3 \/ k = 4 \/ k = 5 \/ k = 6 \/ k = 7) by lia.
  destruct C as [-> | [-> | [-> | [-> | [-> | [-> | ->]]]]]];
    [exists OrFlippedH|exists OrRot180|exists OrFlippedV|exists OrTransposed|exists OrRot90CW|exists OrTransverse|exists OrRot90CCW]; split; reflexivity.
Qed.

Lemma row_about {D} p (x : externals D) s s' : in_a_row p x s s' -> about (st_spec s') = about (st_spec s).
Proof.
  induction 1 as [s|s s1 s2 n fr mode rest out w h n' st w' _ IH H P C]; [reflexivity|].
  rewrite (travels p x n fr mode s1 rest out w h n' st s2 w' H P C). exact IH.
Qed.

Lemma written_about {D} p (x : externals D) n fr s path img co : written p x n fr s path img co ->
  o_orientation (fi_spec (file_of img)) = Some 0 /\ o_gamma (fi_spec (file_of img)) = Some f1 /\ o_aspect (fi_spec (file_of img)) = Some f1 /\
  o_unassociated (fi_spec (file_of img)) = Some 0 /\ o_dither (fi_spec (file_of img)) = Some 0 /\
  o_color_space (fi_spec (file_of img)) = Some linear_name /\ stored_as 0 = None.
Proof.
  intro W. apply written_spec_new in W. unfold file_of.
  cbn [fi_spec o_orientation o_gamma o_aspect o_unassociated o_dither o_color_space]. rewrite W. repeat split.
Qed.

Lemma read_metadata p f r : oiio_read_image p (Some f) empty_image = Done (true, r) ->
  let s := fi_spec f in let m := sh_spec r in
  sp_color_space m = match o_color_space s with Some v => v | None => [] end /\
  sp_gamma m = match o_gamma s with Some v => v | None => f1 end /\
  sp_pixel_aspect m = match o_aspect s with Some v => v | None => f1 end /\
  sp_orientation m = match o_orientation s with Some v => v mod 256 | None => 0 end /\
  sp_unassociated_alpha m = match o_unassociated s with Some v => negb (v =? 0) | None => false end /\
  sp_dither m = match o_dither s with Some v => v | None => 0 end.
Proof.
  intros R s m. subst m. rewrite (read_about _ _ _ _ R). unfold read_spec.
  cbn [sp_color_space sp_gamma sp_pixel_aspect sp_orientation sp_unassociated_alpha sp_dither]. fold s.
  destruct (o_color_space s), (o_gamma s), (o_aspect s), (o_orientation s), (o_unassociated s), (o_dither s); repeat split.
Qed.

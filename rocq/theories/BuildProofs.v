(** C98: what a debug build computes, a release build computes too. *)
From Coq Require String.
Import String.StringSyntax.
From Coq Require Import Floats.SpecFloat.
From Verif Require Import Machine Loops FloatModel BBoxModel PixelModel MergeModel EnumModel CacheModel CacheProofs AttrModel HashModel StreamModel
  GradeModel DeformModel BakeModel GraphModel GraphSpec NodeModel GeomModel ObjModel CrateModel LutModel LutHistory FileModel BuildSpec.

(* ------------------------------ machine ------------------------------ *)
Lemma refines_i32 z : refines (i32_of Debug z) (i32_of Release z).
Proof. intros x H. unfold i32_of in *. destruct (in_i32 z); [exact H|discriminate]. Qed.
Lemma refines_u32 z : refines (u32_of Debug z) (u32_of Release z).
Proof. intros x H. unfold u32_of in *. destruct (in_u32 z); [exact H|discriminate]. Qed.
Lemma refines_mul64 a b : refines (mul_u64 Debug a b) (mul_u64 Release a b).
Proof. apply refines_u64. Qed.
Lemma refines_add64 a b : refines (add_u64 Debug a b) (add_u64 Release a b).
Proof. apply refines_u64. Qed.
Lemma refines_for {S} n lo (f g : Z -> S -> Res S) : (forall i s, refines (f i s) (g i s)) ->
  forall s, refines (for_loop n lo f s) (for_loop n lo g s).
Proof.
  intros H. revert lo. induction n as [|n IH]; intros lo s; cbn [for_loop]; [apply refines_refl|].
  apply refines_bind; [apply H|]. intros s'. apply IH.
Qed.
Lemma refines_range {S} lo hi (f g : Z -> S -> Res S) s : (forall i s, refines (f i s) (g i s)) ->
  refines (for_range lo hi f s) (for_range lo hi g s).
Proof. intros H. now apply refines_for. Qed.

Create HintDb builds discriminated.
#[global] Hint Constants Opaque : builds.
#[global] Hint Resolve refines_i32 refines_u32 refines_mul64 refines_add64 refines_u64 : builds.

(** Follows the two programs side by side. *)
Ltac along :=
  repeat first
    [ match goal with |- refines ?a ?a => exact (refines_refl a) end
    | solve [auto with builds nocore]
    | match goal with |- refines (bind _ _) (bind _ _) => apply refines_bind; [|intros ?] end
    | match goal with |- refines (for_range _ _ _ _) (for_range _ _ _ _) => apply refines_range; intros ? ? end
    | match goal with
      | |- refines (if ?b then _ else _) (if ?b then _ else _) => destruct b
      | |- refines (match ?v with _ => _ end) (match ?v with _ => _ end) => destruct v
      end
    | progress cbv beta zeta ].

(* ------------------------------ pixels ------------------------------ *)
Lemma b_bs_size b : refines (bs_size Debug b) (bs_size Release b).
Proof. unfold bs_size. along. Qed.
Lemma b_pixel_index w h xs ys x y : refines (get_pixel_index Debug w h xs ys x y) (get_pixel_index Release w h xs ys x y).
Proof. unfold get_pixel_index. along. Qed.
#[global] Hint Resolve b_bs_size b_pixel_index : builds.
Lemma b_get_index b x y : refines (bs_get_index Debug b x y) (bs_get_index Release b x y).
Proof. unfold bs_get_index. along. Qed.
Lemma b_get_xy b i : refines (bs_get_xy Debug b i) (bs_get_xy Release b i).
Proof. unfold bs_get_xy. along. Qed.
Lemma b_pb_new b t : refines (pb_new Debug b t) (pb_new Release b t).
Proof. unfold pb_new. along. Qed.
Lemma b_pb_from b d : refines (pb_from_datablock Debug b d) (pb_from_datablock Release b d).
Proof. unfold pb_from_datablock. along. Qed.
Lemma b_pb_resize pb b t : refines (pb_resize Debug pb b t) (pb_resize Release pb b t).
Proof. unfold pb_resize. along. Qed.
Lemma b_size_bytes d : refines (db_size_bytes Debug d) (db_size_bytes Release d).
Proof. unfold db_size_bytes. along. Qed.
Lemma b_width b : refines (width_i32 Debug b) (width_i32 Release b).
Proof. unfold width_i32. along. Qed.
Lemma b_height b : refines (height_i32 Debug b) (height_i32 Release b).
Proof. unfold height_i32. along. Qed.
#[global] Hint Resolve b_get_index b_pb_new b_pb_from b_pb_resize b_width b_height : builds.
Lemma b_area b : refines (area_u32 Debug b) (area_u32 Release b).
Proof. unfold area_u32. along. Qed.
Lemma b_crop_rows {A} (src : list A) nc dw cw diff dst :
  refines (crop_rows Debug src nc dw cw diff dst) (crop_rows Release src nc dw cw diff dst).
Proof. unfold crop_rows, crop_row. along. Qed.
#[global] Hint Resolve b_area b_crop_rows : builds.
Lemma b_from_block pb dw cw : refines (from_pixel_block Debug pb dw cw) (from_pixel_block Release pb dw cw).
Proof. unfold from_pixel_block. along. Qed.
#[global] Hint Resolve b_from_block : builds.
Lemma b_crop im cw r b i : refines (crop_image_in_place Debug im cw r b i) (crop_image_in_place Release im cw r b i).
Proof. unfold crop_image_in_place. along. Qed.
Lemma b_clamp x n : refines (clamp_coord Debug x n) (clamp_coord Release x n).
Proof. unfold clamp_coord. along. Qed.
#[global] Hint Resolve b_crop b_clamp : builds.
Lemma b_rgba px w h xs ys x y : refines (sample_rgba Debug px w h xs ys x y) (sample_rgba Release px w h xs ys x y).
Proof. unfold sample_rgba. along. Qed.
Lemma b_rgb px w h xs ys x y : refines (sample_rgb Debug px w h xs ys x y) (sample_rgb Release px w h xs ys x y).
Proof. unfold sample_rgb. along. Qed.
Lemma b_get_pixel im x y : refines (get_pixel_rgba Debug im x y) (get_pixel_rgba Release im x y).
Proof. unfold get_pixel_rgba. along. Qed.
#[global] Hint Resolve b_rgba b_rgb b_get_pixel : builds.
Lemma b_merge_step mode a b mix stride row col st :
  refines (merge_step Debug mode a b mix stride row col st) (merge_step Release mode a b mix stride row col st).
Proof. unfold merge_step. along. Qed.
#[global] Hint Resolve b_merge_step : builds.
Lemma b_merge mode a b mix out : refines (merge Debug mode a b mix out) (merge Release mode a b mix out).
Proof. unfold merge. along. Qed.
Lemma b_remap_n n : forall d s mx my px w h nc ys coords, (length coords <= n)%nat ->
  refines (remap_pixels Debug d s mx my px w h nc ys coords) (remap_pixels Release d s mx my px w h nc ys coords).
Proof.
  induction n as [|n IH]; intros d s mx my px w h nc ys coords L.
  - destruct coords; [apply refines_refl|cbn [length] in L; lia].
  - destruct coords as [|x [|y t]]; cbn [remap_pixels]; try apply refines_refl. cbv zeta.
    apply refines_bind; [along|]. intros v. apply refines_bind; [apply IH; cbn [length] in L; lia|]. intros. apply refines_refl.
Qed.
Lemma b_remap d s mx my px w h nc ys coords :
  refines (remap_pixels Debug d s mx my px w h nc ys coords) (remap_pixels Release d s mx my px w h nc ys coords).
Proof. now apply (b_remap_n (length coords)). Qed.
#[global] Hint Resolve b_merge b_remap : builds.
Lemma b_deform nx ds d blk win : refines (deform_pixels nx Debug ds d blk win) (deform_pixels nx Release ds d blk win).
Proof. unfold deform_pixels. along. Qed.
#[global] Hint Resolve b_deform : builds.
Lemma b_bake nx cv opt blk d w sp s from to ty :
  refines (do_process Debug nx cv opt blk d w sp s from to ty) (do_process Release nx cv opt blk d w sp s from to ty).
Proof. unfold do_process. along. Qed.
#[global] Hint Resolve b_bake : builds.

(* ------------------------------ keys ------------------------------ *)
Lemma h_float b : hash_f32 Debug b = hash_f32 Release b.
Proof.
  unfold hash_f32, integer_decode_f32, i16_of, in_i16.
  assert (H : 0 <= Z.land (Z.shiftr b 23) 255 <= 255).
  { rewrite (Z.land_ones _ 8) by lia. pose proof (Z.mod_pos_bound (Z.shiftr b 23) (2 ^ 8) eq_refl). lia. }
  set (e := Z.land (Z.shiftr b 23) 255) in *. clearbody e.
  replace (- 2 ^ 15 <=? e - (127 + 23)) with true by (symmetry; apply Z.leb_le; lia).
  replace (e - (127 + 23) <? 2 ^ 15) with true by (symmetry; apply Z.ltb_lt; lia).
  reflexivity.
Qed.
Lemma h_floats l : hash_f32s Debug l = hash_f32s Release l.
Proof. induction l as [|b l IH]; cbn [hash_f32s]; [reflexivity|]. now rewrite h_float, IH. Qed.
Lemma h_key ex dg t b fr ins : cache_hash Debug ex dg t b fr ins = cache_hash Release ex dg t b fr ins.
Proof.
  unfold cache_hash, cache_hash_bytes. f_equal. f_equal.
  destruct t; cbn [attr_hash]; try reflexivity; unfold grade_hash, lens_hash, transform_hash, merge_hash; now rewrite ?h_floats.
Qed.

(* ------------------------------ nodes ------------------------------ *)
Section Nodes.
Context {D : Type}.
Variable x : externals D.
Lemma b_insert c k v : refines (insert image_bytes Debug c k v) (insert image_bytes Release c k v).
Proof.
  intros c' H. pose proof (refines_step image_bytes c (Insert k v) (c', OUnit)) as R. cbn [step] in R.
  rewrite H in R. specialize (R eq_refl). destruct (insert image_bytes Release c k v); cbn [bind] in R; [now injection R as ->|discriminate].
Qed.
Hint Resolve b_insert : builds.
Lemma b_cached {E} u h (w : world D) (hit : E) m m' : refines m m' ->
  refines (cached Debug u h w hit m) (cached Release u h w hit m').
Proof. intros H. unfold cached. along. Qed.
Lemma b_crop_process s w r b i : refines (crop_process Debug x s w r b i) (crop_process Release x s w r b i).
Proof. unfold crop_process. along. Qed.
Lemma b_merge_process a b mode mix : refines (merge_process Debug x a b mode mix) (merge_process Release x a b mode mix).
Proof. unfold merge_process. along. Qed.
Lemma b_write_process b fr s d : refines (write_process Debug x b fr s d) (write_process Release x b fr s d).
Proof. unfold write_process, write_image. along. Qed.
Lemma b_viewer_process s o t c to : refines (viewer_process Debug x s o t c to) (viewer_process Release x s o t c to).
Proof. unfold viewer_process. along. Qed.
Hint Resolve b_crop_process b_merge_process b_write_process b_viewer_process : builds.
Ltac through := repeat first [match goal with |- refines (cached _ _ _ _ _ _) (cached _ _ _ _ _ _) => apply b_cached end | progress along].
Lemma b_compute t b fr h mode ins out w :
  refines (compute_op Debug x t b fr h mode ins out w) (compute_op Release x t b fr h mode ins out w).
Proof.
  destruct t; cbn [compute_op]; try apply refines_refl.
  - unfold read_compute. through.
  - unfold write_compute. through.
  - unfold merge_compute. through.
  - unfold crop_compute. through.
  - unfold viewer_compute. through.
  - unfold resample_compute. destruct ins as [|s rest]; [apply refines_refl|]. along.
    destruct (negb (Nat.eqb (length rest) 0)); [intros r H; discriminate H|]. through.
Qed.
Lemma b_node n fr mode ins out w : refines (node_compute Debug x n fr mode ins out w) (node_compute Release x n fr mode ins out w).
Proof.
  unfold node_compute. rewrite h_key. apply refines_bind; [apply refines_refl|]. intros h.
  apply refines_bind; [apply b_compute|]. intros ((st, o), w'). apply refines_refl.
Qed.
Lemma h_node n fr hs : node_hash Debug x n fr hs = node_hash Release x n fr hs.
Proof. unfold node_hash. now rewrite h_key. Qed.
End Nodes.

(* ------------------------------ graphs ------------------------------ *)
Section Graphs.
Context {N St Ca F W : Type}.
Variables a b : nodeops N St Ca F W.
Variable srt : edge_sort.
Hypothesis same_hash : forall n fr hs, n_hash a n fr hs = n_hash b n fr hs.
Hypothesis same_validate : forall n mode h ns, n_validate a n mode h ns = n_validate b n mode h ns.
Hypothesis same_compute : forall n fr mode ins out c, refines (n_compute a n fr mode ins out c) (n_compute b n fr mode ins out c).

Lemma b_hash_phase g fr order : forall hc, hash_phase a srt g fr order hc = hash_phase b srt g fr order hc.
Proof.
  induction order as [|i t IH]; intros hc; cbn [hash_phase]; [reflexivity|].
  destruct (get_node g i) as [n|]; cbn [bind]; [|reflexivity].
  destruct (input_hashes srt g i hc) as [hs|]; cbn [bind]; [|reflexivity]. now rewrite same_hash, IH.
Qed.
Lemma b_validate g hc : forall fuel stack v, validate_loop a srt fuel g hc stack v = validate_loop b srt fuel g hc stack v.
Proof.
  induction fuel as [|fuel IH]; intros stack v; cbn [validate_loop]; [reflexivity|].
  destruct stack as [|(i, mode) rest]; [reflexivity|].
  destruct (direct_upstream srt (g_graph g) i) as [ms|]; cbn [bind]; [|reflexivity].
  destruct (get_nodes g ms) as [ins|]; cbn [bind]; [|reflexivity].
  destruct (get_node g i) as [n|]; cbn [bind]; [|reflexivity].
  destruct (lookup i hc) as [h|]; [|reflexivity]. rewrite same_validate.
  destruct (n_validate b n mode h ins) as [modes|]; cbn [bind]; [apply IH|reflexivity].
Qed.
Lemma b_phase fr todo : forall g c sc, refines (compute_phase a srt g fr todo c sc) (compute_phase b srt g fr todo c sc).
Proof.
  induction todo as [|(i, mode) t IH]; intros g c sc; cbn [compute_phase]; [apply refines_refl|].
  apply refines_bind; [apply refines_refl|]. intros ins. apply refines_bind.
  - unfold compute_node_output. apply refines_bind; [apply refines_refl|]. intros n.
    apply refines_bind; [apply same_compute|]. intros y. apply refines_refl.
  - intros (((g', c'), sc'), [e|]); [apply refines_refl|apply IH].
Qed.
(** The outcome of a bounded loop. *)
Definition refines_opt {A} (u v : option (Res A)) : Prop := forall r, u = Some (Ok r) -> v = Some (Ok r).
Lemma b_frame fuel g order fr c : refines_opt (execute_frame a srt fuel g order fr c) (execute_frame b srt fuel g order fr c).
Proof.
  intros r. unfold execute_frame. rewrite b_hash_phase. destruct (hash_phase b srt g fr (rev order) []) as [hc|]; [|discriminate].
  destruct order as [|start o]; [discriminate|]. rewrite b_validate.
  destruct (validate_loop b srt fuel g hc [(start, mode_all)] [(start, mode_all)]) as [[v|]|]; try discriminate.
  intros H. injection H as H. f_equal. exact (b_phase _ _ _ _ _ _ H).
Qed.
Lemma b_frames fuel order frames : forall g c,
  refines_opt (execute_frames a srt fuel g order frames c) (execute_frames b srt fuel g order frames c).
Proof.
  induction frames as [|fr t IH]; intros g c r; cbn [execute_frames]; [auto|].
  destruct (execute_frame a srt fuel g order fr c) as [[((g', c'), e)|]|] eqn:E; try discriminate.
  rewrite (b_frame _ _ _ _ _ _ E). destruct e as [e|]; [auto|apply IH].
Qed.
Lemma b_execute fuel g id frames c : refines_opt (execute a srt fuel g id frames c) (execute b srt fuel g id frames c).
Proof.
  intros r. unfold execute. destruct (find_index g id) as [start|]; [|auto].
  destruct (all_upstream srt (g_graph g) start) as [nds|]; [|auto].
  destruct (execute_frames a srt fuel g (map fst nds) frames c) as [[((g', c'), e)|]|] eqn:E; try discriminate.
  rewrite (b_frames _ _ _ _ _ _ E). auto.
Qed.
Hypothesis same_id : forall n, n_id a n = n_id b n.
Hypothesis same_write : forall n w, n_write a n w = n_write b n w.
Lemma b_calls g c call g' c' : calls a srt g c call g' c' -> calls b srt g c call g' c'.
Proof.
  destruct call; cbn [calls]; auto.
  - unfold add_node. rewrite same_id. auto.
  - unfold write_node. destruct (find_index g id); [|auto]. destruct (nth_error (g_nodes g) n); [|auto]. now rewrite same_write.
  - intros (fuel & st & E). exists fuel, st. exact (b_execute _ _ _ _ _ _ E).
Qed.
Lemma b_history s0 c0 h g c : GraphSpec.history a srt s0 c0 h g c -> GraphSpec.history b srt s0 c0 h g c.
Proof. induction 1; [constructor|]. econstructor; [eassumption|]. now apply b_calls. Qed.
End Graphs.

Section Whole.
Context {D : Type}.
Variable x : externals D.
Variable srt : edge_sort.
Lemma build_execute fuel g id frames w : refines_opt (execute (node_ops Debug x) srt fuel g id frames w) (execute (node_ops Release x) srt fuel g id frames w).
Proof. apply b_execute; [apply h_node|reflexivity|apply b_node]. Qed.
Lemma build_calls g c call g' c' : calls (node_ops Debug x) srt g c call g' c' -> calls (node_ops Release x) srt g c call g' c'.
Proof. apply b_calls; [apply h_node|reflexivity|apply b_node|reflexivity|reflexivity]. Qed.

(* ------------------------------ lookup tables ------------------------------ *)
Lemma b_lut_size n nc : refines (lut_size Debug n nc) (lut_size Release n nc).
Proof. unfold lut_size. along. Qed.
Lemma b_identity img n nc : refines (identity_lut Debug img n nc) (identity_lut Release img n nc).
Proof. unfold identity_lut. along. Qed.
Hint Resolve b_lut_size b_identity : builds.
Lemma b_identity_block n nc : refines (identity_block Debug n nc) (identity_block Release n nc).
Proof. unfold identity_block. along. Qed.
Hint Resolve b_identity_block : builds.
Lemma b_wanted r : refines (wanted Debug x r) (wanted Release x r).
Proof. destruct r; cbn [wanted]; unfold generate_transform_lut, generate_ops_lut; along. Qed.
Lemma h_ops ops : ops_bytes Debug x ops = ops_bytes Release x ops.
Proof. induction ops as [|o t IH]; cbn [ops_bytes]; [reflexivity|]. rewrite IH. unfold op_hash, grade_hash. now rewrite !h_floats. Qed.
Lemma b_get_lut k m m' c : refines m m' -> refines (get_lut Debug k m c) (get_lut Release k m' c).
Proof.
  intros H. unfold get_lut. destruct (get c k) as (c1, [img|]); [apply refines_refl|].
  apply refines_bind; [exact H|]. intros img. apply refines_bind; [apply b_insert|]. intros c2. apply refines_refl.
Qed.
Lemma build_table r c : refines (LutHistory.call Debug x r c) (LutHistory.call Release x r c).
Proof.
  destruct r; cbn [call]; unfold get_transform_lut, get_ops_lut.
  - apply b_get_lut. exact (b_wanted (RTransform from to n)).
  - unfold ops_lut_bytes, ops_hash. rewrite h_ops. apply refines_bind; [apply refines_refl|]. intros b. apply b_get_lut.
    exact (b_wanted (ROps s n nc)).
Qed.
Lemma build_life cap d0 es outs G w : life Debug x srt cap d0 es outs G w -> life Release x srt cap d0 es outs G w.
Proof.
  induction 1.
  - constructor.
  - econstructor; [eassumption|apply build_calls; eassumption|assumption|assumption].
  - econstructor; [eassumption|]. now apply build_table.
  - econstructor; [eassumption|]. now apply refines_step.
  - econstructor. eassumption.
Qed.
End Whole.

(* ------------------------------ meshes, files ------------------------------ *)
Lemma b_positions g : refines (buffer_size_positions Debug g) (buffer_size_positions Release g).
Proof. unfold buffer_size_positions, count_vertex_positions. along. Qed.
Lemma b_uvs g : refines (buffer_size_uvs Debug g) (buffer_size_uvs Release g).
Proof. unfold buffer_size_uvs, count_vertex_uvs, count_vertex_positions. along. Qed.
Lemma b_tris g : refines (buffer_size_tris Debug g) (buffer_size_tris Release g).
Proof. unfold buffer_size_tris. along. Qed.
Lemma b_border g : refines (buffer_size_border Debug g) (buffer_size_border Release g).
Proof. unfold buffer_size_border. along. Qed.
Lemma b_wire g : refines (buffer_size_wire Debug g) (buffer_size_wire Release g).
Proof. unfold buffer_size_wire. along. Qed.
Lemma b_square d : refines (square_size Debug d) (square_size Release d).
Proof. unfold square_size. along. Qed.
Lemma b_indexes g r c : refines (get_indexes Debug g r c) (get_indexes Release g r c).
Proof. unfold get_indexes. along. Qed.
#[global] Hint Resolve b_square b_indexes : builds.
Lemma b_fill_positions g l : refines (fill_positions Debug g l) (fill_positions Release g l).
Proof. unfold fill_positions. along. Qed.
Lemma b_fill_uvs g l : refines (fill_uvs Debug g l) (fill_uvs Release g l).
Proof. unfold fill_uvs. along. Qed.
Lemma b_fill_tris g l : refines (fill_tris Debug g l) (fill_tris Release g l).
Proof. unfold fill_tris. along. Qed.
Lemma b_fill_border g l : refines (fill_border Debug g l) (fill_border Release g l).
Proof. unfold fill_border. along. Qed.
Lemma b_fill_wire g l : refines (fill_wire Debug g l) (fill_wire Release g l).
Proof. unfold fill_wire. along. Qed.
Lemma b_export show D (wr : D -> list Z -> list Z -> option D) d ps uvs is_ path :
  refines (export_mesh Debug show wr d ps uvs is_ path) (export_mesh Release show wr d ps uvs is_ path).
Proof. unfold export_mesh, obj_text, obj_faces. along. Qed.
Lemma b_read_crate pow o : refines (read_with_crate Debug pow o) (read_with_crate Release pow o).
Proof. unfold read_with_crate, from_dynamic_image. along. Qed.
Lemma b_allocate s img : refines (allocate Debug s img) (allocate Release s img).
Proof. unfold allocate. along. Qed.
Lemma b_oiio_read copy f img r : oiio_read_with copy Debug f img = Done r -> oiio_read_with copy Release f img = Done r.
Proof.
  unfold oiio_read_with. destruct f as [f|]; [|auto]. destruct (o_channels (fi_spec f) <? 3); [auto|].
  destruct (stride_num_channels (o_channels (fi_spec f)) (oiio_format_to_ocg (o_format (fi_spec f)))) as [n|]; cbn [bind]; [|discriminate].
  destruct (allocate Debug (fi_spec f) img) as [i|] eqn:E; cbn [bind]; [|discriminate]. now rewrite (b_allocate _ _ _ E).
Qed.
Lemma b_resample alg src dst f i r : oiio_image_resample alg Debug src dst f i = Done r -> oiio_image_resample alg Release src dst f i = Done r.
Proof.
  unfold oiio_image_resample. destruct (scaled _ _) as [w|]; [|discriminate]. destruct (scaled _ _) as [h|]; [|discriminate].
  cbv zeta. destruct (allocate Debug _ _) as [d|] eqn:E; [|discriminate]. now rewrite (b_allocate _ _ _ E).
Qed.

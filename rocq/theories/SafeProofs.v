(** Proofs: sensibly set nodes do not panic and keep the world fine. *)
From Coq Require String.
Import String.StringSyntax.
From Coq Require Import Floats.SpecFloat.
From Verif Require Import Machine Loops CacheModel CacheSpec CacheProofs FloatModel BBoxModel BBoxSpec PixelModel PixelSpec PixelProofs PixelProofs2
  MergeModel MergeSpec MergeProofs PathModel PathProofs EnumModel AttrModel HashModel HashSpec HashProofs StreamModel GradeModel
  DeformModel BakeModel BakeProofs RemapSpec RemapProofs FloatFacts GraphModel GraphSpec NodeModel NodeProofs3 SafeSpec GraphSafe.
Local Open Scope string_scope.

(* ------------------------------------------------------------------ *)
(** * Windows *)

Lemma within_wf w B : within w B -> well_formed w.
Proof. intros (A & C & _). split; lia. Qed.

Lemma roomy_facts B w : roomy B -> within w B ->
  coords_small w /\
  (forall nc, nc = 3 \/ nc = 4 -> count_fits (width w) (height w) nc) /\
  0 <= (max_x w - min_x w) * (max_y w - min_y w) <= (max_x B - min_x B) * (max_y B - min_y B).
Proof.
  intros (X0 & Y0 & X4 & Y4 & S) (W1 & W2 & I1 & I2 & I3 & I4).
  unfold coords_small, count_fits. unfold width, height.
  set (w' := max_x w - min_x w) in *. set (h' := max_y w - min_y w) in *.
  set (W := max_x B - min_x B) in *. set (H := max_y B - min_y B) in *.
  assert (0 <= w' <= W) by (unfold w', W; lia). assert (0 <= h' <= H) by (unfold h', H; lia).
  assert (0 <= w' * h' <= W * H) by (clear - H0 H1; nia).
  assert (W <= W * (H + 1)) by (clear - H0 H1; nia).
  repeat split; try lia; try (destruct H4 as [-> | ->]); try lia.
  all: clear - S H2 H3 H0 H1; unfold two31 in *; nia.
Qed.

Lemma within_union B a b u : within a B -> within b B -> least_window a b u -> within u B.
Proof.
  intros (A1 & A2 & A3) (B1 & B2 & B3) (U1 & U2 & U3). specialize (U3 B A3 B3).
  unfold within, window_in in *. lia.
Qed.

Lemma roomy_merge B a b : roomy B -> within a B -> within b B -> merge_fits a b.
Proof.
  intros (X0 & Y0 & X4 & Y4 & S) (A1 & A2 & A3 & A4 & A5 & A6) (B1 & B2 & B3 & B4 & B5 & B6).
  unfold merge_fits.
  set (W := Z.max (max_x a) (max_x b) - Z.min (min_x a) (min_x b)).
  set (H := Z.max (max_y a) (max_y b) - Z.min (min_y a) (min_y b)).
  set (W' := max_x B - min_x B) in *. set (H' := max_y B - min_y B) in *.
  assert (0 <= W <= W') by (unfold W, W'; lia). assert (0 <= H <= H') by (unfold H, H'; lia).
  assert (W * (H + 1) <= W' * (H' + 1)) by (clear - H0 H1; nia).
  unfold two31 in *. repeat split; lia.
Qed.

Lemma fine_ok B i : roomy B -> fine_image B i -> image_ok (plain i).
Proof.
  intros R ((W & P & N & I) & _). destruct (roomy_facts B _ R I) as (C & F & _).
  unfold image_ok. cbn [plain im_block im_data]. split; [exact W|]. split; [exact P|]. split; [exact (within_wf _ _ I)|].
  split; [exact C|apply F; exact N].
Qed.

Lemma fine_crop p B img cw rf it : roomy B -> fine_image B img -> within cw B ->
  exists im', crop_image_in_place p (plain img) cw rf false it = Ok im' /\
    forall sp, fine_image B (with_plain im' sp).
Proof.
  intros R F C. destruct (roomy_facts B _ R C) as (Cs & Cf & _).
  destruct F as ((W & P & N & I) & Dw) eqn:EF. pose proof (fine_ok B img R F) as OKi.
  destruct (crop_image_plain p (plain img) cw rf it OKi (within_wf _ _ C) Cs (Cf _ N)) as (im' & E & (W' & P' & _) & ED & EDi & FB).
  exists im'. split; [exact E|]. intro sp. unfold fine_image, fine_block. cbn [with_plain sh_block sh_data sh_display].
  assert (EN : bs_nc (pb_size (im_block im')) = bs_nc (pb_size (sh_block img))).
  { cbn [plain im_block im_data] in FB.
    destruct (roomy_facts B _ R I) as (Is & If & _).
    destruct (crop_exact p (sh_block img) (sh_data img) cw W P (within_wf _ _ I) (within_wf _ _ C) Is Cs (If _ N) (Cf _ N))
      as (r & Er & _ & _ & Nr & _).
    rewrite Er in FB. injection FB as <-. exact Nr. }
  rewrite EN, ED, EDi. rewrite ED in P'. repeat split; auto; try apply W'; try apply P'; try apply C.
  all: destruct rf; try apply C; apply Dw.
Qed.

(* ------------------------------------------------------------------ *)
(** * Baking *)

Definition grown (a b : pixelblock) : Prop := pb_size a = pb_size b /\ db_len (pb_data a) = db_len (pb_data b).

Lemma grown_fine B a b w : grown a b -> fine_block B b w -> fine_block B a w.
Proof.
  intros (E1 & E2) (W & P & N & I). unfold fine_block, PixelSpec.wf_block, placed in *. rewrite E1, E2. auto.
Qed.
Lemma grown_trans a b c : grown a b -> grown b c -> grown a c.
Proof. unfold grown. intros (-> & ->) (-> & ->). auto. Qed.

Lemma zlen_map {A C} (f : A -> C) l : zlen (map f l) = zlen l.
Proof. unfold zlen. now rewrite map_length. Qed.

Lemma convert_grown b ty : ty <> UnknownType -> exists b', pb_convert b ty = Ok b' /\ grown b' b /\ db_type (pb_data b') = ty.
Proof.
  intro T. unfold pb_convert, db_convert, grown. destruct b as [s d]. cbn [pb_data pb_size].
  destruct d, ty; try congruence; cbn [db_type datatype_eqb to_f32 to_f16 to_u8 to_u16 bind];
    (eexists; split; [reflexivity|]); cbn [pb_size pb_data db_len db_type]; rewrite ?zlen_map; auto.
Qed.

Lemma map3_length f : forall l, length (map3 f l) = length l.
Proof.
  fix IH 1. intros [|a [|b [|c t]]]; try reflexivity. cbn [map3]. destruct (f a b c) as [[r g] b'].
  cbn [length]. now rewrite IH.
Qed.
Lemma map4_length f : forall l, length (map4 f l) = length l.
Proof.
  fix IH 1. intros [|a [|b [|c [|d t]]]]; try reflexivity. cbn [map4]. destruct (f (a, b, c, d)) as [[[r g] b'] a'].
  cbn [length]. now rewrite IH.
Qed.

Lemma per_pixel_ok nc f l : nc = 3 \/ nc = 4 -> exists l', per_pixel nc f l = Ok l' /\ length l' = length l.
Proof.
  intros [-> | ->]; unfold per_pixel; cbn [Z.eqb Pos.eqb]; eexists; (split; [reflexivity|]);
    [apply map3_length|apply map4_length].
Qed.

Lemma apply_ops_ok powf ops nc l : nc = 3 \/ nc = 4 ->
  exists l', apply_color_ops powf ops nc l = Ok l' /\ length l' = length l.
Proof.
  intro N. unfold apply_color_ops. replace (nc <=? 0) with false by (symmetry; apply Z.leb_gt; lia).
  revert l. induction (filter _ ops) as [|o t IH]; intro l; cbn [apply_each]; [eauto|].
  assert (E : exists l', apply_grade powf o nc l = Ok l' /\ length l' = length l).
  { unfold apply_grade. cbv zeta. destruct (negb _); [eauto|]. now apply per_pixel_ok. }
  destruct E as (l1 & -> & L1). cbn [bind]. destruct (IH l1) as (l2 & -> & L2). exists l2. split; [reflexivity|]. congruence.
Qed.

Section Bake.
Variable p : profile.
Variable nx : numerics.
Variable conv : list f32 -> Z -> Z -> Z -> Z -> bool -> list Z -> list Z -> option (list f32).
Hypothesis CV : forall px w h nc a u from to px', conv px w h nc a u from to = Some px' -> length px' = length px.

Lemma colorspace_ok b sp from to : exists b' sp', bake_colorspace conv b sp from to = Ok (b', sp') /\ grown b' b /\
  db_type (pb_data b') = Float32.
Proof.
  unfold bake_colorspace. destruct (convert_grown b Float32 ltac:(discriminate)) as (b1 & -> & G & T). cbn [bind].
  destruct (bytes_eqb from to); [eauto|]. destruct b1 as [s d]. cbn [pb_size pb_data] in *.
  destruct d as [l| | |]; try discriminate T. cbn [slice_f32 bind].
  destruct (conv l _ _ _ _ _ from to) as [px|] eqn:E; [|eauto].
  do 2 eexists. split; [reflexivity|]. split; [|reflexivity]. destruct G as (G1 & G2). split; [exact G1|].
  cbn [pb_data db_len] in *. apply CV in E. unfold zlen in *. congruence.
Qed.

Lemma colorgrade_ok b m ops : (bs_nc (pb_size b) = 3 \/ bs_nc (pb_size b) = 4) -> db_type (pb_data b) = Float32 ->
  exists b', bake_colorgrade nx b m ops = Ok b' /\ grown b' b /\ db_type (pb_data b') = Float32.
Proof.
  intros N T. unfold bake_colorgrade. destruct b as [s d]. cbn [pb_size pb_data] in *.
  destruct d as [l| | |]; try discriminate T. cbn [slice_f32 bind]. unfold apply_color_matrix.
  replace (bs_nc s <=? 0) with false by (symmetry; apply Z.leb_gt; lia).
  destruct (per_pixel_ok (bs_nc s) (mat_vec m) l N) as (l1 & -> & L1). cbn [bind].
  destruct (apply_ops_ok (nx_powf nx) ops (bs_nc s) l1 N) as (l2 & -> & L2). cbn [bind].
  eexists. split; [reflexivity|]. split; [|reflexivity]. split; [reflexivity|]. cbn [pb_data db_len]. unfold zlen. congruence.
Qed.

Definition transforms (ds : list deformer) : Prop := forall d, In d ds -> exists v, d = DTransform v.

Lemma taken_back_total disp ds : transforms ds -> forall q, exists q', taken_back nx disp ds q = Ok q'.
Proof.
  induction ds as [|d ds IH]; intros T q; cbn [taken_back]; [eauto|].
  destruct (T d (or_introl eq_refl)) as (v & ->). cbn [deform_point bind]. apply IH. intros d' H. apply T. now right.
Qed.

(** Transforms move pixels about within the window. *)
Lemma deform_ok B ds disp b data : roomy B -> transforms ds -> fine_block B b data -> db_type (pb_data b) = Float32 ->
  exists b', deform_pixels nx p ds disp b data = Ok (b', data) /\ fine_block B b' data.
Proof.
  intros R T F TY. destruct (enabled ds) as [|d0 es] eqn:EE.
  { exists b. unfold deform_pixels. rewrite EE. auto. }
  assert (NE : enabled ds <> []) by (rewrite EE; discriminate). clear EE.
  pose proof F as (W & (P1 & P2) & N & I). destruct (roomy_facts B _ R I) as (CS & CF & _).
  assert (FP : float_picture b).
  { split; [destruct (pb_data b); try discriminate TY; eauto|]. split; [exact W|]. split; [exact N|].
    rewrite P1, P2. destruct I as (I1 & I2 & _). split; [lia|]. split; [lia|].
    destruct (CF _ N) as (Q & _). unfold width, height in Q. rewrite Z.max_r in Q by (clear - N; lia). exact Q. }
  assert (TE : transforms (enabled ds)) by (intros d H; apply filter_In in H; now apply T).
  assert (NT : forall v, ~ In (DTde4 v) (enabled ds)) by (intros v H; destruct (TE _ H) as (v' & X); discriminate X).
  pose proof (fold_box_plain nx (enabled ds) (bboxf_of data) (bboxf_of disp) NT) as FB.
  assert (WE : BBox (f32_floor_as_i32 (fmin_x (bboxf_of data))) (f32_floor_as_i32 (fmin_y (bboxf_of data)))
                    (f32_ceil_as_i32 (fmax_x (bboxf_of data))) (f32_ceil_as_i32 (fmax_y (bboxf_of data))) = data).
  { destruct R as (R1 & R2 & R3 & R4 & _). destruct I as (I1 & I2 & I3 & I4 & I5 & I6).
    destruct data as [a c d e]. cbn [bboxf_of fmin_x fmin_y fmax_x fmax_y min_x min_y max_x max_y] in *.
    rewrite !floor_of_Z, !ceil_of_Z by (unfold small; lia). reflexivity. }
  destruct (deform_pixels_runs nx p ds disp b data _ NE FP CS FB) as (dst & E); rewrite ?WE.
  { apply I. }
  { apply I. }
  { rewrite <- P1, <- P2. apply FP. }
  { intros x y _ _. apply taken_back_total, TE. }
  rewrite WE in E. exists dst. split; [exact E|].
  destruct (deform_pixels_moved nx p ds disp b data dst data NE FP CS E) as (_ & _ & SZ & WF & _); [destruct I; lia|destruct I as (_ & ? & _); lia|].
  unfold fine_block, placed. rewrite SZ. cbn [bs_w bs_h bs_nc]. split; [exact WF|]. auto.
Qed.

Lemma bake_ok B opt b disp data sp s from to ty : roomy B ->
  opt <> BakeUninitialized -> fine_block B b data -> transforms (st_deformers s) ->
  exists r, do_process p nx conv opt b disp data sp s from to ty = Ok r /\
    fine_block B (bk_block r) data /\ bk_data r = data /\
    (exists m ds ops, bk_stream r = Stream (st_state s) (st_hash s) (st_display s) (st_data s) m (st_spec s) (st_block s) ds ops /\ transforms ds) /\
    (opt = BakeAll -> ty <> UnknownType -> db_type (pb_data (bk_block r)) = ty).
Proof.
  intros R O F DF. unfold do_process. pose proof F as (_ & _ & N & _).
  set (ty' := match ty with UnknownType => db_type (pb_data b) | _ => ty end).
  assert (T' : ty' <> UnknownType) by (subst ty'; destruct ty; try discriminate; destruct (pb_data b); discriminate).
  assert (TT : ty <> UnknownType -> ty' = ty) by (subst ty'; destruct ty; congruence).
  assert (S0 : forall m ops ds, transforms ds -> exists m' ds' ops',
      Stream (st_state s) (st_hash s) (st_display s) (st_data s) m (st_spec s) (st_block s) ds ops =
      Stream (st_state s) (st_hash s) (st_display s) (st_data s) m' (st_spec s) (st_block s) ds' ops' /\ transforms ds') by eauto 6.
  assert (S1 : exists m ds ops, s = Stream (st_state s) (st_hash s) (st_display s) (st_data s) m (st_spec s) (st_block s) ds ops /\ transforms ds)
    by (destruct s; cbn in DF |- *; do 3 eexists; split; [reflexivity|exact DF]).
  destruct opt; try congruence.
  - eexists. split; [reflexivity|]. cbn. split; [exact F|]. split; [reflexivity|]. split; [exact S1|]. discriminate.
  - destruct (colorspace_ok b sp from to) as (b1 & sp1 & -> & G1 & T1). cbn [bind].
    destruct (convert_grown b1 ty' T') as (b2 & -> & G2 & T2). cbn [bind].
    eexists. split; [reflexivity|]. cbn [bk_block bk_data bk_stream].
    split; [exact (grown_fine B _ _ _ (grown_trans _ _ _ G2 G1) F)|]. split; [reflexivity|]. split; [exact S1|]. discriminate.
  - destruct (colorspace_ok b sp from linear_name) as (b1 & sp1 & -> & G1 & T1). cbn [bind].
    unfold bake_stream_colorgrade.
    destruct (colorgrade_ok b1 (st_matrix s) (st_ops s)) as (b2 & -> & G2 & T2); [rewrite (proj1 G1); exact N|exact T1|]. cbn [bind].
    destruct (colorspace_ok b2 sp1 linear_name to) as (b3 & sp3 & -> & G3 & T3). cbn [bind].
    destruct (convert_grown b3 ty' T') as (b4 & -> & G4 & T4). cbn [bind].
    eexists. split; [reflexivity|]. cbn [bk_block bk_data bk_stream].
    split; [exact (grown_fine B _ _ _ (grown_trans _ _ _ G4 (grown_trans _ _ _ G3 (grown_trans _ _ _ G2 G1))) F)|].
    split; [reflexivity|]. split; [apply S0; exact DF|discriminate].
  - destruct (colorspace_ok b sp from linear_name) as (b1 & sp1 & -> & G1 & T1). cbn [bind].
    unfold bake_stream_colorgrade.
    destruct (colorgrade_ok b1 (st_matrix s) (st_ops s)) as (b2 & -> & G2 & T2); [rewrite (proj1 G1); exact N|exact T1|]. cbn [bind].
    destruct (deform_ok B (st_deformers (clear_color_ops (set_color_matrix s identity4))) disp b2 data R DF
                (grown_fine B _ _ _ (grown_trans _ _ _ G2 G1) F) T2) as (b2' & -> & F2). cbn [bind].
    destruct (colorspace_ok b2' sp1 linear_name to) as (b3 & sp3 & -> & G3 & T3). cbn [bind].
    destruct (convert_grown b3 ty' T') as (b4 & -> & G4 & T4). cbn [bind].
    eexists. split; [reflexivity|]. cbn [bk_block bk_data bk_stream].
    split; [exact (grown_fine B _ _ _ (grown_trans _ _ _ G4 G3) F2)|].
    split; [reflexivity|]. split; [apply S0; intros d []|intros _ Q; rewrite T4; auto].
Qed.
End Bake.

(* ------------------------------------------------------------------ *)
(** * The cache *)

Lemma image_size B i : roomy B -> fine_image B i -> 0 <= image_bytes i <= largest B.
Proof.
  intros R ((W & P & N & I) & _). destruct (roomy_facts B _ R I) as (C & F & S).
  unfold image_bytes, db_size_bytes. destruct W as (_ & _ & _ & L). destruct P as (P1 & P2).
  rewrite P1, P2 in L.
  assert (BL : 0 <= db_len (pb_data (sh_block i)) <= (max_x B - min_x B) * (max_y B - min_y B) * 4)
    by (rewrite L; clear - N S; destruct N as [-> | ->]; nia).
  assert (Bd : largest B < two64).
  { destruct R as (X0 & Y0 & X4 & Y4 & S'). unfold largest. clear - S' X0 X4 Y0 Y4.
    unfold two31, two64 in *. nia. }
  assert (M : forall k, 1 <= k <= 4 -> exists n, mul_u64 Release (db_len (pb_data (sh_block i))) k = Ok n /\ 0 <= n <= largest B).
  { intros k K. unfold mul_u64. rewrite u64_of_ok; [eexists; split; [reflexivity|]|]; unfold largest in *; clear - BL K Bd; nia. }
  destruct (type_size_bytes (db_type (pb_data (sh_block i)))) as [k|] eqn:T; cbn [bind].
  - assert (K : 1 <= k <= 4) by (clear - T; destruct (db_type (pb_data (sh_block i))); cbn in T; try discriminate T; injection T as <-; lia).
    destruct (M k K) as (n & -> & ?). assumption.
  - exfalso. destruct (pb_data (sh_block i)); discriminate T.
Qed.

(** In a release build nothing panics and nothing is invented. *)
Lemma evict_while_release goon n : forall c : cache shared, exists c', evict_while image_bytes Release goon n c = Ok c' /\ incl (lru c') (lru c).
Proof.
  induction n as [|n IH]; intro c; cbn [evict_while]; [eexists; split; [reflexivity|apply incl_refl]|].
  destruct (goon (CacheModel.used c)); [|eexists; split; [reflexivity|apply incl_refl]].
  unfold evict. destruct (lru c) as [|[k v] l] eqn:E.
  - cbn [bind fst]. destruct (IH c) as (c' & -> & I). rewrite E in I. eauto.
  - unfold sub_u64, u64_of. assert (X : exists u, (if in_u64 (CacheModel.used c - image_bytes v) then Ok (CacheModel.used c - image_bytes v)
        else Ok (wrap_u64 (CacheModel.used c - image_bytes v))) = Ok u) by (destruct (in_u64 _); eauto).
    destruct X as (u & ->). cbn [bind fst].
    match goal with |- context [evict_while _ _ _ _ ?c1] => destruct (IH c1) as (c' & -> & I) end.
    exists c'. split; [reflexivity|]. intros e He. right. apply I, He.
Qed.

Lemma insert_release (c : cache shared) k v : exists c', insert image_bytes Release c k v = Ok c' /\
  forall e, In e (lru c') -> In e (lru c) \/ e = (k, v).
Proof.
  unfold insert. destruct (capacity c =? 0); [eexists; split; [reflexivity|auto]|].
  assert (U : forall z, exists u, u64_of Release z = Ok u) by (intro z; unfold u64_of; destruct (in_u64 z); eauto).
  unfold add_u64, sub_u64.
  destruct (U (CacheModel.used c + image_bytes v)) as (e & ->). cbn [bind].
  assert (X : exists c1, (if capacity c <=? e then
      (let* require_used := u64_of Release (capacity c - image_bytes v) in
       let* free := u64_of Release (CacheModel.used c - require_used) in evict_bytes image_bytes Release c free) else Ok c) = Ok c1 /\
      incl (lru c1) (lru c)).
  { destruct (capacity c <=? e); [|eexists; split; [reflexivity|apply incl_refl]].
    destruct (U (capacity c - image_bytes v)) as (a & ->). cbn [bind].
    destruct (U (CacheModel.used c - a)) as (fr & ->). cbn [bind]. unfold evict_bytes.
    destruct (len c =? 0); [eexists; split; [reflexivity|apply incl_refl]|].
    destruct (CacheModel.used c =? 0); [eexists; split; [reflexivity|apply incl_refl]|].
    destruct (capacity c =? 0); [apply evict_while_release|].
    assert (Y : exists r, (if CacheModel.used c <? fr then Ok 0 else sub_u64 Release (CacheModel.used c) fr) = Ok r)
      by (destruct (_ <? fr); [eauto|apply U]).
    destruct Y as (r & ->). cbn [bind]. apply evict_while_release. }
  destruct X as (c1 & -> & I). cbn [bind]. destruct (U (CacheModel.used c1 + image_bytes v)) as (u & ->). cbn [bind].
  eexists. split; [reflexivity|]. cbn [lru]. intros q Hq. unfold lhm_insert in Hq. apply in_app_iff in Hq.
  destruct Hq as [Hq|[<-|[]]]; [left|now right]. apply filter_In in Hq. apply I, Hq.
Qed.

Lemma get_fine p B (c : cache shared) k : fine_cache p B c ->
  fine_cache p B (fst (get c k)) /\ (forall i, snd (get c k) = Some i -> fine_image B i) /\
  (snd (get c k) = None -> lru (fst (get c k)) = lru c /\ ~ In k (map fst (lru c))).
Proof.
  intros (A & D). assert (IN : forall e, In e (lru (fst (get c k))) -> In e (lru c)).
  { unfold get, lhm_get_refresh. destruct (lhm_find k (lru c)) as [v|] eqn:F; cbn [fst lru]; [|auto].
    intros e He. apply in_app_iff in He. destruct He as [He|[<-|[]]]; [apply filter_In in He; apply He|now apply (find_In image_bytes)]. }
  split; [|split].
  - split; [intros k' i Hi; apply (A k'), IN, Hi|]. intro Q. destruct (D Q) as (D1 & D2 & D3 & D4 & D5).
    pose proof (get_permutation image_bytes c k D1) as PM.
    assert (EC : capacity (fst (get c k)) = capacity c /\ CacheModel.used (fst (get c k)) = CacheModel.used c)
      by (unfold get, lhm_get_refresh; destruct (lhm_find k (lru c)); auto).
    destruct EC as (-> & ->). split.
    + apply (Permutation.Permutation_NoDup (Permutation.Permutation_sym (Permutation.Permutation_map fst PM)) D1).
    + split; [|split; [exact D3|split; [exact D4|exact D5]]]. rewrite D2. clear - PM. generalize dependent (lru (fst (get c k))). intros l PM.
      induction PM as [| [a b] l1 l2 _ IH| [a b] [a' b'] l1| l1 l2 l3 _ IH1 _ IH2]; cbn [total_bytes]; lia.
  - intros i H. rewrite get_find in H. apply (A k), (find_In image_bytes), H.
  - intro H. rewrite get_find in H. split; [|now apply (find_None image_bytes)].
    unfold get, lhm_get_refresh. rewrite H. reflexivity.
Qed.

Lemma insert_fine p B (c : cache shared) k i : roomy B -> fine_cache p B c -> fine_image B i -> ~ In k (map fst (lru c)) ->
  exists c', insert image_bytes p c k i = Ok c' /\ fine_cache p B c'.
Proof.
  intros R (A & D) F NI. destruct p.
  - destruct (D eq_refl) as (D1 & D2 & D3 & D4 & D5). pose proof (image_size B i R F) as SZ.
    destruct (Z.eq_dec (capacity c) 0) as [Z0|Z0].
    { exists c. split; [unfold insert; rewrite Z0; reflexivity|]. split; [exact A|intros _; auto]. }
    assert (SN : sizes_nonneg image_bytes (lru c))
      by (apply Forall_forall; intros [k' v] Hv; cbn; apply (image_size B v R), (A k'), Hv).
    destruct (insert_spec image_bytes Debug (capacity c) c k i) as (pre & rest & EL & EI & _ & FB & _);
      [unfold Inv; repeat split; auto; lia|lia|lia|exact Z0|lia|].
    exists (after_insert image_bytes c pre rest k i). split; [exact EI|].
    unfold after_insert. rewrite EL in NI, SN, D1. rewrite map_app, in_app_iff in NI.
    apply sizes_app in SN. destruct SN as (SN1 & SN2). rewrite EL, total_app in D2.
    pose proof (total_nonneg _ _ SN1). pose proof (total_nonneg _ _ SN2).
    assert (RM : lhm_remove k rest = rest) by (apply (remove_absent image_bytes); tauto).
    split; cbn [lru CacheModel.used capacity].
    + intros k' i' Hi. unfold lhm_insert in Hi. rewrite RM in Hi. apply in_app_iff in Hi.
      destruct Hi as [Hi|[[= <- <-]|[]]]; [|exact F]. apply (A k'). rewrite EL. apply in_app_iff. now right.
    + intros _. unfold lhm_insert. rewrite RM, map_app, total_app. cbn [map total_bytes].
      rewrite map_app in D1. apply NoDup_suffix in D1. split.
      * apply NoDup_Add with (a := k) (l := map fst rest); [|split; [exact D1|tauto]].
        rewrite <- (app_nil_r (map fst rest)) at 1. apply Add_app.
      * repeat split; try lia. destruct FB as [-> | [?|(-> & ?)]]; cbn [total_bytes] in *; lia.
  - destruct (insert_release c k i) as (c' & E & I). exists c'. split; [exact E|]. split; [|discriminate].
    intros k' i' Hi. destruct (I _ Hi) as [H|[= <- <-]]; [apply (A k'), H|exact F].
Qed.

Section Nodes.
Context {D : Type}.
Variable p : profile.
Variable x : externals D.
Variable B : bbox.
Variable ok_disk : D -> Prop.
Hypothesis R : roomy B.
Hypothesis SX : sane x B ok_disk.
Notation fine_world := (fine_world p B ok_disk).

Ltac named b := repeat match goal with |- context [gi ?t b ?n] => change (gi t b n) with (b_i32 b n) end.

Lemma cached_fine {E} uc h (w : world D) (hit : E) make : fine_world w ->
  (exists img e, make = Ok (img, e) /\ fine_image B img) ->
  exists img e w', cached p uc h w hit make = Ok (img, e, w') /\ fine_image B img /\ fine_world w' /\
    (e = hit \/ exists i', make = Ok (i', e)).
Proof.
  intros (FC & FD) (img & e & EM & FI). unfold cached. destruct uc.
  - destruct (get_fine p B (w_cache w) h FC) as (FC' & HI & MI).
    destruct (get (w_cache w) h) as [c r]. cbn [fst snd] in *. destruct r as [i|].
    + do 3 eexists. split; [reflexivity|]. split; [apply HI; reflexivity|]. split; [split; assumption|now left].
    + rewrite EM. cbn [bind]. destruct (MI eq_refl) as (EL & NI). rewrite <- EL in NI.
      destruct (insert_fine p B c h img R FC' FI NI) as (c' & -> & FC2). cbn [bind].
      do 3 eexists. split; [reflexivity|]. split; [exact FI|]. split; [split; assumption|right; eauto].
  - rewrite EM. cbn [bind]. do 3 eexists. split; [reflexivity|]. split; [exact FI|]. split; [split; assumption|right; eauto].
Qed.

Lemma fine_new : fine_stream B stream_new.
Proof.
  destruct R as (X0 & Y0 & X4 & Y4 & _).
  unfold fine_stream, fine_block, stream_new, color_bars, PixelSpec.wf_block, placed, within, window_in.
  cbn [st_block st_data st_display st_deformers pb_size pb_data bs_w bs_h bs_nc min_x min_y max_x max_y].
  repeat split; try lia; try reflexivity; try (now left); intros d [].
Qed.

Definition src (s : stream) : shared := Shared (st_block s) (st_display s) (st_data s) (st_spec s).
Lemma src_fine s : fine_stream B s -> fine_image B (src s).
Proof. intros (F & W & _). split; assumption. Qed.

Lemma crop_fine b h ins w : careful p B (Node TCrop 0 0 b) (length ins) -> Forall (fine_stream B) ins -> fine_world w ->
  exists st out w', crop_compute p x b h ins w = Ok (st, out, w') /\ fine_stream B out /\ fine_world w'.
Proof.
  intros (_ & C) FI FW. cbn [nd_type nd_attrs] in C. unfold crop_compute. destruct ins as [|s ins]; [eauto 8 using fine_new|].
  inversion FI as [|? ? FS _]; subst. named b.
  destruct (Z.eqb_spec (b_i32 b "enable") 1) as [E|E]; cbn [negb]; [|eauto 8].
  destruct (C E) as (NB & WI). replace (b_i32 b "black_outside" =? 1) with false by (symmetry; now apply Z.eqb_neq).
  match goal with |- context [cached p ?u h w ?hit ?make] => destruct (cached_fine u h w hit make FW) as (img & e & w' & -> & FG & FW' & EE) end.
  - unfold crop_process. destruct FS as (F & W & DF).
    destruct (bake_ok p (x_numerics x) (x_convert x) (sane_convert _ _ _ SX) B BakeAll (st_block s) (st_display s) (st_data s) (st_spec s) s
                (sp_color_space (st_spec s)) linear_name Float32 R) as (r & -> & FB & ED & _); [discriminate|exact F|exact DF|]. cbn [bind].
    destruct (fine_crop p B (Shared (bk_block r) (st_display s) (bk_data r) (bk_spec r))
       (BBox (b_i32 b "window_min_x") (b_i32 b "window_min_y") (b_i32 b "window_max_x") (b_i32 b "window_max_y"))
       (b_i32 b "reformat" =? 1) (b_i32 b "intersect" =? 1) R) as (im & EC & FG);
      [split; [rewrite <- ED in FB; exact FB|exact W]|exact WI|]. unfold plain in EC. cbn [sh_block sh_display sh_data] in EC.
    rewrite EC. cbn [bind]. do 2 eexists. split; [reflexivity|apply FG].
  - cbn [bind]. assert (DE : transforms (st_deformers (fst e))).
    { destruct EE as [-> |(i' & EM)]; [exact (proj2 (proj2 FS))|]. unfold crop_process in EM. destruct FS as (F & W & DF).
      destruct (bake_ok p (x_numerics x) (x_convert x) (sane_convert _ _ _ SX) B BakeAll (st_block s) (st_display s) (st_data s) (st_spec s) s
                (sp_color_space (st_spec s)) linear_name Float32 R) as (r & Er & _ & _ & (m & ds & o & ES & TD) & _); [discriminate|exact F|exact DF|].
      rewrite Er in EM. cbn [bind] in EM. destruct (crop_image_in_place _ _ _ _ _ _); cbn [bind] in EM; [|discriminate EM].
      injection EM as _ <-. cbn [fst]. rewrite ES. exact TD. }
    destruct e as [s' st]. cbn [fst] in DE. do 3 eexists. split; [reflexivity|]. split; [|exact FW'].
    destruct FG as (FG1 & FG2). split; [exact FG1|split; [exact FG2|exact DE]].
Qed.

Lemma merge_fine b h ins w : Forall (fine_stream B) ins -> fine_world w ->
  exists st out w', merge_compute p x b h ins w = Ok (st, out, w') /\ fine_stream B out /\ fine_world w'.
Proof.
  intros FI FW. unfold merge_compute. destruct (negb _); [eauto 8 using fine_new|].
  destruct ins as [|sa ins]; [eauto 8 using fine_new|]. inversion FI as [|? ? FA FI']; subst.
  assert (FB : exists sb st, (match ins with [] => (stream_new, NsWarning) | sb :: _ => (sb, NsValid) end) = (sb, st) /\ fine_stream B sb)
    by (destruct ins as [|sb ins]; [eauto using fine_new|inversion FI'; subst; eauto]).
  destruct FB as (sb & st & -> & FB).
  match goal with |- context [cached p ?u h w ?hit ?make] => destruct (cached_fine u h w hit make FW) as (img & e & w' & -> & FG & FW' & EE) end.
  - unfold merge_process. destruct FA as (FA & WA & DA). destruct FB as (FB & WB & DB).
    destruct (bake_ok p (x_numerics x) (x_convert x) (sane_convert _ _ _ SX) B BakeAll (st_block sa) (st_display sa) (st_data sa) (st_spec sa) sa
                (sp_color_space (st_spec sa)) linear_name Float32 R) as (ra & -> & GA & EA & _ & TA); [discriminate|exact FA|exact DA|]. cbn [bind].
    destruct (bake_ok p (x_numerics x) (x_convert x) (sane_convert _ _ _ SX) B BakeAll (st_block sb) (st_display sb) (st_data sb) (st_spec sb) sb
                (sp_color_space (st_spec sb)) linear_name Float32 R) as (rb & -> & GB & EB & (m & ds & o & ES & _) & TB); [discriminate|exact FB|exact DB|]. cbn [bind].
    rewrite ES. cbn [st_display st_data]. rewrite EA.
    assert (START : fine_image B (with_plain merge_start spec_new)).
    { destruct R as (X0 & Y0 & X4 & Y4 & _).
      unfold fine_image, fine_block, PixelSpec.wf_block, placed, within, window_in, merge_start.
      cbn [with_plain sh_block sh_data sh_display im_block im_display im_data pb_size pb_data bs_w bs_h bs_nc min_x min_y max_x max_y].
      repeat split; try lia; try reflexivity; now right. }
    set (mode := merge_mode_of _). destruct (match mode with MUninitialized => true | _ => false end) eqn:KM.
    + destruct mode; try discriminate KM. cbn [merge bind]. do 2 eexists. split; [reflexivity|exact START].
    + assert (K : known_mode mode) by (subst mode; unfold merge_mode_of in *; destruct (merge_from _); unfold known_mode; auto; discriminate KM).
      destruct (merge_exact p mode (Image (bk_block ra) (st_display sa) (st_data sa)) (Image (bk_block rb) (st_display sb) (st_data sb))
        (f32_of_bits (gf TMerge b "mix")) merge_start K) as (r & -> & MG).
      * destruct GA as (G1 & G2 & G3 & G4). repeat split; auto; try apply G1; try apply G2. apply TA; [reflexivity|discriminate].
      * destruct GB as (G1 & G2 & G3 & G4). repeat split; auto; try apply G1; try apply G2. apply TB; [reflexivity|discriminate].
      * exact (within_wf _ _ (proj2 (proj2 (proj2 FA)))).
      * exact (within_wf _ _ (proj2 (proj2 (proj2 FB)))).
      * apply (roomy_merge B); [exact R|apply FA|apply FB].
      * cbn [bind]. do 2 eexists. split; [reflexivity|]. destruct MG as (LW & ED & (F1 & F2 & F3 & F4) & _).
        unfold fine_image, fine_block. cbn [with_plain sh_block sh_data sh_display]. rewrite ED. cbn [im_display im_data] in *.
        split; [|exact WB]. split; [exact F1|]. split; [exact F2|]. split; [exact F4|].
        apply (within_union B _ _ _ (proj2 (proj2 (proj2 FA))) (proj2 (proj2 (proj2 FB))) LW).
  - cbn [bind]. do 3 eexists. split; [reflexivity|]. split; [|exact FW'].
    destruct FG as (FG1 & FG2). split; [exact FG1|split; [exact FG2|intros d []]].
Qed.

Lemma read_fine b fr h mode out w : fine_stream B out -> fine_world w ->
  exists st out' w', read_compute p x b fr h mode out w = Ok (st, out', w') /\ fine_stream B out' /\ fine_world w'.
Proof.
  intros FO FW. unfold read_compute. destruct (_ =? 0); [eauto 8|]. destruct (gi TRead b "enable" =? 0); [eauto 8 using fine_new|].
  destruct (expand_total (x_expand x) (gs TRead b "file_path") (frame_number fr)) as (path & ->). cbn [bind].
  destruct (x_kind x (w_disk w) path) eqn:K; [eauto 8 using fine_new| |].
  - match goal with |- context [cached p ?u h w ?hit ?make] => destruct (cached_fine u h w hit make FW) as (img & e & w' & -> & FG & FW' & _) end.
    + do 2 eexists. split; [reflexivity|]. apply (sane_read _ _ _ SX); [apply FW|exact K].
    + cbn [bind]. do 3 eexists. split; [reflexivity|]. split; [|exact FW'].
      destruct FG as (FG1 & FG2). split; [exact FG1|split; [exact FG2|intros d []]].
  - destruct (_ =? 1); [eauto 8|]. do 3 eexists. split; [reflexivity|]. split; [|exact FW]. exact fine_new.
Qed.

Lemma resample_fine b h ins w : careful p B (Node TResample 0 0 b) (length ins) -> Forall (fine_stream B) ins -> fine_world w ->
  exists st out w', resample_compute p x b h ins w = Ok (st, out, w') /\ fine_stream B out /\ fine_world w'.
Proof.
  intros (_ & C) FI FW. cbn [nd_type nd_attrs] in C. unfold resample_compute. destruct ins as [|s ins]; [eauto 8 using fine_new|].
  inversion FI as [|? ? FS _]; subst. named b.
  destruct (Z.eqb_spec (b_i32 b "enable") 1) as [E|E]; cbn [negb]; [|eauto 8].
  assert (DB : (match p with Debug => negb (Nat.eqb (length ins) 0) | Release => false end) = false).
  { destruct p; [|reflexivity]. specialize (C E eq_refl). cbn [length] in C. destruct (length ins); [reflexivity|lia]. }
  rewrite DB. destruct (_ =? 0); [eauto 8|]. fold (src s).
  match goal with |- context [cached p ?u h w ?hit ?make] => destruct (cached_fine u h w hit make FW) as (img & e & w' & -> & FG & FW' & _) end.
  - destruct (x_resample x (src s) empty_image _ _) as [ok img] eqn:ER. do 2 eexists. split; [reflexivity|].
    replace img with (snd (ok, img)) by reflexivity. rewrite <- ER. apply (sane_resample _ _ _ SX), src_fine, FS.
  - cbn [bind]. do 3 eexists. split; [reflexivity|]. split; [|exact FW'].
    destruct FG as (FG1 & FG2). split; [exact FG1|split; [exact FG2|apply FS]].
Qed.

Lemma first_fine ins : Forall (fine_stream B) ins -> fine_stream B (fst (first_input ins)).
Proof. intro F. destruct ins; [exact fine_new|]. inversion F; assumption. Qed.

Lemma write_fine b fr ins w : careful p B (Node TWrite 0 0 b) (length ins) -> Forall (fine_stream B) ins -> fine_world w ->
  exists st out w', write_compute p x b fr ins w = Ok (st, out, w') /\ fine_stream B out /\ fine_world w'.
Proof.
  intros (_ & C) FI FW. cbn [nd_type nd_attrs] in C. unfold write_compute. named b.
  destruct (Z.eqb_spec (b_i32 b "enable") 0) as [E|E]; [eauto 8 using fine_new|].
  destruct ins as [|s ins]; [eauto 8 using fine_new|]. inversion FI as [|? ? FS _]; subst.
  destruct (Z.eqb_spec (b_i32 b "execute") 0) as [E'|E']; [eauto 8|]. specialize (C E E').
  unfold write_process. destruct (expand_total (x_expand x) (gs TWrite b "file_path") (frame_number fr)) as (path & ->). cbn [bind].
  pose proof FS as (F & W & DF).
  match goal with |- context [do_process p ?nx ?cv ?opt ?bl ?di ?da ?sp s ?fr ?to ?ty] =>
    destruct (bake_ok p nx cv (sane_convert _ _ _ SX) B opt bl di da sp s fr to ty R) as (r & -> & FB & ED & _); [discriminate|exact F|exact DF|] end.
  cbn [bind]. named b.
  assert (XC : exists cr, (match crop_from (b_i32 b "crop_on_write") with CropDisable => Ok false | CropEnable => Ok true
     | CropAuto => Ok (negb (ends_with path ext_exr)) | CropUninitialized => Panic end) = Ok cr)
    by (destruct (crop_from _); try congruence; eauto).
  destruct XC as (cr & ->). cbn [bind]. unfold write_image.
  set (img := Shared (bk_block r) (st_display s) (bk_data r) (bk_spec r)).
  assert (FG : fine_image B img) by (split; [cbn [img sh_block sh_data]; rewrite ED; exact FB|exact W]).
  assert (XI : exists im, (if cr then crop_image_in_place p (plain img) (sh_display img) true false false else Ok (plain img)) = Ok im /\
     forall sp, fine_image B (with_plain im sp)).
  { destruct cr; [apply (fine_crop p B img (sh_display img) true false R FG (proj2 FG))|].
    eexists. split; [reflexivity|]. intro sp. exact FG. }
  destruct XI as (im & -> & FM). cbn [bind].
  match goal with |- context [x_write x (w_disk w) path ?i ?co] =>
    pose proof (sane_write _ _ _ SX (w_disk w) path i co (proj2 FW) (FM _)) as OW; destruct (x_write x (w_disk w) path i co) as [d ok] end.
  cbn [bind fst] in *. do 3 eexists. split; [reflexivity|]. split; [exact FS|]. split; [apply FW|exact OW].
Qed.

Lemma viewer_fine b h ins out w : careful p B (Node TViewer 0 0 b) (length ins) -> Forall (fine_stream B) ins -> fine_stream B out -> fine_world w ->
  exists st out' w', viewer_compute p x b h ins out w = Ok (st, out', w') /\ fine_stream B out' /\ fine_world w'.
Proof.
  intros (_ & C) FI FO FW. cbn [nd_type nd_attrs] in C. unfold viewer_compute. change (gi TViewer b "enable") with (b_i32 b "enable").
  destruct (Z.eqb_spec (b_i32 b "enable") 1) as [E|E]; cbn [negb]; [|eauto 8].
  pose proof (first_fine ins FI) as FS. destruct (first_input ins) as [s st0]. cbn [fst] in FS.
  specialize (C ltac:(lia)).
  destruct (match bake_from (gi TViewer b "bake_option") with BakeNothing => true | _ => false end) eqn:BN.
  { destruct (bake_from (gi TViewer b "bake_option")); try discriminate BN. eauto 8. }
  assert (VO : viewer_bake b <> BakeUninitialized).
  { unfold viewer_bake. named b. destruct (bake_from (b_i32 b "bake_option")); try congruence; try discriminate;
      destruct (negb _); discriminate. }
  set (opt := viewer_bake b) in *.
  enough (X : exists st out' w',
    (let* (img, s, w) :=
        cached p (negb (gi TViewer b "use_cache" =? 0)) h w s
          (viewer_process p x s opt (datatype_of (data_type_from (gi TViewer b "bake_pixel_data_type")))
             (negb (gi TViewer b "crop_to_format" =? 0)) (gs TViewer b "bake_color_space")) in
      let s := match opt with BakeAll => clear_deformers s | _ => s end in
      Ok (NsValid, set_image_spec (set_pixel_block (set_hash (set_display_window
            (set_data_window s (sh_data img)) (sh_display img)) h) (sh_block img)) (sh_spec img), w)) = Ok (st, out', w') /\
    fine_stream B out' /\ fine_world w') by (destruct (bake_from (gi TViewer b "bake_option")); [discriminate BN|exact X..]).
  pose proof FS as (F & W & DF).
  assert (VP : forall ty cr to, exists r im, viewer_process p x s opt ty cr to = Ok (im, bk_stream r) /\ fine_image B im /\ transforms (st_deformers (bk_stream r))).
  { intros ty cr to. unfold viewer_process.
    destruct (bake_ok p (x_numerics x) (x_convert x) (sane_convert _ _ _ SX) B opt (st_block s) (st_display s) (st_data s) (st_spec s) s
                (sp_color_space (st_spec s)) to ty R VO F DF) as (r & -> & FB & ED & (m & ds & o & ES & TD) & _). cbn [bind]. exists r.
    assert (FG : fine_image B (Shared (bk_block r) (st_display s) (bk_data r) (bk_spec r)))
      by (split; [cbn [sh_block sh_data]; rewrite ED; exact FB|exact W]).
    destruct cr.
    - destruct (fine_crop p B _ (st_display s) true false R FG W) as (im & EC & FM). cbn [plain sh_block sh_display sh_data] in EC. unfold plain in EC.
      cbn [sh_block sh_display sh_data] in EC. rewrite EC. cbn [bind]. eexists. split; [reflexivity|]. split; [apply FM|rewrite ES; exact TD].
    - eexists. split; [reflexivity|]. split; [exact FG|rewrite ES; exact TD]. }
  match goal with |- context [cached p ?u h w ?hit ?make] => destruct (cached_fine u h w hit make FW) as (img & e & w' & -> & FG & FW' & EE) end.
  - destruct (VP (datatype_of (data_type_from (gi TViewer b "bake_pixel_data_type"))) (negb (gi TViewer b "crop_to_format" =? 0)) (gs TViewer b "bake_color_space"))
      as (r & im & -> & FG & _). eauto.
  - cbn [bind]. assert (DE : transforms (st_deformers e)).
    { destruct EE as [-> |(i' & EM)]; [exact DF|].
      destruct (VP (datatype_of (data_type_from (gi TViewer b "bake_pixel_data_type"))) (negb (gi TViewer b "crop_to_format" =? 0)) (gs TViewer b "bake_color_space"))
        as (r & im & Er & _ & DR). rewrite Er in EM. injection EM as _ <-. exact DR. }
    do 3 eexists. split; [reflexivity|]. split; [|exact FW'].
    destruct FG as (FG1 & FG2). split; [exact FG1|split; [exact FG2|]]. destruct opt; [exact DE..|intros d []|exact DE].
Qed.

Lemma compute_fine n fr mode ins out w : careful p B n (length ins) -> Forall (fine_stream B) ins -> fine_stream B out -> fine_world w ->
  forall h, exists st out' w', compute_op p x (nd_type n) (nd_attrs n) fr h mode ins out w = Ok (st, out', w') /\ fine_stream B out' /\ fine_world w'.
Proof.
  intros C FI FO FW h. destruct n as [t id stt b]. cbn [nd_type nd_attrs].
  assert (C' : careful p B (Node t 0 0 b) (length ins)) by exact C.
  pose proof (first_fine ins FI) as FS.
  destruct t; cbn [compute_op].
  - unfold null_compute. destruct ins; [eauto 8 using fine_new|]. inversion FI; subst. eauto 8.
  - now apply read_fine.
  - now apply write_fine.
  - unfold grade_compute. destruct (first_input ins) as [s st]. cbn [fst] in FS. cbv zeta. destruct (negb _); [eauto 8|].
    do 3 eexists. split; [reflexivity|]. split; [exact FS|exact FW].
  - unfold lens_compute. destruct C' as (_ & C'). cbn [nd_type nd_attrs] in C'. change (gi TLens b "enable") with (b_i32 b "enable").
    destruct (first_input ins) as [s st]. cbn [fst] in FS. apply Z.eqb_neq in C'. rewrite C'.
    do 3 eexists. split; [reflexivity|]. split; [exact FS|exact FW].
  - unfold transform_compute. destruct (first_input ins) as [s st]. cbn [fst] in FS. cbv zeta.
    do 3 eexists. split; [reflexivity|]. split; [|exact FW]. destruct FS as (FS1 & FS2 & FS3).
    destruct (_ =? 1); (split; [exact FS1|split; [exact FS2|]]); [|exact FS3].
    intros d Hd. cbn in Hd. apply in_app_iff in Hd. destruct Hd as [Hd|[<-|[]]]; eauto.
  - now apply merge_fine.
  - now apply crop_fine.
  - now apply viewer_fine.
  - now apply resample_fine.
Qed.

Lemma node_behaves : behaves (node_ops p x) (careful p B) (fine_stream B) fine_world.
Proof.
  split.
  - intros n k mode h ins (WB & C) L. cbn [node_ops n_validate]. unfold node_validate, validate_op.
    assert (LF : forall m, length (validate_first m (length ins)) = length ins)
      by (intro m; unfold validate_first, nones; destruct (length ins); cbn [length]; rewrite ?repeat_length; reflexivity).
    destruct (nd_type n); try (eexists; split; [reflexivity|apply LF]).
    + eexists; split; [reflexivity|]. unfold validate_merge, nones. destruct (length ins) as [|[|m]]; cbn [length]; rewrite ?repeat_length; reflexivity.
    + unfold validate_viewer. destruct (length ins) as [|m]; [eexists; split; reflexivity|].
      change (gi TViewer (nd_attrs n) "enable") with (b_i32 (nd_attrs n) "enable").
      set (v := if b_i32 (nd_attrs n) "enable" =? 0 then _ else _).
      assert (V : exists z, v = Ok z).
      { subst v. destruct (Z.eqb_spec (b_i32 (nd_attrs n) "enable") 0) as [E|E]; [eauto|]. specialize (C E).
        unfold viewer_bake. named (nd_attrs n).
        destruct (bake_from (b_i32 (nd_attrs n) "bake_option")); try congruence; try (destruct (negb _)); eauto. }
      destruct V as (z & ->). cbn [bind]. eexists. split; [reflexivity|]. cbn [length]. unfold nones. now rewrite repeat_length.
  - intros n k fr mode ins out c C L FI FO FW. subst k. cbn [node_ops n_compute]. unfold node_compute.
    destruct (key_exists p (x_expand x) (nd_type n) (nd_attrs n) fr (map st_hash ins) (proj1 C)) as (kb & EK).
    unfold cache_hash. rewrite EK. cbn [bind].
    destruct (compute_fine n fr mode ins out c C FI FO FW (x_digest x kb)) as (st & out' & c' & -> & FO' & FW'). cbn [bind].
    do 4 eexists. split; [reflexivity|]. split; [exact C|]. split; assumption.
Qed.
End Nodes.

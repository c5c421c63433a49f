(** The composition a graph describes is determined by it. *)
From Coq Require String.
Import String.StringSyntax.
From Coq Require Import Lia Floats.SpecFloat.
From Verif Require Import Machine Loops FloatModel BBoxModel BBoxSpec PixelModel PixelSpec PixelProofs PixelProofs2 MergeModel MergeSpec EnumModel AttrModel AttrSpec
  PathModel HashModel StreamModel DeformModel BakeModel NodeModel ChainSpec GraphModel GraphSpec ShowSpec ViewSpec ViewProofs PartSpec PartProofs LawProofs SceneSpec SceneProofs.
Local Open Scope string_scope.

Lemma like_sym a b : looks_like a b -> looks_like b a.
Proof. unfold looks_like, ChainSpec.same_picture. intuition congruence. Qed.
Lemma like_trans a b c : looks_like a b -> looks_like b c -> looks_like a c.
Proof. unfold looks_like, ChainSpec.same_picture. intuition congruence. Qed.
Lemma like_first vs vs' : Forall2 looks_like vs vs' -> looks_like (first vs) (first vs').
Proof. intros [|]; [apply like_refl|assumption]. Qed.
Lemma like_second vs vs' : Forall2 looks_like vs vs' -> looks_like (second vs) (second vs').
Proof. intros [|? ? ? ? _ [|]]; [apply like_refl|apply like_refl|assumption]. Qed.

(** Two pictures of the same pixels. *)
Lemma picture_unique r s : float_image r -> float_image s -> im_data r = im_data s -> im_display r = im_display s ->
  bs_nc (pb_size (im_block r)) = bs_nc (pb_size (im_block s)) ->
  (forall x y c, in_box (im_data s) x y -> 0 <= c < bs_nc (pb_size (im_block s)) ->
     pixel_val (im_block r) (im_data s) x y c = pixel_val (im_block s) (im_data s) x y c) -> r = s.
Proof.
  intros (W & P & T & _) (W' & P' & T' & _) ED EP EN V. destruct r as [rb rp rd], s as [sb sp sd]. cbn [im_block im_data im_display] in *. subst.
  f_equal. apply (block_ext rb sb sd); auto; [|congruence|].
  - destruct W as (W1 & W2 & _), P as (P1 & P2). unfold well_formed. lia.
  - intros x y c B C. apply V; [exact B|]. now rewrite <- EN.
Qed.

Section Unique.
Context {D : Type}.
Variable p : profile.
Variable x : externals D.

(** Baking does not look at key or state. *)
Lemma process_like o s s' to ty r : looks_like s s' ->
  do_process p (x_numerics x) (x_convert x) o (st_block s) (st_display s) (st_data s) (st_spec s) s (sp_color_space (st_spec s)) to ty = Ok r ->
  exists r', do_process p (x_numerics x) (x_convert x) o (st_block s') (st_display s') (st_data s') (st_spec s') s' (sp_color_space (st_spec s')) to ty = Ok r' /\
    bk_block r' = bk_block r /\ bk_data r' = bk_data r /\ bk_spec r' = bk_spec r /\
    st_matrix (bk_stream r') = st_matrix (bk_stream r) /\ st_ops (bk_stream r') = st_ops (bk_stream r) /\
    st_deformers (bk_stream r') = st_deformers (bk_stream r).
Proof.
  destruct s as [a1 a2 a3 a4 a5 a6 a7 a8 a9], s' as [b1 b2 b3 b4 b5 b6 b7 b8 b9].
  unfold looks_like, ChainSpec.same_picture. cbn [st_block st_display st_data st_spec st_matrix st_ops st_deformers].
  intros ((-> & -> & -> & -> & ->) & -> & ->) H. unfold do_process in *. set (t := match ty with UnknownType => _ | _ => _ end) in *. clearbody t.
  destruct o; cbn [st_deformers] in *.
  - injection H as <-. eexists. split; [reflexivity|]. cbn. auto 6.
  - destruct (bake_colorspace _ _ _ _ _) as [[k1 k2]|]; [|discriminate H]. cbn [bind] in *.
    destruct (pb_convert _ _) as [k3|]; [|discriminate H]. cbn [bind] in *. injection H as <-. eexists. split; [reflexivity|]. cbn. auto 6.
  - destruct (bake_colorspace _ _ _ _ _) as [[k1 k2]|]; [|discriminate H]. cbn [bind] in *.
    unfold bake_stream_colorgrade in *. cbn [st_matrix st_ops] in *.
    destruct (bake_colorgrade _ _ _ _) as [k4|]; [|discriminate H]. cbn [bind] in *.
    destruct (bake_colorspace _ _ _ _ _) as [[k5 k6]|]; [|discriminate H]. cbn [bind] in *.
    destruct (pb_convert _ _) as [k3|]; [|discriminate H]. cbn [bind] in *. injection H as <-. eexists. split; [reflexivity|]. cbn. auto 6.
  - destruct (bake_colorspace _ _ _ _ _) as [[k1 k2]|]; [|discriminate H]. cbn [bind] in *.
    unfold bake_stream_colorgrade in *. cbn [st_matrix st_ops] in *.
    destruct (bake_colorgrade _ _ _ _) as [k4|]; [|discriminate H]. cbn [bind] in *.
    cbn [st_deformers clear_color_ops set_color_matrix] in *.
    destruct (deform_pixels _ _ _ _ _ _) as [[k7 k8]|]; [|discriminate H]. cbn [bind] in *.
    destruct (bake_colorspace _ _ _ _ _) as [[k5 k6]|]; [|discriminate H]. cbn [bind] in *.
    destruct (pb_convert _ _) as [k3|]; [|discriminate H]. cbn [bind] in *. injection H as <-. eexists. split; [reflexivity|]. cbn. auto 6.
  - discriminate H.
Qed.

Lemma flattened_like s s' A A' : looks_like s s' -> flattened p x s A -> flattened p x s' A' -> A = A'.
Proof.
  intros L (r & E & ->) (r' & E' & ->). destruct (process_like _ _ _ _ _ _ L E) as (r2 & E2 & B2 & D2 & _).
  rewrite E' in E2. injection E2 as <-. destruct L as ((_ & LD & _) & _). congruence.
Qed.

Lemma pending_like a b : ShowSpec.nothing_pending a -> ShowSpec.nothing_pending b -> picture a = picture b -> st_spec a = st_spec b -> looks_like a b.
Proof.
  intros (A1 & A2 & A3) (B1 & B2 & B3) P S. unfold picture in P. injection P as P1 P2 P3.
  unfold looks_like, ChainSpec.same_picture. intuition congruence.
Qed.

Lemma shows_like img a b : shows img a -> shows img b -> looks_like a b.
Proof. unfold shows, looks_like, ChainSpec.same_picture. intuition congruence. Qed.

Lemma contributes_adding n ops defs : contributes n ops defs -> adding (nd_type n).
Proof. unfold adding. intros [| | | | |]; tauto. Qed.

Lemma contributes_once n ops defs ops' defs' : contributes n ops defs -> contributes n ops' defs' -> in_full n ops defs -> in_full n ops' defs' ->
  (nd_type n = TLens -> node_get_i32 n "enable" <> 1) -> ops = ops' /\ defs = defs'.
Proof.
  intros C C' (G & X) (G' & X') NL.
  destruct C as [T|v T EN (f & IF & NF) SS|T OFF|v T EN SS|v T EN SS|T EN];
  destruct C' as [T'|v' T' EN' (f' & IF' & NF') SS'|T' OFF'|v' T' EN' SS'|v' T' EN' SS'|T' EN'];
    try (split; reflexivity); try (exfalso; congruence); try (exfalso; apply NL; assumption);
    try (exfalso; destruct T'; congruence); try (exfalso; destruct T; congruence).
  - rewrite (G T v (or_introl eq_refl)), (G' T v' (or_introl eq_refl)). auto.
  - exfalso. destruct OFF' as [OFF'|OFF']; [congruence|]. apply NF. now apply OFF'.
  - exfalso. destruct OFF as [OFF|OFF]; [congruence|]. apply NF'. now apply OFF.
  - rewrite (X T v (or_introl eq_refl)), (X' T v' (or_introl eq_refl)). auto.
Qed.

Lemma does_unique d fr n vs vs' v v' : Forall2 looks_like vs vs' ->
  (nd_type n = TLens -> node_get_i32 n "enable" <> 1) ->
  (nd_type n = TRead -> node_get_i32 n "enable" <> 0 -> forall path,
     expand_string (x_expand x) (node_get_str n "file_path") (frame_number fr) = Ok path -> x_kind x d path <> OtherEntry) ->
  does p x d fr n vs v -> does p x d fr n vs' v' -> looks_like v v'.
Proof.
  intros LV NL NO H H'. pose proof (like_first _ _ LV) as L1. pose proof (like_second _ _ LV) as L2.
  assert (EM : vs = [] <-> vs' = []) by (destruct LV; split; congruence).
  assert (OFF : forall s, looks_like v s -> looks_like v' s -> looks_like v v').
  { intros s A B. exact (like_trans _ _ _ A (like_sym _ _ B)). }
  assert (THRU : looks_like v (first vs) -> looks_like v' (first vs') -> looks_like v v').
  { intros A B. exact (like_trans _ _ _ A (like_trans _ _ _ L1 (like_sym _ _ B))). }
  destruct H as [T EN SO|T EN LK|ops defs C IFU P O F|T EN LK|T EN LK|m A C T EN NE SE FA FC NP M SP|T EN NE SE NP PI SP|T WHY LK
    |A T EN NE FA NP CU DI SP|T WHY LK|img T EN NE FN ER LK|T WHY LK|T EN TB LK|o ty r T EN TB NB CF Y E LK];
  destruct H' as [T' EN' SO'|T' EN' LK'|ops' defs' C' IFU' P' O' F'|T' EN' LK'|T' EN' LK'|m' A' C' T' EN' NE' SE' FA' FC' NP' M' SP'|T' EN' NE' SE' NP' PI' SP'|T' WHY' LK'
    |A' T' EN' NE' FA' NP' CU' DI' SP'|T' WHY' LK'|img' T' EN' NE' FN' ER' LK'|T' WHY' LK'|T' EN' TB' LK'|o' ty' r' T' EN' TB' NB' CF' Y' E' LK'];
    try (exfalso; congruence); try (apply contributes_adding in C; exfalso; unfold adding in C; intuition congruence);
    try (apply contributes_adding in C'; exfalso; unfold adding in C'; intuition congruence);
    try (exact (OFF _ LK LK')); try (exact (THRU LK LK')).
  - (* read *) destruct SO as (path & PA & SO), SO' as (path' & PA' & SO'). rewrite PA in PA'. injection PA' as <-.
    pose proof (NO T EN path PA) as K. destruct (x_kind x d path); [subst; apply like_refl|exact (shows_like _ _ _ SO SO')|contradiction].
  - (* add *) destruct (contributes_once _ _ _ _ _ C C' IFU IFU' NL) as (<- & <-).
    destruct L1 as (L1 & L3 & L4). unfold looks_like, ChainSpec.same_picture in *. intuition congruence.
  - (* merge *) assert (m = m') as <- by (unfold selects in *; intuition congruence).
    pose proof (flattened_like _ _ _ _ L1 FA FA') as <-. pose proof (flattened_like _ _ _ _ L2 FC FC') as <-.
    apply pending_like; auto; [|congruence]. destruct M as (M1 & M2 & M3 & M4 & M5), M' as (N1 & N2 & N3 & N4 & N5).
    assert (ED : im_data (picture v) = im_data (picture v')).
    { destruct M1 as (Q1 & Q2 & Q3), N1 as (R1 & R2 & R3). pose proof (Q3 _ R1 R2) as (? & ? & ? & ?). pose proof (R3 _ Q1 Q2) as (? & ? & ? & ?).
      destruct (im_data (picture v)), (im_data (picture v')). cbn in *. f_equal; lia. }
    apply picture_unique; auto; [congruence|congruence|]. intros a b c IB IC. rewrite <- ED.
    rewrite M5; [|now rewrite ED|now rewrite M4, <- N4]. rewrite ED. now rewrite N5.
  - exfalso. exact (SE' m SE).
  - exfalso. destruct WHY' as [WHY'|WHY']; [congruence|tauto].
  - exfalso. exact (SE m' SE').
  - apply pending_like; congruence.
  - exfalso. destruct WHY' as [WHY'|WHY']; [congruence|tauto].
  - exfalso. destruct WHY as [WHY|WHY]; [congruence|tauto].
  - exfalso. destruct WHY as [WHY|WHY]; [congruence|tauto].
  - (* crop *) pose proof (flattened_like _ _ _ _ L1 FA FA') as <-. destruct L1 as ((L3 & L4 & L5 & L6 & _) & _).
    apply pending_like; auto; [|congruence]. destruct CU as (U1 & U2 & U3 & U4), CU' as (V1 & V2 & V3 & V4).
    apply picture_unique; auto; [congruence| |congruence|].
    + cbn [picture im_display]. cbn [picture im_data] in U1, V1. rewrite DI, DI', U1, V1, L4. reflexivity.
    + intros a b c IB IC. rewrite V1. rewrite V1 in IB. rewrite V3 in IC. rewrite U4, V4 by assumption. reflexivity.
  - exfalso. destruct WHY' as [WHY'|WHY']; [congruence|tauto].
  - exfalso. destruct WHY as [WHY|WHY]; [congruence|tauto].
  - (* resample *) destruct L1 as ((L3 & L4 & L5 & L6 & L7) & L8 & L9). rewrite <- L3, <- L4, <- L5, <- L6, ER in ER'. injection ER' as <-.
    unfold looks_like, ChainSpec.same_picture, repictured in *. cbn [st_block st_display st_data st_spec st_matrix st_ops st_deformers] in *. intuition congruence.
  - exfalso. destruct WHY' as [WHY'|[WHY'|WHY']]; [congruence|tauto|congruence].
  - exfalso. destruct WHY as [WHY|[WHY|WHY]]; [congruence|tauto|congruence].
  - exfalso. apply told in TB. apply told in TB'. congruence.
  - exfalso. apply told in TB. apply told in TB'. congruence.
  - (* bake *) assert (o = o') as <- by (apply told in TB; apply told in TB'; congruence).
    assert (ty = ty') as <- by (apply typed in Y; apply typed in Y'; congruence).
    destruct (process_like _ _ _ _ _ _ L1 E) as (r2 & E2 & B1 & B2 & B3 & B4 & B5 & B6). rewrite E' in E2. injection E2 as <-.
    destruct L1 as ((_ & L4 & _) & _).
    unfold looks_like, ChainSpec.same_picture, viewed in *. cbn [st_block st_display st_data st_spec st_matrix st_ops st_deformers] in *. intuition congruence.
Qed.

(** One order of the inputs. *)
Lemma order_once g i : (forall a b s, feeds g a i s -> feeds g b i s -> a = b) ->
  forall l l', inputs_in_slot_order g i l -> inputs_in_slot_order g i l' -> l = l'.
Proof.
  intros ONE.
  assert (Q : forall l l', NoDup l -> NoDup l' -> (forall m, In m l <-> In m l') -> (forall m, In m l -> link g m i) ->
    (forall l1 a l2 b l3, l = (l1 ++ a :: l2 ++ b :: l3)%list -> forall sa sb, feeds g a i sa -> feeds g b i sb -> sa <= sb) ->
    (forall l1 a l2 b l3, l' = (l1 ++ a :: l2 ++ b :: l3)%list -> forall sa sb, feeds g a i sa -> feeds g b i sb -> sa <= sb) -> l = l').
  { induction l as [|a t IH]; intros l' ND ND' SAME LN OR OR'.
    - destruct l' as [|b t']; [reflexivity|]. exfalso. apply (SAME b). now left.
    - destruct l' as [|b t']; [exfalso; apply (SAME a); now left|].
      assert (a = b) as <-.
      { destruct (Nat.eq_dec a b) as [|N]; [assumption|]. exfalso. apply N.
        assert (IA : In a t') by (destruct (proj1 (SAME a) (or_introl eq_refl)); [congruence|assumption]).
        assert (IB : In b t) by (destruct (proj2 (SAME b) (or_introl eq_refl)); [congruence|assumption]).
        destruct (LN a (or_introl eq_refl)) as (sa & FA). destruct (LN b (or_intror IB)) as (sb & FB).
        apply in_split in IA. destruct IA as (l2 & l3 & ->). apply in_split in IB. destruct IB as (m2 & m3 & ->).
        pose proof (OR [] a m2 b m3 eq_refl sa sb FA FB). pose proof (OR' [] b l2 a l3 eq_refl sb sa FB FA).
        assert (sa = sb) as <- by lia. exact (ONE a b sa FA FB). }
      f_equal. inversion ND; inversion ND'; subst. apply IH; auto.
      + intro m. specialize (SAME m). cbn in SAME. split; intro IM.
        * destruct (proj1 SAME (or_intror IM)); [subst; contradiction|assumption].
        * destruct (proj2 SAME (or_intror IM)); [subst; contradiction|assumption].
      + intros m IM. apply LN. now right.
      + intros l1 c l2 e l3 ->. apply (OR (a :: l1) c l2 e l3). reflexivity.
      + intros l1 c l2 e l3 ->. apply (OR' (a :: l1) c l2 e l3). reflexivity. }
  intros l l' (A1 & A2 & A3) (B1 & B2 & B3). apply Q; auto; [intro m; now rewrite A2, B2|intros m IM; now apply A2].
Qed.

Fixpoint scene_unique_at d fr (g : graph node stream) (DE : determined x d fr g) i v (H : scene p x d fr g i v) {struct H} :
  forall v', scene p x d fr g i v' -> looks_like v v'.
Proof.
  destruct H as [i n l vs v E IO FV DO]. intros v' H'. destruct H' as [i n' l' vs' v' E' IO' FV' DO'].
  rewrite E in E'. injection E' as <-. pose proof (order_once _ _ (proj1 DE i) _ _ IO IO') as <-.
  destruct (proj2 DE i n E) as (NL & NO). refine (does_unique d fr n vs vs' v v' _ NL NO DO DO').
  clear - FV FV' scene_unique_at DE. revert vs' FV'. induction FV as [|a b l vs S FV IH]; intros vs' FV'; inversion FV'; subst; constructor.
  - exact (scene_unique_at d fr g DE a b S _ H1).
  - now apply IH.
Qed.
Theorem scene_unique d fr (g : graph node stream) i v v' : determined x d fr g ->
  scene p x d fr g i v -> scene p x d fr g i v' -> looks_like v v'.
Proof. intros DE H H'. exact (scene_unique_at d fr g DE i v H v' H'). Qed.
End Unique.

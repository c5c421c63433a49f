(** Graphs and files, number by number. *)
From Coq Require String.
Import String.StringSyntax.
From Coq Require Import Lia Floats.SpecFloat.
From Verif Require Import Machine Loops CacheModel FloatModel BBoxModel BBoxSpec PixelModel PixelSpec PixelProofs PixelProofs2 PathModel PathSpec MergeModel MergeSpec EnumModel AttrModel AttrSpec AttrProofs HashModel HashSpec
  StreamModel DeformModel BakeModel NodeModel NodeSpec NodeProofs ChainSpec ChainProofs GraphModel GraphSpec GraphHistory GraphFacts GraphSim LutSpec LutHistory RunSpec RunProofs RenderProofs SafeSpec SafeProofs SafeFacts
  ShowSpec ViewSpec ViewProofs PartSpec PartProofs SoundSpec SoundProofs1 SoundProofs3 ShowCacheProofs SceneRun SceneSpec SceneProofs SceneProofs2
  WriteSpec SceneWrite EachRun EachSpec EachProofs FinishSpec FinishProofs.
Local Open Scope string_scope.

Section Fine.
Context {D : Type}.
Variable p : profile.
Variable x : externals D.
Variable B : bbox.
Variable ok_disk : D -> Prop.
Hypothesis R : roomy B.
Hypothesis SX : sane x B ok_disk.

Lemma fine_channels s : fine_stream B s ->
  bs_nc (pb_size (st_block s)) = 1 \/ bs_nc (pb_size (st_block s)) = 3 \/ bs_nc (pb_size (st_block s)) = 4.
Proof. intros ((_ & _ & N & _) & _). tauto. Qed.

(** Baking everything, of fine streams. *)
Lemma fine_finished s to ty r : fine_stream B s ->
  do_process p (x_numerics x) (x_convert x) BakeAll (st_block s) (st_display s) (st_data s) (st_spec s) s (sp_color_space (st_spec s)) to ty = Ok r ->
  finished (x_numerics x) (x_convert x) s to (asked_type ty (st_block s)) (bk_block r) (bk_data r) /\ bk_data r = st_data s /\ fine_block B (bk_block r) (bk_data r).
Proof.
  intros F H. pose proof F as (FB & FD & FT). pose proof FB as (W & (P1 & P2) & N & I).
  destruct (bake_ok p (x_numerics x) (x_convert x) (sane_convert _ _ _ SX) B BakeAll (st_block s) (st_display s) (st_data s) (st_spec s) s
     (sp_color_space (st_spec s)) to ty R ltac:(discriminate) FB FT) as (r' & H' & G & ED & _).
  rewrite H in H'. injection H' as <-. split; [|split; [exact ED|rewrite ED; exact G]].
  apply (bake_finished p (x_numerics x) (x_convert x) (sane_convert _ _ _ SX)); [exact W|exact (fine_channels s F)| |exact H].
  intros d _ _. rewrite ED. destruct (roomy_facts B _ R I) as (CS & CF & _). destruct I as (I1 & I2 & _).
  split; [destruct N as [-> | ->]; discriminate|]. split; [exact CS|]. rewrite P1, P2.
  split; [lia|]. split; [lia|]. split; [|split; lia].
  destruct (CF _ N) as (Q & _). unfold width, height in Q. rewrite Z.max_r in Q by (clear - N; lia). exact Q.
Qed.

Lemma fine_flat s im : fine_stream B s -> flattened p x s im -> flat x s im.
Proof.
  intros F (r & H & ->). destruct (fine_finished s linear_name Float32 r F H) as (Q & _). split; [exact Q|reflexivity].
Qed.

Lemma within_formed w : within w B -> well_formed w.
Proof. intros (A & C & _). unfold well_formed. lia. Qed.

(** Files. *)
Theorem written_filed n fr s path img co : fine_stream B s -> written p x n fr s path img co -> filed x fr n s path img co.
Proof.
  intros F [W1 (space & ty & r & C1 & C2 & H & C3) W3]. destruct (fine_finished s space ty r F H) as (Q & ED & FR).
  assert (AT : asked_type ty (st_block s) = ty).
  { unfold ChainSpec.file_type in C2. destruct (data_type_from (node_get_i32 n "pixel_data_type")); subst ty; try reflexivity. destruct (pb_data (st_block s)); reflexivity. }
  rewrite AT in Q. split; [exact W1|]. split; [|exact W3].
  pose proof F as (FB & FD & _). destruct FR as (BW & BP & BN & BI).
  destruct C3 as [(C3 & ->)|(C3 & im & CI & ->)].
  - exists space, ty, (bk_block r), (bk_data r), false. split; [exact C1|]. split; [exact C2|]. split; [exact Q|]. split; [exact C3|].
    split; [reflexivity|]. split; [reflexivity|]. split; [split; reflexivity|discriminate].
  - exists space, ty, (bk_block r), (bk_data r), true. split; [exact C1|]. split; [exact C2|]. split; [exact Q|]. split; [exact C3|].
    destruct (roomy_facts B _ R BI) as (CS & CF & _). destruct (roomy_facts B _ R FD) as (CS' & CF' & _).
    destruct (crop_image_plain p (Image (bk_block r) (st_display s) (bk_data r)) (st_display s) true false) as (im' & CI' & _ & E1 & E2 & E3).
    + split; [exact BW|]. split; [exact BP|]. split; [exact (within_formed _ BI)|]. split; [exact CS|exact (CF _ BN)].
    + exact (within_formed _ FD).
    + exact CS'.
    + exact (CF' _ BN).
    + rewrite CI in CI'. injection CI' as <-. cbn [im_block im_data im_display] in *.
      destruct (crop_exact p _ _ _ BW BP (within_formed _ BI) (within_formed _ FD) CS CS' (CF _ BN) (CF' _ BN)) as (r' & E & W & P & N & T & V).
      rewrite E3 in E. injection E as <-. cbn [with_plain sh_display sh_spec sh_data sh_block].
      split; [exact E2|]. split; [reflexivity|]. split; [discriminate|]. intros _. split; [exact E1|].
      split; [exact W|]. split; [exact P|]. split; [exact N|]. split; [exact T|exact V].
Qed.

Lemma fine_first vs : Forall (fine_stream B) vs -> fine_stream B (first vs).
Proof. intro F. destruct F; [exact (fine_new B R)|assumption]. Qed.
Lemma fine_second vs : Forall (fine_stream B) vs -> fine_stream B (second vs).
Proof. intro F. destruct F as [|? ? ? F]; [exact (fine_new B R)|]. destruct F; [exact (fine_new B R)|assumption]. Qed.

(** Nodes. *)
Theorem does_draws d fr n vs v : Forall (fine_stream B) vs -> viewer_asks n -> does p x d fr n vs v -> draws x p d fr n vs v.
Proof.
  intros F VA H. pose proof (fine_first vs F) as F1. pose proof (fine_second vs F) as F2. pose proof H as H0.
  assert (LP : leaves_pixels n vs -> draws x p d fr n vs v) by (intro L; exact (draws_other x p d fr n vs v L H0)).
  destruct H.
  - apply LP. unfold leaves_pixels. rewrite H. repeat split; discriminate.
  - apply LP. unfold leaves_pixels. rewrite H. repeat split; discriminate.
  - apply LP. unfold leaves_pixels.
    assert (T : nd_type n <> TMerge /\ nd_type n <> TCrop /\ nd_type n <> TViewer) by (destruct H as [T|? T|T|? T|? T|[T|T]]; rewrite T; repeat split; discriminate).
    repeat split; intros; tauto.
  - apply LP. unfold leaves_pixels. rewrite H. repeat split; discriminate.
  - apply LP. unfold leaves_pixels. rewrite H. repeat split; discriminate.
  - eapply draws_merge; eauto using fine_flat.
  - apply LP. unfold leaves_pixels. rewrite H. repeat split; try discriminate. intros. auto.
  - apply LP. unfold leaves_pixels. rewrite H. repeat split; try discriminate. intros _ EN NE. destruct H1; contradiction.
  - eapply draws_crop; eauto using fine_flat.
  - apply LP. unfold leaves_pixels. rewrite H. repeat split; try discriminate. intros _ EN. destruct H1; [contradiction|assumption].
  - apply LP. unfold leaves_pixels. rewrite H. repeat split; discriminate.
  - apply LP. unfold leaves_pixels. rewrite H. repeat split; discriminate.
  - apply LP. unfold leaves_pixels. rewrite H. repeat split; try discriminate. intros _. assumption.
  - destruct (VA H) as (_ & o' & IO & TO). pose proof (proj1 (told _ _) H2) as V1. pose proof (proj1 (told _ _) TO) as V2.
    assert (EO : o' = o) by congruence. rewrite EO in IO. clear V1 V2 EO TO o'. pose proof (left_over _ _ _ _ _ _ _ _ _ _ _ _ _ H6) as (LO & _).
    destruct H7 as ((L1 & L2 & L3 & L4 & L5) & L6 & L7). cbn [viewed st_block st_display st_data st_spec st_matrix st_ops st_deformers] in *.
    pose proof (proj1 (proj1 F1)) as FW. pose proof (fine_channels _ (fine_first vs F)) as NC.
    destruct IO as [<-|[<-|[<-|[]]]]; [contradiction| |].
    + destruct (bake_converted p (x_numerics x) (x_convert x) (sane_convert _ _ _ SX) (first vs) _ ty r NC H6) as (CQ & DQ).
      rewrite LO in *. eapply draws_space; eauto; rewrite ?L1, ?L4; try congruence.
    + destruct (bake_half_finished p (x_numerics x) (x_convert x) (sane_convert _ _ _ SX) (first vs) _ ty r FW NC H6) as (CQ & DQ & SQ).
      rewrite LO in *. eapply draws_colours; eauto; rewrite ?L1, ?L4; try congruence.
Qed.
End Fine.

Section Graph.
Context {D : Type}.
Variable p : profile.
Variable x : externals D.
Variable E : setting D.
Hypothesis CP : clean_paths (x_expand x).
Hypothesis NC : no_collisions (x_digest x) (SoundSpec.used E).
Hypothesis DU : digest_u64 (x_digest x).
Hypothesis NZ : forall l, In l (SoundSpec.used E) -> x_digest x l <> 0.
Hypothesis KS : keeps_sources x E.
Variable B : bbox.
Variable ok_disk : D -> Prop.
Hypothesis R : roomy B.
Hypothesis SX : sane x B ok_disk.
Variable srt : edge_sort.
Hypothesis HS : sorts srt.
Notation ops := (recording (node_ops p x)).

Lemma composed d g : step_by_step p x B d g (fun fr => composition x p d fr g).
Proof.
  intros fr j n l is v EN IO SC F VA DO. exact (comp_node x p d fr g j n l is v EN IO SC (does_draws p x B ok_disk R SX d fr n is v F VA DO)).
Qed.
Lemma composed_files d g : made_by_writers p x B d g (fun fr => composition x p d fr g) (fun fr => of_drawn x p d fr g).
Proof.
  intros fr j nw k s path img co W V F _ WR. exists nw, k, s. split; [exact W|]. split; [exact V|].
  exact (written_filed p x B ok_disk R SX nw fr s path img co F WR).
Qed.

(** What an execution shows. *)
Theorem finish_session G w i fuel id start frames fr g' w' log :
  session p x E srt G w -> ok_disk (w_disk w) -> careful_graph p B (G i) -> fine_stream B (g_output (G i)) ->
  find_index (G i) id = Some start -> all_asked (G i) start ->
  execute ops srt fuel (G i) id (frames ++ [fr])%list (w, []) = Some (Ok (g', (w', log), ExSuccess)) ->
  Forall (tame p x E) log ->
  composition x p (w_disk w) fr (G i) start (g_output g').
Proof.
  apply (step_session p x E CP NC DU NZ KS B ok_disk R SX srt HS (fun fr => composition x p (w_disk w) fr (G i))), composed.
Qed.

(** What it writes. *)
Theorem finish_files G w i fuel id start frames g' w' log :
  session p x E srt G w -> ok_disk (w_disk w) -> careful_graph p B (G i) -> fine_stream B (g_output (G i)) ->
  find_index (G i) id = Some start -> all_asked (G i) start ->
  execute ops srt fuel (G i) id frames (w, []) = Some (Ok (g', (w', log), ExSuccess)) ->
  Forall (tame p x E) log ->
  all_written x (fun fr => of_drawn x p (w_disk w) fr (G i)) (G i) start frames (w_disk w) (w_disk w').
Proof.
  apply (each_step p x E CP NC DU NZ KS B ok_disk R SX srt HS (fun fr => composition x p (w_disk w) fr (G i))); [apply composed|apply composed_files].
Qed.

Theorem finish_file G w i fuel id start frames g' w' log holds :
  session p x E srt G w -> ok_disk (w_disk w) -> careful_graph p B (G i) -> fine_stream B (g_output (G i)) ->
  find_index (G i) id = Some start -> all_asked (G i) start ->
  execute ops srt fuel (G i) id frames (w, []) = Some (Ok (g', (w', log), ExSuccess)) ->
  Forall (tame p x E) log -> keeps_files x holds -> own_places (fun fr => of_drawn x p (w_disk w) fr (G i)) frames ->
  forall fr j nw k, In fr frames -> reaches (g_graph (G i)) j start -> writer (G i) j nw k ->
  exists o, of_drawn x p (w_disk w) fr (G i) j o /\ holds (w_disk w') o.
Proof.
  intros S OD CG FO FI AA H TM KF OP.
  pose proof (finish_files G w i fuel id start frames g' w' log S OD CG FO FI AA H TM) as AL.
  exact (all_files x (fun fr => of_drawn x p (w_disk w) fr (G i)) (G i) start holds KF frames _ _ OP AL).
Qed.
End Graph.

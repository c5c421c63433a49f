(** The same as [DevelopProofs] for pictures with three channels. *)
From Coq Require String.
Import String.StringSyntax.
From Coq Require Import Lia Floats.SpecFloat.
From Verif Require Import Machine Loops CacheModel FloatModel BBoxModel BBoxSpec BBoxProofs PixelModel PixelSpec PathModel MergeModel MergeSpec EnumModel AttrModel AttrSpec HashModel HashSpec StreamModel GradeModel DeformModel BakeModel BakeSpec
  GraphModel GraphSpec GraphSim NodeModel ChainSpec SafeSpec SceneSpec EachSpec ViewSpec SoundSpec TotalSpec FinishSpec FinishProofs WriteSpec ClientModel ClientSpec ClientSpec2 ProgramSpec ProgramProofs2 ProgramProofs3 LutSpec AlikeSpec DevelopSpec DevelopProofs FinishSpec2 FinishProofs2 DevelopSpec2.
Local Open Scope string_scope.

Section Pixels.
Variable V : Type.
Variable nc : Z.
Variable chan : Z -> V -> f32.
Variable step : (rgba -> rgba) -> V -> V.
Hypothesis step_ext : forall f g v, (forall u, f u = g u) -> step f v = step g v.
Hypothesis step_id : forall v, step (fun u => u) v = v.
Definition applied_by (powf : f32 -> f32 -> f32) (ops : list vals) (v : V) : V :=
  fold_left (fun v o => if vi o "enable" =? 1 then step (op_pixel powf o) v else v) ops v.
Hypothesis follows : forall nx convert s ty r win,
  PixelSpec.wf_block (st_block s) -> bs_nc (pb_size (st_block s)) = nc -> placed (st_block s) (st_data s) ->
  sp_color_space (st_spec s) = linear_name -> finished nx convert s linear_name ty r win ->
  forall X Y, in_box win X Y -> pixel_follows nc chan (fun v => applied_by (nx_powf nx) (st_ops s) (step (BakeSpec.through (st_matrix s)) v)) nx s ty r win X Y.

Section Develop.
Context {D : Type}.
Variable x : externals D.
Variable p : profile.
Variable d : D.
Variable fr : spec_float.
Variable i : nat.
Variable h : list (ccall * reply).

Lemma grade_contributes_by n ops defs powf v : nd_type n = TGrade -> contributes n ops defs -> in_full n ops defs ->
  defs = [] /\ applied_by powf ops v = step (fun u => graded powf u n) v.
Proof.
  intros T C F. split; [exact (proj1 (grade_contributes fr n ops defs powf (f32_zero, f32_zero, f32_zero, f32_zero) T C F))|].
  pose proof (fun u => proj2 (grade_contributes fr n ops defs powf u T C F)) as G.
  rewrite (step_ext (fun u => graded powf u n) (fun u => applied powf ops u) v) by (intro u; now rewrite G).
  destruct C as [T'|o _ EN PR SS|_ OFF|o T' _ _|o T' _ _|[T'|T'] _]; try congruence; unfold applied, applied_by; cbn [fold_left].
  - destruct (vi o "enable" =? 1); [reflexivity|now rewrite step_id].
  - now rewrite step_id.
Qed.

Lemma drawn_grades_by rd id l s : grades_after i h rd id l -> drawn x p d fr i h id s ->
  exists s0 ops, drawn x p d fr i h rd s0 /\ same_picture s s0 /\ st_ops s = (st_ops s0 ++ ops)%list /\ st_deformers s = st_deformers s0 /\
    forall powf v, applied_by powf ops v = fold_left (fun v n => step (fun u => graded powf u n) v) l v.
Proof.
  intro G. revert s. induction G as [|a b n l G IH DN T F]; intros s DR.
  - exists s, []. rewrite app_nil_r. repeat split; auto.
  - destruct DR as [id n' l' vs v DN' F' VS DW]. rewrite DN in DN'. injection DN' as <-.
    rewrite (fed_unique _ _ _ _ _ F' F) in VS. inversion VS as [|? va ? ? DA VN]; subst. inversion VN; subst.
    destruct DW as [m A C T'|A T'|ty T'|ty T'|_ DO]; try congruence.
    destruct DO; try congruence. cbn [first] in *.
    destruct (IH _ DA) as (s0 & ops0 & D0 & SP & O0 & DE & AP).
    match goal with C : contributes n ?o ?e |- _ => pose proof (fun powf v => grade_contributes_by n o e powf v T C ltac:(assumption)) as GC;
      destruct (grade_contributes fr n o e (fun a _ => a) (f32_zero, f32_zero, f32_zero, f32_zero) T C ltac:(assumption)) as (EN & _); exists s0, (ops0 ++ o)%list end.
    split; [exact D0|]. split; [|split; [|split]].
    + match goal with Q : same_picture v va |- _ => destruct Q as (Q1 & Q2 & Q3 & Q4 & Q5) end. destruct SP as (P1 & P2 & P3 & P4 & P5).
      unfold same_picture. repeat split; congruence.
    + match goal with Q : st_ops v = _ |- _ => rewrite Q end. rewrite O0. now rewrite app_assoc.
    + match goal with Q : st_deformers v = _ |- _ => rewrite Q end. rewrite EN.
      now rewrite app_nil_r.
    + intros powf u. unfold applied_by. rewrite fold_left_app. fold (applied_by powf ops0 u). rewrite AP, fold_left_app.
      exact (proj2 (GC powf _)).
Qed.

Theorem outcome_developed_by rd nr A l w nw src path img co ty cropped :
  described i h rd = Some nr -> reads x d fr nr A -> linear_picture nc A ->
  grades_after i h rd src l -> writing i h w nw src ->
  (forall e, In e srgb_extensions -> ~ has_extension path e) -> number_type (node_get_i32 nw "pixel_data_type") (sh_block A) ty ->
  file_cropped (node_get_i32 nw "crop_on_write") path cropped ->
  outcome x p d fr i h w (path, img, co) ->
  developed_by nc chan step (nx_powf (x_numerics x)) l ty (if cropped then sh_display A else sh_data A) A img.
Proof.
  intros DN RD (WF & NC & PL & SPN) G WR NS NT CR (nw' & src' & s & WR' & DR & FI).
  destruct WR as (DW & TW & EW & XW & FW). destruct WR' as (DW' & _ & _ & _ & FW').
  rewrite DW in DW'. injection DW' as <-. pose proof (fed_unique _ _ _ _ _ FW' FW) as Q. injection Q as ->.
  destruct (drawn_grades_by _ _ _ _ G DR) as (s0 & ops & D0 & (P1 & P2 & P3 & P4 & P5) & O0 & DE & AP).
  destruct (drawn_reader x p d fr i h _ _ _ _ DN RD D0) as (S1 & S2 & S3 & S4 & S5 & S6 & S7).
  destruct FI as (_ & (space & ty' & r & win & cropped' & CS & FT & FN & CR' & SD & _ & CF & CT) & _).
  rewrite (cropped_one _ _ _ _ CR' CR) in *. clear CR'.
  destruct CS as [((e & IE & HE) & _)|(_ & ->)]; [exfalso; exact (NS e IE HE)|].
  assert (TY : ty' = ty).
  { unfold ChainSpec.file_type in FT. unfold number_type in NT. rewrite P1, S1 in FT. destruct (data_type_from _); congruence. }
  subst ty'.
  assert (B : st_block s = sh_block A) by congruence. assert (DA : st_data s = sh_data A) by congruence.
  assert (DI : st_display s = sh_display A) by congruence.
  assert (OPS : st_ops s = ops) by (rewrite O0, S6; reflexivity). assert (DEF : st_deformers s = []) by congruence.
  assert (MX : st_matrix s = identity4) by congruence.
  pose proof FN as FN0. destruct FN as (px & mid & px2 & px3 & _ & DIS & M2 & _ & SR & TR & _).
  assert (WIN : win = sh_data A /\ pb_size r = pb_size (sh_block A)).
  { destruct DIS as [(_ & -> & ->)|((q & IQ & _) & _)]; [|rewrite DEF in IQ; destruct IQ].
    split; [exact DA|]. rewrite SR. cbn [pb_size]. now rewrite B. }
  destruct WIN as (-> & SR').
  assert (NR : bs_nc (pb_size r) = nc) by (rewrite SR'; exact NC).
  assert (PIX : forall X Y, in_box (sh_data A) X Y -> exists v,
     (forall c, 0 <= c < nc -> exists e, pixel_val (sh_block A) (sh_data A) X Y c = Some e /\ taken_as (db_type (pb_data (sh_block A))) e (chan c v)) /\
     (forall c, 0 <= c < nc -> exists e, pixel_val r (sh_data A) X Y c = Some e /\
        put_as ty (chan c (fold_left (fun v n => step (fun u => graded (nx_powf (x_numerics x)) u n) v) l (step (BakeSpec.through identity4) v))) e)).
  { intros X Y IB. rewrite <- B, <- DA in *.
    destruct (follows _ _ _ _ _ _ WF NC PL ltac:(congruence) FN0 X Y IB) as (sx & sy & v & CO & EL).
    rewrite DEF in CO. destruct CO as [(_ & -> & ->)|((q & IQ & _) & _)]; [|destruct IQ].
    destruct PL as (PW & PH). exists v. split; intros c C; destruct (EL c C) as (e & e' & E1 & E2 & E3 & E4).
    - exists e. split; [|exact E2]. unfold pixel_val. rewrite NC. rewrite <- E1. f_equal. unfold offset. rewrite PW. reflexivity.
    - exists e'. split; [exact E3|]. rewrite MX, OPS, AP in E4. exact E4. }
  unfold developed_by. split; [congruence|]. destruct cropped.
  - destruct (CT eq_refl) as (SDT & (WFI & PLI & NCI & TYI & PV)). rewrite DI in *.
    split; [exact SDT|]. split; [congruence|]. split; [congruence|]. intros X Y IB. split.
    + intro IN. destruct (PIX X Y IN) as (v & HC & GC). exists v. split; [exact HC|]. intros c C. destruct (GC c C) as (e & E1 & E2).
      exists e. split; [|exact E2]. rewrite PV by (rewrite ?NR; auto). rewrite (proj2 (in_boxb_spec (sh_data A) X Y) IN). exact E1.
    + intros NI c C. rewrite PV by (rewrite ?NR; auto). destruct (in_boxb (sh_data A) X Y) eqn:EB; [exfalso; apply NI; now apply in_boxb_spec|]. now rewrite TR.
  - destruct (CF eq_refl) as (-> & SDT). split; [congruence|]. split; [exact NR|]. split; [exact TR|].
    intros X Y IB. split; [intros _; exact (PIX X Y IB)|contradiction].
Qed.
End Develop.

Theorem program_developed_by {D} p (x : externals D) B ok_disk : roomy B -> sane x B ok_disk -> resampler_works x B ->
  forall srt, sorts srt -> forall E : setting D,
  clean_paths (x_expand x) -> no_collisions (x_digest x) (SoundSpec.used E) -> digest_u64 (x_digest x) ->
  (forall l, In l (SoundSpec.used E) -> x_digest x l <> 0) -> keeps_sources x E ->
  forall h cl i n frames fr call fuel cl' r holds, neat_past p x E srt B ok_disk h cl -> only_builds i h -> all_careful p B i h ->
  described i h (hd_id n) <> None -> ~ gone i h (hd_id n) -> shaped i h (hd_id n) -> all_used i h (hd_id n) -> runs call i n (frames ++ [fr]) ->
  tame_call p x E srt cl fuel call -> client_call p x srt fuel cl call = Some (Ok (cl', r)) ->
  keeps_files x holds -> apart (fun fr => outcome x p (cl_disk cl) fr i h) (frames ++ [fr]) ->
  forall fr1 w nw src rd nr A l path ty cropped, In fr1 (frames ++ [fr]) -> above i h (hd_id n) w -> writing i h w nw src ->
  described i h rd = Some nr -> reads x (cl_disk cl) fr1 nr A -> linear_picture nc A -> grades_after i h rd src l ->
  expand_string (x_expand x) (node_get_str nw "file_path") (frame_number fr1) = Ok path ->
  (forall e, In e srgb_extensions -> ~ has_extension path e) -> number_type (node_get_i32 nw "pixel_data_type") (sh_block A) ty ->
  file_cropped (node_get_i32 nw "crop_on_write") path cropped ->
  exists img co, holds (cl_disk cl') (path, img, co) /\
    developed_by nc chan step (nx_powf (x_numerics x)) l ty (if cropped then sh_display A else sh_data A) A img.
Proof.
  intros RB SX RW srt SS E CP NC DU NZ KS h cl i n frames fr call fuel cl' r holds P OB CA DN NG SH AU RU TC X KF AP fr1 w nw src rd nr A l path ty cropped IF AB WR DR RD LR G EX NS NT CR.
  destruct (program_files p x B ok_disk RB SX RW srt SS E CP NC DU NZ KS h cl i n frames fr call fuel cl' r holds P OB CA DN NG SH AU RU TC X KF AP fr1 w nw src IF AB WR) as (((path', img), co) & OU & HO).
  assert (Q : path' = path).
  { destruct OU as (nw' & src' & s & (DW & _) & _ & (EX' & _)). destruct WR as (DW' & _). rewrite DW in DW'. injection DW' as ->. congruence. }
  subst path'. exists img, co. split; [exact HO|]. exact (outcome_developed_by x p (cl_disk cl) fr1 i h rd nr A l w nw src path img co ty cropped DR RD LR G WR NS NT CR OU).
Qed.
End Pixels.

Lemma opaque_ext f g v : (forall u, f u = g u) -> opaque_step f v = opaque_step g v.
Proof. intro H. destruct v as [[r g0] b]. unfold opaque_step. now rewrite H. Qed.
Lemma opaque_id v : opaque_step (fun u => u) v = v.
Proof. now destruct v as [[r g] b]. Qed.

Definition outcome_rgb := @outcome_developed_by _ 3 channel3 opaque_step opaque_ext opaque_id finished_rgb_pixel.
Definition program_rgb := @program_developed_by _ 3 channel3 opaque_step opaque_ext opaque_id finished_rgb_pixel.

(** The pixels of the file of a program that reads, grades and writes. *)
From Coq Require String.
Import String.StringSyntax.
From Coq Require Import Lia Floats.SpecFloat.
From Verif Require Import Machine Loops CacheModel FloatModel BBoxModel BBoxSpec BBoxProofs PixelModel PixelSpec PathModel MergeModel MergeSpec EnumModel AttrModel AttrSpec HashModel HashSpec StreamModel GradeModel DeformModel BakeModel BakeSpec
  GraphModel GraphSpec GraphSim NodeModel ChainSpec SafeSpec SceneSpec EachSpec ViewSpec SoundSpec TotalSpec FinishSpec FinishProofs WriteSpec ClientModel ClientSpec ClientSpec2 ProgramSpec ProgramProofs2 ProgramProofs3 LutSpec AlikeSpec DevelopSpec.
Local Open Scope string_scope.

Definition applied (powf : f32 -> f32 -> f32) (ops : list vals) (v : rgba) : rgba :=
  fold_left (fun v o => if vi o "enable" =? 1 then op_pixel powf o v else v) ops v.

Section Develop.
Context {D : Type}.
Variable x : externals D.
Variable p : profile.
Variable d : D.
Variable fr : spec_float.
Variable i : nat.
Variable h : list (ccall * reply).

Lemma grade_contributes n ops defs powf v : nd_type n = TGrade -> contributes n ops defs -> in_full n ops defs ->
  defs = [] /\ applied powf ops v = graded powf v n.
Proof.
  intros T C (F & _). specialize (F T). destruct C as [T'|u _ EN PR SS|_ OFF|u T' _ _|u T' _ _|[T'|T'] _]; try congruence.
  - split; [reflexivity|]. rewrite (F u (or_introl eq_refl)). unfold applied, graded. cbn [fold_left].
    match goal with |- context [vi (settings ?a ?b ?c) "enable"] => change (vi (settings a b c) "enable") with (node_get_i32 n "enable") end.
    reflexivity.
  - split; [reflexivity|]. unfold applied, graded. cbn [fold_left]. destruct OFF as [OFF|OFF].
    + destruct (Z.eqb_spec (node_get_i32 n "enable") 1); [contradiction|reflexivity].
    + destruct (node_get_i32 n "enable" =? 1); [|reflexivity]. destruct v as [[[r g] b] a]. unfold op_pixel.
      match goal with |- context [workingb ?o] => set (st := o) end.
      assert (W : workingb st = false); [|now rewrite W].
      unfold workingb.
      change (process st CR) with (node_get_i32 n "process_r"). change (process st CG) with (node_get_i32 n "process_g").
      change (process st CB) with (node_get_i32 n "process_b"). change (process st CA) with (node_get_i32 n "process_a").
      rewrite !OFF; [reflexivity|cbn; tauto..].
Qed.

Lemma drawn_grades rd id l s : grades_after i h rd id l -> drawn x p d fr i h id s ->
  exists s0 ops, drawn x p d fr i h rd s0 /\ same_picture s s0 /\ st_ops s = (st_ops s0 ++ ops)%list /\ st_deformers s = st_deformers s0 /\
    forall powf v, applied powf ops v = fold_left (graded powf) l v.
Proof.
  intro G. revert s. induction G as [|a b n l G IH DN T F]; intros s DR.
  - exists s, []. rewrite app_nil_r. repeat split; auto.
  - destruct DR as [id n' l' vs v DN' F' VS DW]. rewrite DN in DN'. injection DN' as <-.
    rewrite (fed_unique _ _ _ _ _ F' F) in VS. inversion VS as [|? va ? ? DA VN]; subst. inversion VN; subst.
    destruct DW as [m A C T'|A T'|ty T'|ty T'|_ DO]; try congruence.
    destruct DO; try congruence. cbn [first] in *.
    destruct (IH _ DA) as (s0 & ops0 & D0 & SP & O0 & DE & AP).
    match goal with C : contributes n ?o ?e |- _ => pose proof (fun powf v => grade_contributes n o e powf v T C ltac:(assumption)) as GC; exists s0, (ops0 ++ o)%list end.
    split; [exact D0|]. split; [|split; [|split]].
    + match goal with Q : same_picture v va |- _ => destruct Q as (Q1 & Q2 & Q3 & Q4 & Q5) end. destruct SP as (P1 & P2 & P3 & P4 & P5).
      unfold same_picture. repeat split; congruence.
    + match goal with Q : st_ops v = _ |- _ => rewrite Q end. rewrite O0. now rewrite app_assoc.
    + match goal with Q : st_deformers v = _ |- _ => rewrite Q end. destruct (GC (fun a _ => a) (f32_zero, f32_zero, f32_zero, f32_zero)) as (-> & _).
      now rewrite app_nil_r.
    + intros powf u. unfold applied. rewrite fold_left_app. fold (applied powf ops0 u). rewrite AP, fold_left_app. cbn [fold_left].
      destruct (GC powf (fold_left (graded powf) l u)) as (_ & Q). exact Q.
Qed.

Lemma drawn_reader rd nr A s : described i h rd = Some nr -> reads x d fr nr A -> drawn x p d fr i h rd s -> shows A s.
Proof.
  intros DN (T & EN & path & EX & KI & RD) DR. destruct DR as [id n' l' vs v DN' F' VS DW]. rewrite DN in DN'. injection DN' as <-.
  destruct DW as [m A' C T'|A' T'|ty T'|ty T'|_ DO]; try congruence.
  destruct DO as [_ _ SO|? Q|ops defs C| | | | | | | | | | |]; try congruence.
  - destruct SO as (q & EQ & SO). rewrite EX in EQ. injection EQ as <-. rewrite KI, RD in SO. exact SO.
  - destruct C as [T'|? T'|T'|? T'|? T'|[T'|T']]; congruence.
Qed.

Lemma cropped_one attr path a b : file_cropped attr path a -> file_cropped attr path b -> a = b.
Proof.
  unfold file_cropped. destruct (crop_from attr); try congruence; try tauto. destruct a, b; intuition congruence.
Qed.

Theorem outcome_developed rd nr A l w nw src path img co ty cropped :
  described i h rd = Some nr -> reads x d fr nr A -> linear_rgba A ->
  grades_after i h rd src l -> writing i h w nw src ->
  (forall e, In e srgb_extensions -> ~ has_extension path e) -> number_type (node_get_i32 nw "pixel_data_type") (sh_block A) ty ->
  file_cropped (node_get_i32 nw "crop_on_write") path cropped ->
  outcome x p d fr i h w (path, img, co) ->
  developed (nx_powf (x_numerics x)) l ty (if cropped then sh_display A else sh_data A) A img.
Proof.
  intros DN RD (WF & NC & PL & SPN) G WR NS NT CR (nw' & src' & s & WR' & DR & FI).
  destruct WR as (DW & TW & EW & XW & FW). destruct WR' as (DW' & _ & _ & _ & FW').
  rewrite DW in DW'. injection DW' as <-. pose proof (fed_unique _ _ _ _ _ FW' FW) as Q. injection Q as ->.
  destruct (drawn_grades _ _ _ _ G DR) as (s0 & ops & D0 & (P1 & P2 & P3 & P4 & P5) & O0 & DE & AP).
  destruct (drawn_reader _ _ _ _ DN RD D0) as (S1 & S2 & S3 & S4 & S5 & S6 & S7).
  destruct FI as (_ & (space & ty' & r & win & cropped' & CS & FT & FN & CR' & SD & _ & CF & CT) & _).
  rewrite (cropped_one _ _ _ _ CR' CR) in *. clear CR'.
  destruct CS as [((e & IE & HE) & _)|(_ & ->)]; [exfalso; exact (NS e IE HE)|].
  assert (TY : ty' = ty).
  { unfold ChainSpec.file_type in FT. unfold number_type in NT. rewrite P1, S1 in FT. destruct (data_type_from _); congruence. }
  subst ty'.
  assert (B : st_block s = sh_block A) by congruence. assert (DA : st_data s = sh_data A) by congruence.
  assert (DI : st_display s = sh_display A) by congruence.
  assert (OPS : st_ops s = ops) by (rewrite O0, S6; reflexivity). assert (DEF : st_deformers s = []) by congruence.
  assert (MX : st_matrix s = identity4) by congruence.
  pose proof FN as FN0. destruct FN as (px & mid & px2 & px3 & _ & DIS & M2 & _ & SR & TR & _).
  assert (WIN : win = sh_data A /\ pb_size r = pb_size (sh_block A)).
  { destruct DIS as [(_ & -> & ->)|((q & IQ & _) & _)]; [|rewrite DEF in IQ; destruct IQ].
    split; [exact DA|]. rewrite SR. cbn [pb_size]. now rewrite B. }
  destruct WIN as (-> & SR').
  assert (NR : bs_nc (pb_size r) = 4) by (rewrite SR'; exact NC).
  assert (PIX : forall X Y, in_box (sh_data A) X Y -> exists v, holds_colour (sh_block A) (sh_data A) X Y v /\
     given_colour ty r (sh_data A) X Y (fold_left (graded (nx_powf (x_numerics x))) l (BakeSpec.through identity4 v))).
  { intros X Y IB. rewrite <- B, <- DA in *.
    destruct (finished_pixel _ _ _ _ _ _ WF NC PL ltac:(congruence) FN0 X Y IB) as (sx & sy & v & CO & EL).
    rewrite DEF in CO. destruct CO as [(_ & -> & ->)|((q & IQ & _) & _)]; [|destruct IQ].
    destruct PL as (PW & PH). exists v. split; intros c C; destruct (EL c C) as (e & e' & E1 & E2 & E3 & E4).
    - exists e. split; [|exact E2]. unfold pixel_val. rewrite NC. rewrite <- E1. f_equal. unfold offset. rewrite PW. reflexivity.
    - exists e'. split; [exact E3|]. unfold pixel_meaning in E4. rewrite MX, OPS in E4.
      match type of E4 with put_as _ (channel _ ?u) _ => change u with (applied (nx_powf (x_numerics x)) ops (BakeSpec.through identity4 v)) in E4 end.
      rewrite AP in E4. exact E4. }
  unfold developed. split; [congruence|]. destruct cropped.
  - destruct (CT eq_refl) as (SDT & (WFI & PLI & NCI & TYI & PV)). rewrite DI in *.
    split; [exact SDT|]. split; [congruence|]. split; [congruence|]. intros X Y IB. split.
    + intro IN. destruct (PIX X Y IN) as (v & HC & GC). exists v. split; [exact HC|]. intros c C. destruct (GC c C) as (e & E1 & E2).
      exists e. split; [|exact E2]. rewrite PV by (rewrite ?NR; auto). rewrite (proj2 (in_boxb_spec (sh_data A) X Y) IN). exact E1.
    + intros NI c C. rewrite PV by (rewrite ?NR; auto). destruct (in_boxb (sh_data A) X Y) eqn:EB; [exfalso; apply NI; now apply in_boxb_spec|]. now rewrite TR.
  - destruct (CF eq_refl) as (-> & SDT). split; [congruence|]. split; [exact NR|]. split; [exact TR|].
    intros X Y IB. split; [intros _; exact (PIX X Y IB)|contradiction].
Qed.
End Develop.

Theorem program_developed {D} p (x : externals D) B ok_disk : roomy B -> sane x B ok_disk -> resampler_works x B ->
  forall srt, sorts srt -> forall E : setting D,
  clean_paths (x_expand x) -> no_collisions (x_digest x) (SoundSpec.used E) -> digest_u64 (x_digest x) ->
  (forall l, In l (SoundSpec.used E) -> x_digest x l <> 0) -> keeps_sources x E ->
  forall h cl i n frames fr call fuel cl' r holds, neat_past p x E srt B ok_disk h cl -> only_builds i h -> all_careful p B i h ->
  described i h (hd_id n) <> None -> ~ gone i h (hd_id n) -> shaped i h (hd_id n) -> all_used i h (hd_id n) -> runs call i n (frames ++ [fr]) ->
  tame_call p x E srt cl fuel call -> client_call p x srt fuel cl call = Some (Ok (cl', r)) ->
  keeps_files x holds -> apart (fun fr => outcome x p (cl_disk cl) fr i h) (frames ++ [fr]) ->
  forall fr1 w nw src rd nr A l path ty cropped, In fr1 (frames ++ [fr]) -> above i h (hd_id n) w -> writing i h w nw src ->
  described i h rd = Some nr -> reads x (cl_disk cl) fr1 nr A -> linear_rgba A -> grades_after i h rd src l ->
  expand_string (x_expand x) (node_get_str nw "file_path") (frame_number fr1) = Ok path ->
  (forall e, In e srgb_extensions -> ~ has_extension path e) -> number_type (node_get_i32 nw "pixel_data_type") (sh_block A) ty ->
  file_cropped (node_get_i32 nw "crop_on_write") path cropped ->
  exists img co, holds (cl_disk cl') (path, img, co) /\
    developed (nx_powf (x_numerics x)) l ty (if cropped then sh_display A else sh_data A) A img.
Proof.
  intros RB SX RW srt SS E CP NC DU NZ KS h cl i n frames fr call fuel cl' r holds P OB CA DN NG SH AU RU TC X KF AP fr1 w nw src rd nr A l path ty cropped IF AB WR DR RD LR G EX NS NT CR.
  destruct (program_files p x B ok_disk RB SX RW srt SS E CP NC DU NZ KS h cl i n frames fr call fuel cl' r holds P OB CA DN NG SH AU RU TC X KF AP fr1 w nw src IF AB WR) as (((path', img), co) & OU & HO).
  assert (Q : path' = path).
  { destruct OU as (nw' & src' & s & (DW & _) & _ & (EX' & _)). destruct WR as (DW' & _). rewrite DW in DW'. injection DW' as ->. congruence. }
  subst path'. exists img, co. split; [exact HO|]. exact (outcome_developed x p (cl_disk cl) fr1 i h rd nr A l w nw src path img co ty cropped DR RD LR G WR NS NT CR OU).
Qed.

(** The pixels of the file of a program that reads, grades, transforms and
    writes. *)
From Coq Require String.
Import String.StringSyntax.
From Coq Require Import Lia Floats.SpecFloat.
From Verif Require Import Machine Loops CacheModel FloatModel BBoxModel BBoxSpec BBoxProofs PixelModel PixelSpec PathModel MergeModel MergeSpec EnumModel AttrModel AttrSpec HashModel HashSpec StreamModel GradeModel DeformModel BakeModel BakeSpec
  GraphModel GraphSpec GraphSim NodeModel ChainSpec SafeSpec SceneSpec EachSpec ViewSpec SoundSpec TotalSpec FinishSpec FinishProofs WriteSpec ClientModel ClientSpec ClientSpec2 ProgramSpec ProgramProofs2 ProgramProofs3 LutSpec AlikeSpec RemapSpec EdgeSpec DevelopSpec DevelopProofs MovedSpec.
Local Open Scope string_scope.

Section Moved.
Context {D : Type}.
Variable x : externals D.
Variable p : profile.
Variable d : D.
Variable fr : spec_float.
Variable i : nat.
Variable h : list (ccall * reply).

Lemma change_contributes n ops defs powf v : In (nd_type n) [TGrade; TTransform; TNull] -> contributes n ops defs -> in_full n ops defs ->
  defs = moves [n] /\ applied powf ops v = fold_left (graded powf) (filter is_grade [n]) v.
Proof.
  intros T C F. assert (TG : nd_type n = TGrade \/ nd_type n = TTransform \/ nd_type n = TNull) by (cbn in T; intuition auto). clear T.
  destruct TG as [T|[T|T]].
  - destruct (grade_contributes fr n ops defs powf v T C F) as (-> & E). unfold moves, is_move, is_grade. cbn [filter]. rewrite T. split; [reflexivity|exact E].
  - destruct F as (_ & F). specialize (F T). unfold moves, is_move, is_grade. cbn [filter]. rewrite T.
    destruct C as [T'|u T' _ _ _|T' _|u _ EN _|u T' _ _|_ OFF]; try (exfalso; congruence).
    + rewrite EN. cbn [Z.eqb Pos.eqb]. split; [|reflexivity]. cbn [map]. now rewrite (F u (or_introl eq_refl)).
    + destruct (Z.eqb_spec (node_get_i32 n "enable") 1); [contradiction|]. split; reflexivity.
  - unfold moves, is_move, is_grade. cbn [filter]. rewrite T. destruct C as [T'|u T' _ _ _|T' _|u T' _ _|u T' _ _|[T'|T'] _]; try (exfalso; congruence). split; reflexivity.
Qed.

Lemma moves_app l l' : moves (l ++ l') = (moves l ++ moves l')%list.
Proof. unfold moves. now rewrite filter_app, map_app. Qed.
Lemma moves_on l m : In m (moves l) -> vi (def_vals m) "enable" = 1.
Proof.
  unfold moves. intro I. apply in_map_iff in I. destruct I as (n & <- & I). apply filter_In in I. destruct I as (_ & I). unfold is_move in I.
  destruct (nd_type n); try discriminate I. apply Z.eqb_eq in I. exact I.
Qed.
Lemma moves_enabled l : enabled (moves l) = moves l.
Proof.
  assert (K : forall ds, (forall m, In m ds -> vi (def_vals m) "enable" = 1) -> enabled ds = ds).
  { induction ds as [|m ds IH]; intro H; [reflexivity|]. unfold enabled in *. cbn [filter]. rewrite (H m (or_introl eq_refl)). cbn [Z.eqb Pos.eqb]. f_equal. apply IH. intros q Q. apply H. now right. }
  apply K. apply moves_on.
Qed.

Lemma moves_stay nx disp l b b' : box_through nx disp (moves l) b b' -> b' = b.
Proof.
  unfold moves. induction (filter is_move l) as [|n ns IH]; cbn [map]; intro H; inversion H as [|m ms u b1 u' DB BT]; subst; [reflexivity|].
  cbn [deform_box] in DB. injection DB as <-. exact (IH BT).
Qed.

Lemma drawn_changes rd id l s : changes_after i h rd id l -> drawn x p d fr i h id s ->
  exists s0 ops, drawn x p d fr i h rd s0 /\ same_picture s s0 /\ st_ops s = (st_ops s0 ++ ops)%list /\ st_deformers s = (st_deformers s0 ++ moves l)%list /\
    forall powf v, applied powf ops v = fold_left (graded powf) (filter is_grade l) v.
Proof.
  intro G. revert s. induction G as [|a b n l G IH DN T F]; intros s DR.
  - exists s, []. rewrite !app_nil_r. repeat split; auto.
  - assert (NT : nd_type n = TGrade \/ nd_type n = TTransform \/ nd_type n = TNull) by (cbn in T; intuition auto).
    destruct DR as [id n' l' vs v DN' F' VS DW]. rewrite DN in DN'. injection DN' as <-.
    rewrite (fed_unique _ _ _ _ _ F' F) in VS. inversion VS as [|? va ? ? DA VN]; subst. inversion VN; subst.
    destruct DW as [m A C T'|A T'|ty T'|ty T'|_ DO]; try (exfalso; destruct NT as [|[|]]; congruence).
    destruct DO; try (exfalso; destruct NT as [|[|]]; congruence). cbn [first] in *.
    destruct (IH _ DA) as (s0 & ops0 & D0 & SP & O0 & DE & AP).
    match goal with C : contributes n ?o ?e |- _ => pose proof (fun powf v => change_contributes n o e powf v T C ltac:(assumption)) as GC; exists s0, (ops0 ++ o)%list end.
    split; [exact D0|]. split; [|split; [|split]].
    + match goal with Q : same_picture v va |- _ => destruct Q as (Q1 & Q2 & Q3 & Q4 & Q5) end. destruct SP as (P1 & P2 & P3 & P4 & P5).
      unfold same_picture. repeat split; congruence.
    + match goal with Q : st_ops v = _ |- _ => rewrite Q end. rewrite O0. now rewrite app_assoc.
    + match goal with Q : st_deformers v = _ |- _ => rewrite Q end. destruct (GC (fun a _ => a) (f32_zero, f32_zero, f32_zero, f32_zero)) as (-> & _).
      now rewrite DE, moves_app, app_assoc.
    + intros powf u. unfold applied. rewrite fold_left_app. fold (applied powf ops0 u). rewrite AP, filter_app, fold_left_app.
      destruct (GC powf (fold_left (graded powf) (filter is_grade l) u)) as (_ & Q). exact Q.
Qed.

Theorem outcome_moved rd nr A l w nw src path img co ty cropped :
  described i h rd = Some nr -> reads x d fr nr A -> linear_rgba A ->
  changes_after i h rd src l -> writing i h w nw src ->
  (forall e, In e srgb_extensions -> ~ has_extension path e) -> number_type (node_get_i32 nw "pixel_data_type") (sh_block A) ty ->
  file_cropped (node_get_i32 nw "crop_on_write") path cropped ->
  outcome x p d fr i h w (path, img, co) ->
  developed_moved (x_numerics x) l ty cropped A img.
Proof.
  intros DN RD (WF & NC & PL & SPN) G WR NS NT CR (nw' & src' & s & WR' & DR & FI).
  destruct WR as (DW & TW & EW & XW & FW). destruct WR' as (DW' & _ & _ & _ & FW').
  rewrite DW in DW'. injection DW' as <-. pose proof (fed_unique _ _ _ _ _ FW' FW) as Q. injection Q as ->.
  destruct (drawn_changes _ _ _ _ G DR) as (s0 & ops & D0 & (P1 & P2 & P3 & P4 & P5) & O0 & DE & AP).
  destruct (drawn_reader x p d fr i h _ _ _ _ DN RD D0) as (S1 & S2 & S3 & S4 & S5 & S6 & S7).
  destruct FI as (_ & (space & ty' & r & win & cropped' & CS & FT & FN & CR' & SD & _ & CF & CT) & _).
  rewrite (cropped_one _ _ _ _ CR' CR) in *. clear CR'.
  destruct CS as [((e & IE & HE) & _)|(_ & ->)]; [exfalso; exact (NS e IE HE)|].
  assert (TY : ty' = ty).
  { unfold ChainSpec.file_type in FT. unfold number_type in NT. rewrite P1, S1 in FT. destruct (data_type_from _); congruence. }
  subst ty'.
  assert (B : st_block s = sh_block A) by congruence. assert (DA : st_data s = sh_data A) by congruence.
  assert (DI : st_display s = sh_display A) by congruence.
  assert (OPS : st_ops s = ops) by (rewrite O0, S6; reflexivity). assert (DEF : st_deformers s = moves l) by (rewrite DE, S7; reflexivity).
  assert (MX : st_matrix s = identity4) by congruence.
  pose proof FN as FN0. destruct FN as (px & mid & px2 & px3 & _ & DIS & M2 & _ & SR & TR & _).
  assert (WIN : moved_window (moves l) (sh_data A) win /\ bs_nc (pb_size r) = 4).
  { rewrite SR. rewrite DI, DA, B, DEF in DIS. destruct DIS as [(NE & -> & ->)|((q & IQ & _) & (MS & _) & (b & BT & EB))].
    - split; [left; split; [|reflexivity]|exact NC]. destruct (moves l) as [|m ms] eqn:EM; [reflexivity|].
      exfalso. apply (NE m (or_introl eq_refl)). apply (moves_on l). rewrite EM. now left.
    - rewrite moves_enabled in BT. apply moves_stay in BT. subst b. split; [right; split; [intro Q; rewrite Q in IQ; destruct IQ|exact EB]|]. rewrite MS. exact NC. }
  destruct WIN as (MW & NR).
  assert (PIX : forall X Y, in_box win X Y -> exists sx sy v,
     comes_from (x_numerics x) (sh_display A) (moves l) (bs_w (pb_size (sh_block A))) (bs_h (pb_size (sh_block A))) (sh_data A) X Y sx sy /\
     holds_colour (sh_block A) (sh_data A) (min_x (sh_data A) + sx) (min_y (sh_data A) + sy) v /\
     given_colour ty r win X Y (fold_left (graded (nx_powf (x_numerics x))) (filter is_grade l) (BakeSpec.through identity4 v))).
  { intros X Y IB. rewrite <- B, <- DA in *.
    destruct (finished_pixel _ _ _ _ _ _ WF NC PL ltac:(congruence) FN0 X Y IB) as (sx & sy & v & CO & EL).
    rewrite DEF, DI in CO. exists sx, sy, v. split; [exact CO|].
    destruct PL as (PW & PH). split; intros c C; destruct (EL c C) as (e & e' & E1 & E2 & E3 & E4).
    - exists e. split; [|exact E2]. unfold pixel_val. rewrite NC. rewrite <- E1. f_equal. unfold offset. rewrite PW.
      replace (min_y (st_data s) + sy - min_y (st_data s)) with sy by lia. replace (min_x (st_data s) + sx - min_x (st_data s)) with sx by lia. reflexivity.
    - exists e'. split; [exact E3|]. unfold pixel_meaning in E4. rewrite MX, OPS in E4.
      match type of E4 with put_as _ (channel _ ?u) _ => change u with (applied (nx_powf (x_numerics x)) ops (BakeSpec.through identity4 v)) in E4 end.
      rewrite AP in E4. exact E4. }
  unfold developed_moved. cbv zeta. split; [congruence|]. destruct cropped.
  - destruct (CT eq_refl) as (SDT & (WFI & PLI & NCI & TYI & PV)). rewrite DI in *.
    split; [congruence|]. split; [congruence|]. exists win. split; [exact MW|]. split; [exact SDT|]. rewrite SDT. intros X Y IB. split.
    + intro IN. destruct (PIX X Y IN) as (sx & sy & v & CO & HC & GC). exists sx, sy, v. split; [exact CO|]. split; [exact HC|]. intros c C. destruct (GC c C) as (e & E1 & E2).
      exists e. split; [|exact E2]. rewrite PV by (rewrite ?NR; auto). rewrite (proj2 (in_boxb_spec win X Y) IN). exact E1.
    + intros NI c C. rewrite PV by (rewrite ?NR; auto). destruct (in_boxb win X Y) eqn:EB; [exfalso; apply NI; now apply in_boxb_spec|]. now rewrite TR.
  - destruct (CF eq_refl) as (-> & SDT). split; [exact NR|]. split; [exact TR|]. exists win. split; [exact MW|]. split; [exact SDT|]. rewrite SDT.
    intros X Y IB. split; [intros _; exact (PIX X Y IB)|contradiction].
Qed.
End Moved.

Theorem program_moved {D} p (x : externals D) B ok_disk : roomy B -> sane x B ok_disk -> resampler_works x B ->
  forall srt, sorts srt -> forall E : setting D,
  clean_paths (x_expand x) -> no_collisions (x_digest x) (SoundSpec.used E) -> digest_u64 (x_digest x) ->
  (forall l, In l (SoundSpec.used E) -> x_digest x l <> 0) -> keeps_sources x E ->
  forall h cl i n frames fr call fuel cl' r holds, neat_past p x E srt B ok_disk h cl -> only_builds i h -> all_careful p B i h ->
  described i h (hd_id n) <> None -> ~ gone i h (hd_id n) -> shaped i h (hd_id n) -> all_used i h (hd_id n) -> runs call i n (frames ++ [fr]) ->
  tame_call p x E srt cl fuel call -> client_call p x srt fuel cl call = Some (Ok (cl', r)) ->
  keeps_files x holds -> apart (fun fr => outcome x p (cl_disk cl) fr i h) (frames ++ [fr]) ->
  forall fr1 w nw src rd nr A l path ty cropped, In fr1 (frames ++ [fr]) -> ProgramSpec.above i h (hd_id n) w -> writing i h w nw src ->
  described i h rd = Some nr -> reads x (cl_disk cl) fr1 nr A -> linear_rgba A -> changes_after i h rd src l ->
  expand_string (x_expand x) (node_get_str nw "file_path") (frame_number fr1) = Ok path ->
  (forall e, In e srgb_extensions -> ~ has_extension path e) -> number_type (node_get_i32 nw "pixel_data_type") (sh_block A) ty ->
  file_cropped (node_get_i32 nw "crop_on_write") path cropped ->
  exists img co, holds (cl_disk cl') (path, img, co) /\
    developed_moved (x_numerics x) l ty cropped A img.
Proof.
  intros RB SX RW srt SS E CP NC DU NZ KS h cl i n frames fr call fuel cl' r holds P OB CA DN NG SH AU RU TC X KF AP fr1 w nw src rd nr A l path ty cropped IF AB WR DR RD LR G EX NS NT CR.
  destruct (program_files p x B ok_disk RB SX RW srt SS E CP NC DU NZ KS h cl i n frames fr call fuel cl' r holds P OB CA DN NG SH AU RU TC X KF AP fr1 w nw src IF AB WR) as (((path', img), co) & OU & HO).
  assert (Q : path' = path).
  { destruct OU as (nw' & src' & s & (DW & _) & _ & (EX' & _)). destruct WR as (DW' & _). rewrite DW in DW'. injection DW' as ->. congruence. }
  subst path'. exists img, co. split; [exact HO|]. exact (outcome_moved x p (cl_disk cl) fr1 i h rd nr A l w nw src path img co ty cropped DR RD LR G WR NS NT CR OU).
Qed.

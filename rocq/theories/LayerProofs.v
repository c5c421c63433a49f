(** The pixels of the file of a program that reads, grades, merges and writes. *)
From Coq Require String.
Import String.StringSyntax.
From Coq Require Import Lia Floats.SpecFloat.
From Verif Require Import Machine Loops CacheModel FloatModel BBoxModel BBoxSpec BBoxProofs PixelModel PixelSpec PathModel MergeModel MergeSpec EnumModel AttrModel AttrSpec HashModel HashSpec StreamModel GradeModel DeformModel BakeModel BakeSpec
  GraphModel GraphSpec GraphSim NodeModel ChainSpec SafeSpec SceneSpec EachSpec ViewSpec SoundSpec TotalSpec FinishSpec FinishProofs WriteSpec ClientModel ClientSpec ClientSpec2 ProgramSpec ProgramProofs2 ProgramProofs3 LutSpec AlikeSpec ShowSpec DevelopSpec DevelopProofs LayerSpec.
Local Open Scope string_scope.

Section Layers.
Context {D : Type}.
Variable x : externals D.
Variable p : profile.
Variable d : D.
Variable fr : spec_float.
Variable i : nat.
Variable h : list (ccall * reply).

(** A graded file as a picture of floats. *)
Lemma drawn_layer rd nr A l id s im : described i h rd = Some nr -> reads x d fr nr A -> linear_rgba A ->
  grades_after i h rd id l -> drawn x p d fr i h id s -> flat x s im ->
  im_data im = sh_data A /\ im_display im = sh_display A /\ bs_nc (pb_size (im_block im)) = 4 /\
  forall X Y, exists u, layer (nx_powf (x_numerics x)) l A X Y u /\ forall c, 0 <= c < 4 -> channel_at im X Y c = channel c u.
Proof.
  intros DN RD (WF & NC & PL & SPN) G DR (FN & DIM).
  destruct (drawn_grades x p d fr i h _ _ _ _ G DR) as (s0 & ops & D0 & (P1 & P2 & P3 & P4 & P5) & O0 & DE & AP).
  destruct (drawn_reader x p d fr i h _ _ _ _ DN RD D0) as (S1 & S2 & S3 & S4 & S5 & S6 & S7).
  assert (B : st_block s = sh_block A) by congruence. assert (DA : st_data s = sh_data A) by congruence.
  assert (DI : st_display s = sh_display A) by congruence.
  assert (OPS : st_ops s = ops) by (rewrite O0, S6; reflexivity). assert (DEF : st_deformers s = []) by congruence.
  assert (MX : st_matrix s = identity4) by congruence.
  pose proof FN as FN0. destruct FN as (px & mid & px2 & px3 & _ & DIS & M2 & _ & SR & TR & _).
  assert (WIN : im_data im = sh_data A /\ pb_size (im_block im) = pb_size (sh_block A)).
  { destruct DIS as [(_ & -> & ->)|((q & IQ & _) & _)]; [|rewrite DEF in IQ; destruct IQ].
    split; [exact DA|]. rewrite SR. cbn [pb_size]. now rewrite B. }
  destruct WIN as (WI & SR').
  assert (NR : bs_nc (pb_size (im_block im)) = 4) by (rewrite SR'; exact NC).
  split; [exact WI|]. split; [congruence|]. split; [exact NR|]. intros X Y.
  unfold channel_at. destruct (in_boxb (im_data im) X Y) eqn:EB.
  - apply in_boxb_spec in EB. rewrite WI in *. assert (IB := EB). rewrite <- B, <- DA in *.
    destruct (finished_pixel _ _ _ _ _ _ WF NC PL ltac:(congruence) FN0 X Y IB) as (sx & sy & v & CO & EL).
    rewrite DEF in CO. destruct CO as [(_ & -> & ->)|((q & IQ & _) & _)]; [|destruct IQ].
    destruct PL as (PW & PH). eexists. split.
    + left. split; [rewrite <- DA; exact IB|]. exists v. split; [|reflexivity]. rewrite <- B, <- DA. intros c C. destruct (EL c C) as (e & e' & E1 & E2 & _).
      exists e. split; [|exact E2]. unfold pixel_val. rewrite NC. rewrite <- E1. f_equal. unfold offset. rewrite PW. reflexivity.
    + intros c C. destruct (EL c C) as (e & e' & _ & _ & E3 & E4). rewrite NR. destruct (Z.ltb_spec c 4); [|lia]. cbn [andb]. rewrite E3.
      unfold pixel_meaning in E4. rewrite MX, OPS in E4.
      match type of E4 with put_as _ (channel _ ?u) _ => change u with (applied (nx_powf (x_numerics x)) ops (BakeSpec.through identity4 v)) in E4 end.
      rewrite AP in E4. unfold put_as in E4. destruct e'; [exact E4|contradiction].
  - eexists. split.
    + right. split; [|reflexivity]. intro IN. rewrite WI in EB. apply in_boxb_spec in IN. congruence.
    + intros c C. cbn [andb]. unfold channel. destruct (c =? 0), (c =? 1), (c =? 2); reflexivity.
Qed.

Lemma channel_laid m mix a b c : 0 <= c < 4 -> channel c (laid_over m mix a b) = formula m mix (channel 3 a) (channel c a) (channel c b).
Proof.
  intro C. destruct a as [[[ar ag] ab] aa], b as [[[br bg] bb] ba]. assert (Q : c = 0 \/ c = 1 \/ c = 2 \/ c = 3) by lia.
  destruct Q as [-> | [-> | [-> | ->]]]; reflexivity.
Qed.

Lemma same_channels a b : (forall c, 0 <= c < 4 -> channel c a = channel c b) -> a = b.
Proof.
  intro H. destruct a as [[[ar ag] ab] aa], b as [[[br bg] bb] ba].
  pose proof (H 0 ltac:(lia)) as H0. pose proof (H 1 ltac:(lia)) as H1. pose proof (H 2 ltac:(lia)) as H2. pose proof (H 3 ltac:(lia)) as H3. cbn in H0, H1, H2, H3. congruence.
Qed.

Theorem outcome_merged rda nra A la ida rdb nrb C lb idb mg nm m w nw path img co ty cropped :
  described i h rda = Some nra -> reads x d fr nra A -> linear_rgba A -> grades_after i h rda ida la ->
  described i h rdb = Some nrb -> reads x d fr nrb C -> linear_rgba C -> grades_after i h rdb idb lb ->
  described i h mg = Some nm -> nd_type nm = TMerge -> node_get_i32 nm "enable" = 1 -> selects (node_get_i32 nm "mode") m -> fed_by i h mg [ida; idb] ->
  writing i h w nw mg ->
  (forall e, In e srgb_extensions -> ~ has_extension path e) -> merged_type (node_get_i32 nw "pixel_data_type") ty ->
  file_cropped (node_get_i32 nw "crop_on_write") path cropped ->
  outcome x p d fr i h w (path, img, co) ->
  developed_merge (nx_powf (x_numerics x)) m (f32_of_bits (node_get_f32 nm "mix")) la lb ty cropped A C img.
Proof.
  intros DNA RDA LA GA DNC RDC LC GC DM TM EM SM FM WR NS NT CR (nw' & src' & s & WR' & DR & FI).
  destruct WR as (DW & TW & EW & XW & FW). destruct WR' as (DW' & _ & _ & _ & FW').
  rewrite DW in DW'. injection DW' as <-. pose proof (fed_unique _ _ _ _ _ FW' FW) as Q. injection Q as ->.
  destruct DR as [id n' l' vs v DN' F' VS DRW]. rewrite DM in DN'. injection DN' as <-.
  rewrite (fed_unique _ _ _ _ _ F' FM) in VS. inversion VS as [|? va ? ? DA VN]; subst. inversion VN as [|? vc ? ? DC VN']; subst. inversion VN'; subst. clear VS VN VN'.
  assert (SU : forall m', selects (node_get_i32 nm "mode") m' -> m' = m) by (unfold selects in *; intros m'; lia || (intuition congruence)).
  destruct DRW as [m' A' C' _ _ _ SM' FA FC (NP1 & NP2 & NP3) MG SPV|? T'|? T'|? T'|(LP & _) _]; try congruence; [|exfalso; exact (LP TM EM ltac:(discriminate) m SM)].
  apply SU in SM'. subst m'. cbn [first second] in FA, FC.
  destruct (drawn_layer _ _ _ _ _ _ _ DNA RDA LA GA DA FA) as (IDA & _ & _ & LYA).
  destruct (drawn_layer _ _ _ _ _ _ _ DNC RDC LC GC DC FC) as (IDC & IDI & NCC & LYC).
  destruct MG as (LW & DIM & (WFV & PLV & TYV & _) & NCV & PVV). unfold picture in *. cbn [im_data im_display im_block] in *.
  rewrite IDA, IDC in LW. rewrite IDI in DIM. rewrite NCC in NCV. rewrite NCV in PVV.
  destruct FI as (_ & (space & ty' & r & win & cropped' & CS & FT & FN & CR' & SD & _ & CF & CT) & _).
  rewrite (cropped_one _ _ _ _ CR' CR) in *. clear CR'.
  destruct CS as [((e & IE & HE) & _)|(_ & ->)]; [exfalso; exact (NS e IE HE)|].
  assert (TY : ty' = ty).
  { unfold ChainSpec.file_type in FT. unfold merged_type in NT. rewrite TYV in FT. destruct (data_type_from _); congruence. }
  subst ty'.
  pose proof FN as FN0. destruct FN as (px & mid & px2 & px3 & _ & DIS & M2 & _ & SR & TR & _).
  assert (WIN : win = st_data v /\ bs_nc (pb_size r) = 4).
  { destruct DIS as [(_ & -> & ->)|((q & IQ & _) & _)]; [|rewrite NP3 in IQ; destruct IQ]. split; [reflexivity|]. rewrite SR. exact NCV. }
  destruct WIN as (-> & NR).
  assert (PIX : forall X Y, in_box (st_data v) X Y -> exists a b, layer (nx_powf (x_numerics x)) la A X Y a /\ layer (nx_powf (x_numerics x)) lb C X Y b /\
     given_colour ty r (st_data v) X Y (BakeSpec.through identity4 (laid_over m (f32_of_bits (node_get_f32 nm "mix")) a b))).
  { intros X Y IB. destruct (LYA X Y) as (a & LA' & CA'). destruct (LYC X Y) as (b & LC' & CC'). exists a, b. split; [exact LA'|]. split; [exact LC'|].
    destruct (finished_pixel _ _ _ _ _ _ WFV NCV PLV ltac:(rewrite SPV; reflexivity) FN0 X Y IB) as (sx & sy & u & CO & EL).
    rewrite NP3 in CO. destruct CO as [(_ & -> & ->)|((q & IQ & _) & _)]; [|destruct IQ].
    assert (U : u = laid_over m (f32_of_bits (node_get_f32 nm "mix")) a b).
    { apply same_channels. intros c CH. rewrite channel_laid by exact CH. destruct (EL c CH) as (e & e' & E1 & E2 & _).
      pose proof (PVV X Y c IB CH) as PV. unfold pixel_val in PV. rewrite NCV in PV. unfold offset in PV. destruct PLV as (PW & _). rewrite PW in E1.
      rewrite E1 in PV. injection PV as ->. rewrite TYV in E2. unfold taken_as in E2. rewrite E2. now rewrite (CA' 3 ltac:(lia)), (CA' c CH), (CC' c CH). }
    subst u. intros c CH. destruct (EL c CH) as (e & e' & _ & _ & E3 & E4). exists e'. split; [exact E3|].
    unfold pixel_meaning in E4. rewrite NP1, NP2 in E4. exact E4. }
  unfold developed_merge. split; [congruence|]. destruct cropped.
  - destruct (CT eq_refl) as (SDT & (WFI & PLI & NCI & TYI & PV)). rewrite DIM in *.
    split; [congruence|]. split; [congruence|]. exists (st_data v). split; [exact LW|]. split; [exact SDT|]. rewrite SDT. intros X Y IB. split.
    + intro IN. destruct (PIX X Y IN) as (a & b & L1 & L2 & GCO). exists a, b. split; [exact L1|]. split; [exact L2|]. intros c CH. destruct (GCO c CH) as (e & E1 & E2).
      exists e. split; [|exact E2]. rewrite PV by (rewrite ?NR; auto). rewrite (proj2 (in_boxb_spec (st_data v) X Y) IN). exact E1.
    + intros NI c CH. rewrite PV by (rewrite ?NR; auto). destruct (in_boxb (st_data v) X Y) eqn:EB; [exfalso; apply NI; now apply in_boxb_spec|]. now rewrite TR.
  - destruct (CF eq_refl) as (-> & SDT). split; [exact NR|]. split; [exact TR|]. exists (st_data v). split; [exact LW|]. split; [exact SDT|]. rewrite SDT.
    intros X Y IB. split; [intros _; exact (PIX X Y IB)|contradiction].
Qed.
End Layers.

Theorem program_merged {D} p (x : externals D) B ok_disk : roomy B -> sane x B ok_disk -> resampler_works x B ->
  forall srt, sorts srt -> forall E : setting D,
  clean_paths (x_expand x) -> no_collisions (x_digest x) (SoundSpec.used E) -> digest_u64 (x_digest x) ->
  (forall l, In l (SoundSpec.used E) -> x_digest x l <> 0) -> keeps_sources x E ->
  forall h cl i n frames fr call fuel cl' r holds, neat_past p x E srt B ok_disk h cl -> only_builds i h -> all_careful p B i h ->
  described i h (hd_id n) <> None -> ~ gone i h (hd_id n) -> shaped i h (hd_id n) -> all_used i h (hd_id n) -> runs call i n (frames ++ [fr]) ->
  tame_call p x E srt cl fuel call -> client_call p x srt fuel cl call = Some (Ok (cl', r)) ->
  keeps_files x holds -> apart (fun fr => outcome x p (cl_disk cl) fr i h) (frames ++ [fr]) ->
  forall fr1 w nw rda nra A la ida rdb nrb C lb idb mg nm m path ty cropped, In fr1 (frames ++ [fr]) -> above i h (hd_id n) w -> writing i h w nw mg ->
  described i h rda = Some nra -> reads x (cl_disk cl) fr1 nra A -> linear_rgba A -> grades_after i h rda ida la ->
  described i h rdb = Some nrb -> reads x (cl_disk cl) fr1 nrb C -> linear_rgba C -> grades_after i h rdb idb lb ->
  described i h mg = Some nm -> nd_type nm = TMerge -> node_get_i32 nm "enable" = 1 -> selects (node_get_i32 nm "mode") m -> fed_by i h mg [ida; idb] ->
  expand_string (x_expand x) (node_get_str nw "file_path") (frame_number fr1) = Ok path ->
  (forall e, In e srgb_extensions -> ~ has_extension path e) -> merged_type (node_get_i32 nw "pixel_data_type") ty ->
  file_cropped (node_get_i32 nw "crop_on_write") path cropped ->
  exists img co, holds (cl_disk cl') (path, img, co) /\
    developed_merge (nx_powf (x_numerics x)) m (f32_of_bits (node_get_f32 nm "mix")) la lb ty cropped A C img.
Proof.
  intros RB SX RW srt SS E CP NC DU NZ KS h cl i n frames fr call fuel cl' r holds P OB CA DN NG SH AU RU TC X KF AP fr1 w nw rda nra A la ida rdb nrb C lb idb mg nm m path ty cropped IF AB WR DRA RDA LRA GA DRC RDC LRC GC DM TM EM SM FM EX NS NT CR.
  destruct (program_files p x B ok_disk RB SX RW srt SS E CP NC DU NZ KS h cl i n frames fr call fuel cl' r holds P OB CA DN NG SH AU RU TC X KF AP fr1 w nw mg IF AB WR) as (((path', img), co) & OU & HO).
  assert (Q : path' = path).
  { destruct OU as (nw' & src' & s & (DW & _) & _ & (EX' & _)). destruct WR as (DW' & _). rewrite DW in DW'. injection DW' as ->. congruence. }
  subst path'. exists img, co. split; [exact HO|]. exact (outcome_merged x p (cl_disk cl) fr1 i h rda nra A la ida rdb nrb C lb idb mg nm m w nw path img co ty cropped DRA RDA LRA GA DRC RDC LRC GC DM TM EM SM FM WR NS NT CR OU).
Qed.

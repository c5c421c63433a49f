(** C124: the pixels of the file of a program that reads, grades and writes. *)
From Coq Require String.
Import String.StringSyntax.
From Coq Require Import Lia Floats.SpecFloat.
From Verif Require Import Machine FloatModel DeformModel BakeModel BakeProofs CacheModel BBoxModel BBoxSpec PixelModel MergeSpec PathModel EnumModel AttrModel AttrSpec HashModel HashSpec LutSpec StreamModel GraphModel GraphSpec GraphSim NodeModel NodeExamples FrameModel SoundSpec SafeSpec TotalSpec ChainSpec SceneSpec EachSpec FinishSpec
  LutProofs3 GraphWalk AlikeSpec WriteSpec ClientModel ClientSpec ClientSpec2 ClientProofs ClientProofs2 ProgramSpec ProgramProofs2 ProgramSpec2 ProgramProofs3 ProgramSpec4 FarmSpec FarmProofs DevelopSpec DevelopProofs
  PropertiesNode PropertiesSafe PropertiesScene PropertiesShow2 PropertiesTotal PropertiesWrite PropertiesEach PropertiesClient PropertiesClient2 PropertiesProgram PropertiesProgram4 PropertiesFarm.
Local Open Scope string_scope.

(** The file of a writer above which there are only grades and a reader of a
    linear picture. *)
Theorem C124_outcome : forall D (x : externals D) p d fr i h rd nr A l w nw src path img co ty cropped,
  described i h rd = Some nr -> reads x d fr nr A -> linear_rgba A ->
  grades_after i h rd src l -> writing i h w nw src ->
  (forall e, In e srgb_extensions -> ~ has_extension path e) -> number_type (node_get_i32 nw "pixel_data_type") (sh_block A) ty ->
  file_cropped (node_get_i32 nw "crop_on_write") path cropped ->
  ProgramSpec.outcome x p d fr i h w (path, img, co) ->
  developed (nx_powf (x_numerics x)) l ty (if cropped then sh_display A else sh_data A) A img.
Proof. exact @outcome_developed. Qed.
Print Assumptions C124_outcome.

(** After executing, that file is on the disk. *)
Theorem C124_files : forall D p (x : externals D) B ok_disk, roomy B -> sane x B ok_disk -> resampler_works x B ->
  forall srt, sorts srt -> forall E : setting D,
  clean_paths (x_expand x) -> no_collisions (x_digest x) (SoundSpec.used E) -> digest_u64 (x_digest x) ->
  (forall l, In l (SoundSpec.used E) -> x_digest x l <> 0) -> keeps_sources x E ->
  forall h cl i n frames fr call fuel cl' r holds, neat_past p x E srt B ok_disk h cl -> only_builds i h -> ProgramSpec.all_careful p B i h ->
  described i h (hd_id n) <> None -> ~ gone i h (hd_id n) -> shaped i h (hd_id n) -> all_used i h (hd_id n) -> runs call i n (frames ++ [fr]) ->
  tame_call p x E srt cl fuel call -> client_call p x srt fuel cl call = Some (Ok (cl', r)) ->
  keeps_files x holds -> apart (fun fr => ProgramSpec.outcome x p (cl_disk cl) fr i h) (frames ++ [fr]) ->
  forall fr1 w nw src rd nr A l path ty cropped, In fr1 (frames ++ [fr]) -> above i h (hd_id n) w -> writing i h w nw src ->
  described i h rd = Some nr -> reads x (cl_disk cl) fr1 nr A -> linear_rgba A -> grades_after i h rd src l ->
  expand_string (x_expand x) (node_get_str nw "file_path") (frame_number fr1) = Ok path ->
  (forall e, In e srgb_extensions -> ~ has_extension path e) -> number_type (node_get_i32 nw "pixel_data_type") (sh_block A) ty ->
  file_cropped (node_get_i32 nw "crop_on_write") path cropped ->
  exists img co, holds (cl_disk cl') (path, img, co) /\
    developed (nx_powf (x_numerics x)) l ty (if cropped then sh_display A else sh_data A) A img.
Proof. exact @program_developed. Qed.
Print Assumptions C124_files.

(* ------------------------------ example ------------------------------ *)

(** A reader of a picture of two pixels in a display window of four by four, two
    grades, and a writer that cuts to the display window. *)
Definition dev_disk : disk := [([98], blank)].
Definition dev_path : list Z := [111; 46; 101; 120; 114].
Definition dev_made : list ccall :=
  [CSetCapacity 0 193600; CCreate 0 TRead (ById 1); CSet 0 (Handle TRead 1) (WStr "file_path" [98]);
   CCreate 0 TGrade (ById 2); CSet 0 (Handle TGrade 2) (WF32 "gain_g" 1073741824);
   CCreate 0 TGrade (ById 3); CSet 0 (Handle TGrade 3) (WF32 "offset_r" 1065353216);
   CCreate 0 TWrite (ById 4); CSet 0 (Handle TWrite 4) (WStr "file_path" dev_path); CSet 0 (Handle TWrite 4) (WI32 "execute" 1); CSet 0 (Handle TWrite 4) (WI32 "enable" 1);
   CSet 0 (Handle TWrite 4) (WI32 "crop_on_write" 1);
   CConnect 0 (Handle TRead 1) (Handle TGrade 2) 0; CConnect 0 (Handle TGrade 2) (Handle TGrade 3) 0; CConnect 0 (Handle TGrade 3) (Handle TWrite 4) 0].
Definition dev_calls : list (ccall * reply) := Eval vm_compute in match prepare (client_new dev_disk) dev_made with Some (h, _) => h | None => [] end.
Definition dev_graph : graph node stream := Eval vm_compute in
  match prepare (client_new dev_disk) dev_made with Some (_, cl) => cl_graphs cl 0%nat | None => graph_new stream_new end.
Definition dev_read : node := setup TRead 1 [WStr "file_path" [98]].
Definition dev_gain : node := setup TGrade 2 [WF32 "gain_g" 1073741824].
Definition dev_offset : node := setup TGrade 3 [WF32 "offset_r" 1065353216].
Definition dev_write : node := setup TWrite 4 [WStr "file_path" dev_path; WI32 "execute" 1; WI32 "enable" 1; WI32 "crop_on_write" 1].
Definition dev_end := Eval vm_compute in PropertiesWrite.outcome dev_graph 4 [frame0] (World (with_capacity 193600) dev_disk).
Definition dev_keys : list (list Z) := Eval vm_compute in nodup (list_eq_dec Z.eq_dec) (keys_of (snd dev_end)).
Definition dev_setting : setting disk := Setting dev_keys (fun q => bytes_eqb [98] q) dev_disk 0.
Definition dev_nodes : list (Z * node) := [(1, dev_read); (2, dev_gain); (3, dev_offset); (4, dev_write)].

Lemma dev_wf id n : In (id, n) dev_nodes -> HashSpec.wf_block (nd_attrs n).
Proof.
  intro I. repeat (destruct I as [I|I]; [injection I as <- <-; apply kept_wf; intros w Q; repeat (destruct Q as [<-|Q]; [cbn; intuition lia|]); destruct Q|]). destruct I.
Qed.
Lemma dev_tame : Forall (tame Debug demo dev_setting) (snd dev_end).
Proof.
  assert (K : Forall (fun q : node * spec_float * list stream => let '(n, fr, ins) := q in
    (exists e, In e dev_nodes /\ alike n (snd e)) /\ fr = frame0 /\
    exists l, cache_hash_bytes Debug (x_expand demo) (nd_type n) (nd_attrs n) fr (map st_hash ins) = Ok l /\ In l dev_keys) (snd dev_end)).
  { unfold dev_end. cbn [snd]. repeat apply Forall_cons; try apply Forall_nil;
      (split; [|split; [reflexivity|eexists; split; [vm_compute; reflexivity|vm_compute; tauto]]]);
      first [exists (1, dev_read); split; [cbn; tauto|split; vm_compute; reflexivity]|exists (2, dev_gain); split; [cbn; tauto|split; vm_compute; reflexivity]
            |exists (3, dev_offset); split; [cbn; tauto|split; vm_compute; reflexivity]|exists (4, dev_write); split; [cbn; tauto|split; vm_compute; reflexivity]]. }
  revert K. apply Forall_impl. intros [[n fr] ins] (((id, n0) & IN & T & A) & -> & K). cbn [snd] in T, A.
  unfold tame. cbv zeta. split; [rewrite A; exact (dev_wf _ _ IN)|]. split; [exact K|]. rewrite T, A. clear K.
  repeat (destruct IN as [IN|IN]; [injection IN as <- <-|]); [..|destruct IN]; (split; [intros _ _; exact I|]).
  - right. split; [reflexivity|]. intros path Q. vm_compute in Q. injection Q as <-. reflexivity.
  - intros flag suffix Q Z0. destruct Q as [Q|[Q|[Q|[Q|[]]]]]; injection Q as <- <-; try (vm_compute in Z0; discriminate Z0).
    intros a IA. repeat (destruct IA as [<-|IA]; [vm_compute; reflexivity|]). destruct IA.
  - intros flag suffix Q Z0. destruct Q as [Q|[Q|[Q|[Q|[]]]]]; injection Q as <- <-; try (vm_compute in Z0; discriminate Z0).
    intros a IA. repeat (destruct IA as [<-|IA]; [vm_compute; reflexivity|]). destruct IA.
  - intros _ _ path Q. vm_compute in Q. injection Q as <-. reflexivity.
Qed.
Lemma dev_described id n : described 0 dev_calls id = Some n -> exists n0, In (id, n0) dev_nodes /\ alike n n0.
Proof.
  intro H. assert (K : In id [1; 2; 3; 4]).
  { destruct (described_created 0 dev_calls id ltac:(congruence)) as (t & how & r & I & <-). unfold dev_calls in I.
    repeat (destruct I as [I|I]; [try discriminate I; injection I; intros; subst; cbn [creation_id In]; tauto|]). destruct I. }
  destruct K as [<-|[<-|[<-|[<-|[]]]]]; vm_compute in H; injection H as <-;
    [exists dev_read|exists dev_gain|exists dev_offset|exists dev_write]; (split; [cbn; tauto|split; vm_compute; reflexivity]).
Qed.
Lemma dev_links a b s : connected 0 dev_calls a b s -> In (a, b, s) [(1, 2, 0); (2, 3, 0); (3, 4, 0)].
Proof.
  intro C. destruct (connected_made _ _ _ _ _ C) as (n & m & r & I & A & B). unfold dev_calls in I.
  repeat (destruct I as [I|I]; [try discriminate I; injection I; intros; subst; cbn [hd_id] in *; vm_compute in C; try discriminate C; cbn; auto|]). destruct I.
Qed.
Lemma dev_fed : fed_by 0 dev_calls 1 [] /\ fed_by 0 dev_calls 2 [1] /\ fed_by 0 dev_calls 3 [2] /\ fed_by 0 dev_calls 4 [3].
Proof.
  split; [|split; [|split]].
  - apply (fed_check 0 dev_calls _ dev_links 1 []); [reflexivity|reflexivity|constructor].
  - apply (fed_check 0 dev_calls _ dev_links 2 [(0, 1)]); [vm_compute; reflexivity|reflexivity|repeat constructor].
  - apply (fed_check 0 dev_calls _ dev_links 3 [(0, 2)]); [vm_compute; reflexivity|reflexivity|repeat constructor].
  - apply (fed_check 0 dev_calls _ dev_links 4 [(0, 3)]); [vm_compute; reflexivity|reflexivity|repeat constructor].
Qed.
Lemma dev_fine : fine_disk dev_disk.
Proof.
  intros path i. cbn [dev_disk disk_find].
  destruct (bytes_eqb [98] path); [intros [= <-]|discriminate].
  unfold fine_image, fine_block, PixelSpec.wf_block, PixelSpec.placed, SafeSpec.within, window_in; cbn; repeat split; try lia; try reflexivity; auto.
Qed.
Lemma dev_past calls : forallb prog_calm calls = true -> forall h0 cl h cl',
  neat_past Debug demo dev_setting insertion_sort area fine_disk h0 cl -> prepare cl calls = Some (h, cl') ->
  neat_past Debug demo dev_setting insertion_sort area fine_disk (h0 ++ h) cl'.
Proof.
  induction calls as [|c calls IH]; intros N h0 cl h cl' P R; cbn [prepare] in R.
  - injection R as <- <-. rewrite app_nil_r. exact P.
  - cbn [forallb] in N. apply andb_prop in N. destruct N as (N1 & N2).
    destruct (client_call Debug demo insertion_sort 99 cl c) as [[[cl1 r]|]|] eqn:EC; try discriminate R.
    destruct (prepare cl1 calls) as [[h1 cl2]|] eqn:E2; [|discriminate R]. injection R as <- <-.
    change (h0 ++ (c, r) :: h1)%list with (h0 ++ [(c, r)] ++ h1)%list. rewrite app_assoc.
    unfold prog_calm in N1. apply andb_prop in N1. destruct N1 as (N1 & N3).
    assert (T : tame_call Debug demo dev_setting insertion_sort cl 99 c).
    { destruct c; cbn in N1 |- *; try exact I; try discriminate N1. }
    assert (NC : neat_call Debug area h0 c).
    { destruct c; try discriminate N1; try exact I. apply Z.eqb_eq in N3. subst value. split; [unfold two64; lia|]. intros _. unfold largest, area, two64. cbn. lia. }
    apply (IH N2 _ _ _ _ (np_call _ _ _ _ _ _ _ _ _ _ _ _ P T NC EC) E2).
Qed.

(** All conditions hold of this program; by [C124_files] the file is the graded
    picture in the display window.  The pixel (1, 1), first (0, 1, 0, 1), is
    (1, 2, 0, 1) in the file. *)
Definition dev_out : shared := Eval vm_compute in match disk_find dev_path (w_disk (snd (fst dev_end))) with Some i => i | None => blank end.
Example C124_example : exists cl cl' grades, neat_past Debug demo dev_setting insertion_sort area fine_disk dev_calls cl /\ only_builds 0 dev_calls /\
  grades_after 0 dev_calls 1 3 grades /\ length grades = 2%nat /\
  client_call Debug demo insertion_sort 99 cl (CExecute 0 (Handle TWrite 4) [frame0] 0) = Some (Ok (cl', RStatus ExSuccess)) /\
  disk_find dev_path (cl_disk cl') = Some dev_out /\
  developed (nx_powf (x_numerics demo)) grades Float32 (BBox 0 0 4 4) blank dev_out /\
  map (fun c : Z => PixelSpec.pixel_val (sh_block blank) (sh_data blank) 1 1 c) [0; 1; 2; 3] = map (fun v => Some (PixelSpec.EF v)) [f32_zero; f32_one; f32_zero; f32_one] /\
  map (fun c : Z => PixelSpec.pixel_val (sh_block dev_out) (sh_data dev_out) 1 1 c) [0; 1; 2; 3] = map (fun v => Some (PixelSpec.EF v)) [f32_one; f32_of_bits 1073741824; f32_zero; f32_one].
Proof.
  destruct demo_keys as (CP & DU & _). pose proof dev_tame as L.
  destruct (prepare (client_new dev_disk) dev_made) as [[h cl]|] eqn:E; [|vm_compute in E; discriminate E].
  assert (HH : h = dev_calls) by (vm_compute in E; injection E as <- _; reflexivity).
  assert (P : neat_past Debug demo dev_setting insertion_sort area fine_disk h cl).
  { refine (dev_past dev_made eq_refl [] (client_new dev_disk) h cl (np_new _ _ _ _ _ _ dev_disk _ _) E); [intros q Q; split; reflexivity|exact dev_fine]. }
  assert (S : cl_graphs cl 0%nat = dev_graph /\ cl_caches cl 0%nat = Some (with_capacity 193600) /\ cl_disk cl = dev_disk).
  { vm_compute in E. injection E as _ <-. split; [reflexivity|split; reflexivity]. }
  destruct S as (G & C & DK). subst h. clear E.
  assert (NC : no_collisions (x_digest demo) (SoundSpec.used dev_setting)) by (apply collision_check; vm_compute; reflexivity).
  assert (NZ : forall l, In l (SoundSpec.used dev_setting) -> x_digest demo l <> 0).
  { intros l IL. unfold dev_setting, SoundSpec.used, dev_keys in IL. repeat (destruct IL as [<-|IL]; [vm_compute; discriminate|]). destruct IL. }
  pose proof (proj2 (proj2 kept_surroundings) dev_setting) as KS.
  assert (OB : only_builds 0 dev_calls).
  { apply (only_buildsb_ok 0 _ []); [intros h1 call r h2 E; destruct h1; discriminate E|vm_compute; reflexivity]. }
  assert (CA : ProgramSpec.all_careful Debug area 0 dev_calls).
  { intros id n l DN _. destruct (dev_described id n DN) as (n0 & IN & T & A). apply (SafeFacts.careful_key Debug area n0); auto. split; [exact (dev_wf _ _ IN)|].
    repeat (destruct IN as [IN|IN]; [injection IN as <- <-|]); [..|destruct IN]; try exact I. intros _ _; vm_compute; discriminate. }
  destruct dev_fed as (F1 & F2 & F3 & F4).
  assert (DW : described 0 dev_calls (hd_id (Handle TWrite 4)) <> None) by (vm_compute; discriminate).
  assert (AU : all_used 0 dev_calls (hd_id (Handle TWrite 4))).
  { intros a n l _ DN FB. destruct (dev_described _ _ DN) as (n0 & IN & T & _). rewrite T.
    repeat (destruct IN as [IN|IN]; [injection IN as <- <-|]); [..|destruct IN]; (split; [|discriminate]);
      [rewrite (fed_unique _ _ _ _ _ FB F1)|rewrite (fed_unique _ _ _ _ _ FB F2)|rewrite (fed_unique _ _ _ _ _ FB F3)|rewrite (fed_unique _ _ _ _ _ FB F4)]; cbn; lia. }
  assert (NG : ~ gone 0 dev_calls (hd_id (Handle TWrite 4))).
  { intros (n & r & I & _). unfold dev_calls in I. repeat (destruct I as [I|I]; [discriminate I|]). destruct I. }
  assert (SH : shaped 0 dev_calls (hd_id (Handle TWrite 4))).
  { left. split.
    - intros a b b' s s' _ _ C1 C2. apply dev_links in C1. apply dev_links in C2.
      destruct C1 as [C1|[C1|[C1|[]]]], C2 as [C2|[C2|[C2|[]]]]; congruence.
    - intros b s _ C1. apply dev_links in C1. destruct C1 as [C1|[C1|[C1|[]]]]; cbn [hd_id] in C1; congruence. }
  assert (X : execute (recording (node_ops Debug demo)) insertion_sort 99 dev_graph 4 [frame0] (World (with_capacity 193600) dev_disk, []) =
      Some (Ok (fst (fst dev_end), (snd (fst dev_end), snd dev_end), ExSuccess))) by (vm_compute; reflexivity).
  pose proof (recording_faithful _ _ _ _ _ _ _ _ _ _ _ _ X) as PL.
  assert (TC : tame_call Debug demo dev_setting insertion_sort cl 99 (CExecute 0 (Handle TWrite 4) [frame0] 0)).
  { apply (calm_run _ cl 0 (Handle TWrite 4) [frame0] (with_capacity 193600) (fst (fst dev_end)) (snd (fst dev_end)) (snd dev_end) ExSuccess); [rewrite G, DK; exact X|exact C|exact L]. }
  assert (Q : exists cl', client_call Debug demo insertion_sort 99 cl (CExecute 0 (Handle TWrite 4) [frame0] 0) = Some (Ok (cl', RStatus ExSuccess)) /\ cl_disk cl' = w_disk (snd (fst dev_end))).
  { eexists. cbn [client_call]. unfold execute_call. rewrite C, G, DK. cbn [hd_id]. rewrite PL. split; reflexivity. }
  destruct Q as (cl' & X' & E').
  assert (R : runs (CExecute 0 (Handle TWrite 4) [frame0] 0) 0 (Handle TWrite 4) ([] ++ [frame0])) by (exists 0%nat; now left).
  assert (GR : exists grades, grades_after 0 dev_calls 1 3 grades /\ length grades = 2%nat).
  { eexists. split; [eapply (more_grades _ _ _ 2 3); [eapply (more_grades _ _ _ 1 2); [apply no_grades|vm_compute; reflexivity|reflexivity|exact F2]|vm_compute; reflexivity|reflexivity|exact F3]|reflexivity]. }
  destruct GR as (grades & GR & GL).
  assert (AP : apart (fun fr => ProgramSpec.outcome demo Debug (cl_disk cl) fr 0 dev_calls) ([] ++ [frame0])).
  { intros fr1 fr2 a1 a2 [[p1 i1] c1] [[p2 i2] c2] [<-|[]] [<-|[]] (n1 & s1 & v1 & (D1 & T1 & _) & _) (n2 & s2 & v2 & (D2 & T2 & _) & _) _. split; [reflexivity|].
    destruct (dev_described _ _ D1) as (m1 & I1 & K1 & _). destruct (dev_described _ _ D2) as (m2 & I2 & K2 & _). rewrite T1 in K1. rewrite T2 in K2.
    repeat (destruct I1 as [I1|I1]; [injection I1 as <- <-; try discriminate K1|]); [|destruct I1].
    repeat (destruct I2 as [I2|I2]; [injection I2 as <- <-; try discriminate K2|]); [|destruct I2]. reflexivity. }
  destruct (described 0 dev_calls 4) as [nw|] eqn:DNW; [|vm_compute in DNW; discriminate DNW].
  assert (NW : writing 0 dev_calls 4 nw 3 /\ expand_string (x_expand demo) (node_get_str nw "file_path") (frame_number frame0) = Ok dev_path /\
    number_type (node_get_i32 nw "pixel_data_type") (sh_block blank) Float32 /\ file_cropped (node_get_i32 nw "crop_on_write") dev_path true).
  { pose proof DNW as Q. vm_compute in Q. injection Q as <-. split; [|vm_compute; auto]. split; [exact DNW|]. split; [reflexivity|]. split; [vm_compute; discriminate|]. split; [vm_compute; discriminate|exact F4]. }
  destruct NW as (WR & EX & NT & CR).
  destruct (described 0 dev_calls 1) as [nr|] eqn:DNR; [|vm_compute in DNR; discriminate DNR].
  assert (RD : reads demo (cl_disk cl) frame0 nr blank).
  { rewrite DK. vm_compute in DNR. injection DNR as <-. split; [reflexivity|]. split; [vm_compute; discriminate|]. exists [98]. vm_compute. auto. }
  assert (LR : linear_rgba blank) by (unfold linear_rgba, PixelSpec.wf_block, PixelSpec.placed; cbn; repeat split; lia).
  assert (NS : forall e, In e srgb_extensions -> ~ has_extension dev_path e).
  { intros e IE (stem & ES). repeat (destruct IE as [<-|IE]; [apply (f_equal (@rev Z)) in ES; rewrite rev_app_distr in ES; vm_compute in ES; discriminate ES|]). destruct IE. }
  destruct (C124_files disk Debug demo area fine_disk area_roomy demo_sane demo_resamples insertion_sort insertion_sorts dev_setting CP NC DU NZ KS
    dev_calls cl 0%nat (Handle TWrite 4) [] frame0 _ 99%nat cl' _ each_holds P OB CA DW NG SH AU R TC X' demo_keeps AP
    frame0 4 nw 3 1 nr blank grades dev_path Float32 true (or_introl eq_refl) (above_here _ _ _) WR DNR RD LR GR EX NS NT CR) as (img & co & HO & DV).
  assert (OUT : disk_find dev_path (cl_disk cl') = Some dev_out) by (rewrite E'; vm_compute; reflexivity).
  unfold each_holds, place in HO. cbn [fst snd] in HO. rewrite OUT in HO. injection HO as <-.
  exists cl, cl', grades. split; [exact P|]. split; [exact OB|]. split; [exact GR|]. split; [exact GL|]. split; [exact X'|]. split; [exact OUT|]. split; [exact DV|].
  split; vm_compute; reflexivity.
Qed.

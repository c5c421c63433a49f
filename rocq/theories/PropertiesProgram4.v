(** C119: programs that have set up the same render the same files. *)
From Coq Require String.
Import String.StringSyntax.
From Coq Require Import Lia Floats.SpecFloat.
From Verif Require Import Machine CacheModel BBoxModel BBoxSpec MergeSpec AttrModel AttrSpec HashModel HashSpec LutSpec StreamModel GraphModel GraphSpec GraphSim NodeModel NodeExamples FrameModel SoundSpec SafeSpec TotalSpec SceneSpec EachSpec
  LutProofs3 GraphWalk AlikeSpec WriteSpec ClientModel ClientSpec ClientSpec2 ClientProofs ProgramSpec ProgramProofs2 ProgramSpec2 ProgramProofs3 ProgramSpec4 ProgramProofs5 ChainSpec AttrProofs PropertiesNode PropertiesSafe PropertiesScene PropertiesShow2 PropertiesTotal PropertiesWrite PropertiesClient PropertiesClient2 PropertiesProgram.
Local Open Scope string_scope.

(** Two programs that start with the same files and execute writers with the same
    settings, fed by compositions that are built the same, for the same frames,
    end with the same files. *)
Theorem C119_same_files : forall D p (x : externals D) B1 B2 ok1 ok2 srt1 srt2 (E1 E2 : setting D),
  clean_paths (x_expand x) -> digest_u64 (x_digest x) ->
  (forall E, E = E1 \/ E = E2 -> no_collisions (x_digest x) (SoundSpec.used E) /\ (forall l, In l (SoundSpec.used E) -> x_digest x l <> 0) /\ keeps_sources x E) ->
  roomy B1 -> roomy B2 -> sane x B1 ok1 -> sane x B2 ok2 -> resampler_works x B1 -> resampler_works x B2 -> sorts srt1 -> sorts srt2 ->
  forall h1 h2 cl1 cl2 i1 i2 n1 n2 frames call1 call2 fuel1 fuel2 cl1' cl2',
  neat_past p x E1 srt1 B1 ok1 h1 cl1 -> only_builds i1 h1 -> ProgramSpec.all_careful p B1 i1 h1 -> all_used i1 h1 (hd_id n1) ->
  neat_past p x E2 srt2 B2 ok2 h2 cl2 -> only_builds i2 h2 -> ProgramSpec.all_careful p B2 i2 h2 -> all_used i2 h2 (hd_id n2) ->
  runs call1 i1 n1 frames -> tame_call p x E1 srt1 cl1 fuel1 call1 -> client_call p x srt1 fuel1 cl1 call1 = Some (Ok (cl1', RStatus ExSuccess)) ->
  runs call2 i2 n2 frames -> tame_call p x E2 srt2 cl2 fuel2 call2 -> client_call p x srt2 fuel2 cl2 call2 = Some (Ok (cl2', RStatus ExSuccess)) ->
  forall w1 w2 src1 src2 R, renders i1 h1 (hd_id n1) w1 src1 -> renders i2 h2 (hd_id n2) w2 src2 -> (forall k name, get_value k name w1 = get_value k name w2) ->
  same_build i1 i2 h1 h2 R -> R src1 src2 -> stays_definite x (cl_disk cl2) frames i2 h2 ->
  cl_disk cl1 = cl_disk cl2 -> cl_disk cl1' = cl_disk cl2'.
Proof. exact @programs_render. Qed.
Print Assumptions C119_same_files.

(* ------------------------------ example ------------------------------ *)

Definition writer_made (i : nat) (id : Z) : list ccall :=
  [CCreate i TWrite (ById id); CSet i (Handle TWrite id) (WStr "file_path" out_path); CSet i (Handle TWrite id) (WI32 "execute" 1); CSet i (Handle TWrite id) (WI32 "enable" 1)].
(** Two readers, a merge and a writer. *)
Definition one_made : list ccall := (CSetCapacity 0 193600 ::
  [CCreate 0 TRead (ById 1); CSet 0 (Handle TRead 1) (WStr "file_path" [97]); CCreate 0 TRead (ById 2); CSet 0 (Handle TRead 2) (WStr "file_path" [98]); CCreate 0 TMerge (ById 3)] ++
  writer_made 0 4 ++ [CConnect 0 (Handle TRead 1) (Handle TMerge 3) 0; CConnect 0 (Handle TRead 2) (Handle TMerge 3) 1; CConnect 0 (Handle TMerge 3) (Handle TWrite 4) 0])%list.
(** The same on another graph from the other end, with a null node after each
    reader and other inputs. *)
Definition two_made : list ccall := (CSetCapacity 0 193600 :: writer_made 3 14 ++
  [CCreate 3 TMerge (ById 13); CConnect 3 (Handle TMerge 13) (Handle TWrite 14) 7; CCreate 3 TNull (ById 15); CCreate 3 TNull (ById 16);
   CConnect 3 (Handle TNull 16) (Handle TMerge 13) 9; CConnect 3 (Handle TNull 15) (Handle TMerge 13) 2; CCreate 3 TRead (ById 12); CCreate 3 TRead (ById 11);
   CConnect 3 (Handle TRead 12) (Handle TNull 16) 0; CConnect 3 (Handle TRead 11) (Handle TNull 15) 0;
   CSet 3 (Handle TRead 12) (WStr "file_path" [98]); CSet 3 (Handle TRead 11) (WStr "file_path" [97])])%list.
Definition calls_of (l : list ccall) : list (ccall * reply) := match prepare (client_new safe_disk) l with Some (h, _) => h | None => [] end.
Definition one_calls : list (ccall * reply) := Eval vm_compute in calls_of one_made.
Definition two_calls : list (ccall * reply) := Eval vm_compute in calls_of two_made.

Lemma calm_past E calls : disk0 E = safe_disk -> forallb prog_calm calls = true -> forall h0 cl h cl',
  neat_past Debug demo E insertion_sort area fine_disk h0 cl -> prepare cl calls = Some (h, cl') ->
  neat_past Debug demo E insertion_sort area fine_disk (h0 ++ h) cl'.
Proof.
  intro D0. induction calls as [|c calls IH]; intros N h0 cl h cl' P R; cbn [prepare] in R.
  - injection R as <- <-. rewrite app_nil_r. exact P.
  - cbn [forallb] in N. apply andb_prop in N. destruct N as (N1 & N2).
    destruct (client_call Debug demo insertion_sort 99 cl c) as [[[cl1 r]|]|] eqn:EC; try discriminate R.
    destruct (prepare cl1 calls) as [[h1 cl2]|] eqn:E2; [|discriminate R]. injection R as <- <-.
    change (h0 ++ (c, r) :: h1)%list with (h0 ++ [(c, r)] ++ h1)%list. rewrite app_assoc.
    unfold prog_calm in N1. apply andb_prop in N1. destruct N1 as (N1 & N3).
    assert (T : tame_call Debug demo E insertion_sort cl 99 c).
    { destruct c; cbn in N1 |- *; try exact I; try discriminate N1. }
    assert (NC : neat_call Debug area h0 c).
    { destruct c; try discriminate N1; try exact I. apply Z.eqb_eq in N3. subst value. split; [unfold two64; lia|]. intros _. unfold largest, area, two64. cbn. lia. }
    apply (IH N2 _ _ _ _ (np_call _ _ _ _ _ _ _ _ _ _ _ _ P T NC EC) E2).
Qed.
Lemma calm_run E cl i n fs c g' w' log st :
  execute (recording (node_ops Debug demo)) insertion_sort 99 (cl_graphs cl i) (hd_id n) fs (World c (cl_disk cl), []) = Some (Ok (g', (w', log), st)) ->
  cl_caches cl 0 = Some c -> Forall (tame Debug demo E) log -> tame_execution Debug demo E insertion_sort cl 99 i n fs 0.
Proof.
  intros X C F c1 g1 w1 log1 st1 C1 X1. rewrite C in C1. injection C1 as <-. rewrite X in X1. injection X1 as _ _ <- _. exact F.
Qed.

Lemma render_builds : only_builds 0 one_calls /\ only_builds 3 two_calls.
Proof.
  assert (N : forall i, only_builds i []) by (intros i h1 call r h2 E; destruct h1; discriminate E).
  split; [apply (only_buildsb_ok 0 _ [] (N 0%nat))|apply (only_buildsb_ok 3 _ [] (N 3%nat))]; vm_compute; reflexivity.
Qed.
Lemma one_nodes id n : described 0 one_calls id = Some n ->
  (id = 1 /\ alike n kept_read) \/ (id = 2 /\ alike n kept_other) \/ (id = 3 /\ alike n kept_merge) \/ (id = 4 /\ alike n (out_write 4)).
Proof.
  intro H. assert (K : In id [1; 2; 3; 4]).
  { destruct (described_created 0 one_calls id ltac:(congruence)) as (t & how & r & I & <-). unfold one_calls in I.
    repeat (destruct I as [I|I]; [try discriminate I; injection I; intros; subst; cbn [creation_id In]; tauto|]). destruct I. }
  destruct K as [<-|[<-|[<-|[<-|[]]]]]; vm_compute in H; injection H as <-.
  - left. split; [reflexivity|split; vm_compute; reflexivity].
  - right. left. split; [reflexivity|split; vm_compute; reflexivity].
  - right. right. left. split; [reflexivity|split; vm_compute; reflexivity].
  - right. right. right. split; [reflexivity|split; vm_compute; reflexivity].
Qed.
Lemma two_nodes id n : described 3 two_calls id = Some n ->
  (id = 11 /\ alike n kept_read) \/ (id = 12 /\ alike n kept_other) \/ (id = 13 /\ alike n kept_merge) \/ (id = 14 /\ alike n (out_write 4)) \/
  (id = 15 /\ alike n pass1) \/ (id = 16 /\ alike n pass1).
Proof.
  intro H. assert (K : In id [11; 12; 13; 14; 15; 16]).
  { destruct (described_created 3 two_calls id ltac:(congruence)) as (t & how & r & I & <-). unfold two_calls in I.
    repeat (destruct I as [I|I]; [try discriminate I; injection I; intros; subst; cbn [creation_id In]; tauto|]). destruct I. }
  destruct K as [<-|[<-|[<-|[<-|[<-|[<-|[]]]]]]]; vm_compute in H; injection H as <-.
  - left. split; [reflexivity|split; vm_compute; reflexivity].
  - right. left. split; [reflexivity|split; vm_compute; reflexivity].
  - right. right. left. split; [reflexivity|split; vm_compute; reflexivity].
  - right. right. right. left. split; [reflexivity|split; vm_compute; reflexivity].
  - right. right. right. right. left. split; [reflexivity|split; vm_compute; reflexivity].
  - right. right. right. right. right. split; [reflexivity|split; vm_compute; reflexivity].
Qed.
Lemma one_known id n : described 0 one_calls id = Some n -> exists n0, In n0 all_nodes /\ alike n n0.
Proof.
  intro H. destruct (one_nodes _ _ H) as [(_ & K)|[(_ & K)|[(_ & K)|(_ & K)]]]; eexists; (split; [|exact K]); cbn [In all_nodes]; tauto.
Qed.
Lemma two_known id n : described 3 two_calls id = Some n -> exists n0, In n0 all_nodes /\ alike n n0.
Proof.
  intro H. destruct (two_nodes _ _ H) as [(_ & K)|[(_ & K)|[(_ & K)|[(_ & K)|[(_ & K)|(_ & K)]]]]]; eexists; (split; [|exact K]); cbn [In all_nodes]; tauto.
Qed.
Lemma render_careful i h : (forall id n, described i h id = Some n -> exists n0, In n0 all_nodes /\ alike n n0) -> ProgramSpec.all_careful Debug area i h.
Proof.
  intros H id n l DN _. destruct (H id n DN) as (n0 & I0 & T & A). apply (SafeFacts.careful_key Debug area n0); auto. now apply PropertiesWrite.all_careful.
Qed.
Lemma one_links a b s : connected 0 one_calls a b s -> In (a, b, s) [(1, 3, 0); (2, 3, 1); (3, 4, 0)].
Proof.
  intro C. destruct (connected_made _ _ _ _ _ C) as (n & m & r & I & A & B). unfold one_calls in I.
  repeat (destruct I as [I|I]; [try discriminate I; injection I; intros; subst; cbn [hd_id] in *; vm_compute in C; try discriminate C; cbn; auto|]). destruct I.
Qed.
Lemma two_links a b s : connected 3 two_calls a b s -> In (a, b, s) [(11, 15, 0); (12, 16, 0); (15, 13, 2); (16, 13, 9); (13, 14, 7)].
Proof.
  intro C. destruct (connected_made _ _ _ _ _ C) as (n & m & r & I & A & B). unfold two_calls in I.
  repeat (destruct I as [I|I]; [try discriminate I; injection I; intros; subst; cbn [hd_id] in *; vm_compute in C; try discriminate C; cbn; auto 8|]). destruct I.
Qed.
Lemma fed_check i h (links : list (Z * Z * Z)) : (forall a b s, connected i h a b s -> In (a, b, s) links) ->
  forall id ss, forallb (fun e : Z * Z => match feeder i h id (fst e) with Some a => a =? snd e | None => false end) ss = true ->
  forallb (fun e : Z * Z * Z => let '(a, b, s) := e in negb (b =? id) || existsb (fun q : Z * Z => (fst q =? s) && (snd q =? a)) ss) links = true ->
  Sorted.StronglySorted Z.lt (map fst ss) -> fed_by i h id (map snd ss).
Proof.
  intros L id ss F1 F2 S. exists ss. split; [reflexivity|]. split; [exact S|]. rewrite forallb_forall in F1, F2. intros s src. split.
  - intro I. specialize (F1 _ I). cbn [fst snd] in F1. unfold feeder in F1. unfold connected. destruct (fold_left _ _ _); [|discriminate F1]. apply Z.eqb_eq in F1. now subst.
  - intro C. specialize (F2 _ (L _ _ _ C)). cbv beta iota in F2. rewrite Z.eqb_refl in F2. cbn [negb orb] in F2. apply existsb_exists in F2.
    destruct F2 as ((s', a') & I & E). cbn [fst snd] in E. apply andb_prop in E. destruct E as (E1 & E2). apply Z.eqb_eq in E1, E2. now subst.
Qed.
Lemma one_fed : fed_by 0 one_calls 1 [] /\ fed_by 0 one_calls 2 [] /\ fed_by 0 one_calls 3 [1; 2] /\ fed_by 0 one_calls 4 [3].
Proof.
  split; [|split; [|split]].
  - apply (fed_check 0 one_calls _ one_links 1 []); [reflexivity|reflexivity|constructor].
  - apply (fed_check 0 one_calls _ one_links 2 []); [reflexivity|reflexivity|constructor].
  - apply (fed_check 0 one_calls _ one_links 3 [(0, 1); (1, 2)]); [vm_compute; reflexivity|reflexivity|repeat constructor].
  - apply (fed_check 0 one_calls _ one_links 4 [(0, 3)]); [vm_compute; reflexivity|reflexivity|repeat constructor].
Qed.
Lemma two_fed : fed_by 3 two_calls 11 [] /\ fed_by 3 two_calls 12 [] /\ fed_by 3 two_calls 13 [15; 16] /\ fed_by 3 two_calls 14 [13] /\
  fed_by 3 two_calls 15 [11] /\ fed_by 3 two_calls 16 [12].
Proof.
  split; [|split; [|split; [|split; [|split]]]].
  - apply (fed_check 3 two_calls _ two_links 11 []); [reflexivity|reflexivity|constructor].
  - apply (fed_check 3 two_calls _ two_links 12 []); [reflexivity|reflexivity|constructor].
  - apply (fed_check 3 two_calls _ two_links 13 [(2, 15); (9, 16)]); [vm_compute; reflexivity|reflexivity|repeat constructor].
  - apply (fed_check 3 two_calls _ two_links 14 [(7, 13)]); [vm_compute; reflexivity|reflexivity|repeat constructor].
  - apply (fed_check 3 two_calls _ two_links 15 [(0, 11)]); [vm_compute; reflexivity|reflexivity|repeat constructor].
  - apply (fed_check 3 two_calls _ two_links 16 [(0, 12)]); [vm_compute; reflexivity|reflexivity|repeat constructor].
Qed.
Lemma one_used : all_used 0 one_calls 4.
Proof.
  destruct one_fed as (F1 & F2 & F3 & F4). intros a n l _ DN FB. destruct (one_nodes _ _ DN) as [(-> & K)|[(-> & K)|[(-> & K)|(-> & K)]]]; rewrite (proj1 K); (split; [|discriminate]).
  - rewrite (fed_unique _ _ _ _ _ FB F1). cbn. lia.
  - rewrite (fed_unique _ _ _ _ _ FB F2). cbn. lia.
  - rewrite (fed_unique _ _ _ _ _ FB F3). cbn. lia.
  - rewrite (fed_unique _ _ _ _ _ FB F4). cbn. lia.
Qed.
Lemma two_used : all_used 3 two_calls 14.
Proof.
  destruct two_fed as (F1 & F2 & F3 & F4 & F5 & F6). intros a n l _ DN FB.
  destruct (two_nodes _ _ DN) as [(-> & K)|[(-> & K)|[(-> & K)|[(-> & K)|[(-> & K)|(-> & K)]]]]]; rewrite (proj1 K); (split; [|discriminate]).
  - rewrite (fed_unique _ _ _ _ _ FB F1). cbn. lia.
  - rewrite (fed_unique _ _ _ _ _ FB F2). cbn. lia.
  - rewrite (fed_unique _ _ _ _ _ FB F3). cbn. lia.
  - rewrite (fed_unique _ _ _ _ _ FB F4). cbn. lia.
  - rewrite (fed_unique _ _ _ _ _ FB F5). cbn. lia.
  - rewrite (fed_unique _ _ _ _ _ FB F6). cbn. lia.
Qed.
Lemma one_renders : exists w, renders 0 one_calls 4 w 3 /\ alike w (out_write 4).
Proof.
  destruct (described 0 one_calls 4) as [w|] eqn:DW; [|vm_compute in DW; discriminate DW].
  assert (K : alike w (out_write 4)) by (destruct (one_nodes _ _ DW) as [(Q & _)|[(Q & _)|[(Q & _)|(_ & K)]]]; try discriminate Q; exact K).
  exists w. split; [|exact K]. split.
  - split; [exact DW|]. unfold node_get_i32. rewrite (proj1 K), (proj2 K). split; [reflexivity|]. split; [vm_compute; discriminate|]. split; [vm_compute; discriminate|apply one_fed].
  - intros a m _ NE DM. destruct (one_nodes _ _ DM) as [(_ & Q)|[(_ & Q)|[(_ & Q)|(-> & _)]]]; try (unfold silent; rewrite (proj1 Q); discriminate). now contradiction NE.
Qed.
Lemma two_renders : exists w, renders 3 two_calls 14 w 13 /\ alike w (out_write 4).
Proof.
  destruct (described 3 two_calls 14) as [w|] eqn:DW; [|vm_compute in DW; discriminate DW].
  assert (K : alike w (out_write 4)) by (destruct (two_nodes _ _ DW) as [(Q & _)|[(Q & _)|[(Q & _)|[(_ & K)|[(Q & _)|(Q & _)]]]]]; try discriminate Q; exact K).
  exists w. split; [|exact K]. split.
  - split; [exact DW|]. unfold node_get_i32. rewrite (proj1 K), (proj2 K). split; [reflexivity|]. split; [vm_compute; discriminate|]. split; [vm_compute; discriminate|apply two_fed].
  - intros a m _ NE DM. destruct (two_nodes _ _ DM) as [(_ & Q)|[(_ & Q)|[(_ & Q)|[(-> & _)|[(_ & Q)|(_ & Q)]]]]]; try (unfold silent; rewrite (proj1 Q); discriminate). now contradiction NE.
Qed.
Lemma alike_reads n m n0 : alike n n0 -> alike m n0 -> nd_type n = nd_type m /\ forall k name, get_value k name n = get_value k name m.
Proof.
  intros (T1 & A1) (T2 & A2). split; [congruence|]. intros k name. pose proof (AttrProofs.reads_attrs k name n m) as X. rewrite T1, T2, A1, A2 in X.
  specialize (X eq_refl eq_refl). injection X; auto.
Qed.

(** The merges and what feeds them. *)
Definition render_pairs (a b : Z) : Prop := In (a, b) [(3, 13); (1, 15); (2, 16)].
Lemma render_build : same_build 0 3 one_calls two_calls render_pairs.
Proof.
  destruct one_fed as (F1 & F2 & F3 & F4), two_fed as (G1 & G2 & G3 & G4 & G5 & G6).
  assert (NODE : forall a b n0, (exists n m, described 0 one_calls a = Some n /\ described 3 two_calls b = Some m /\ alike n n0 /\ alike m n0) ->
    exists n m, described 0 one_calls a = Some n /\ described 3 two_calls b = Some m /\ nd_type n = nd_type m /\ forall k name, get_value k name n = get_value k name m).
  { intros a b n0 (n & m & DN & DM & KN & KM). exists n, m. split; [exact DN|]. split; [exact DM|]. exact (alike_reads n m n0 KN KM). }
  assert (PASS : forall a b, (exists n, described 3 two_calls a = Some n /\ alike n pass1) -> fed_by 3 two_calls a [b] -> passing 3 two_calls a b).
  { intros a b (n & DN & K) F. refine (passing_on 3 two_calls a n b b DN _ F (passing_here _ _ _)). unfold idle. rewrite (proj1 K). exact I. }
  intros a b [P|[P|[P|[]]]]; injection P as <- <-.
  - destruct (NODE 3 13 kept_merge) as (n & m & DN & DM & T & RD); [do 2 eexists; (split; [vm_compute; reflexivity|]); (split; [vm_compute; reflexivity|]); split; split; vm_compute; reflexivity|].
    exists 3, 13, n, m. split; [constructor|]. split; [constructor|]. repeat (split; [assumption|]). intros l FB. rewrite (fed_unique _ _ _ _ _ FB F3).
    exists [15; 16]. split; [exact G3|]. repeat apply Forall2_cons; try apply Forall2_nil; unfold render_pairs; cbn; auto.
  - destruct (NODE 1 11 kept_read) as (n & m & DN & DM & T & RD); [do 2 eexists; (split; [vm_compute; reflexivity|]); (split; [vm_compute; reflexivity|]); split; split; vm_compute; reflexivity|].
    exists 1, 11, n, m. split; [constructor|]. split; [apply (PASS 15 11); [eexists; split; [vm_compute; reflexivity|split; vm_compute; reflexivity]|exact G5]|].
    repeat (split; [assumption|]). intros l FB. rewrite (fed_unique _ _ _ _ _ FB F1). exists []. split; [exact G1|constructor].
  - destruct (NODE 2 12 kept_other) as (n & m & DN & DM & T & RD); [do 2 eexists; (split; [vm_compute; reflexivity|]); (split; [vm_compute; reflexivity|]); split; split; vm_compute; reflexivity|].
    exists 2, 12, n, m. split; [constructor|]. split; [apply (PASS 16 12); [eexists; split; [vm_compute; reflexivity|split; vm_compute; reflexivity]|exact G6]|].
    repeat (split; [assumption|]). intros l FB. rewrite (fed_unique _ _ _ _ _ FB F2). exists []. split; [exact G2|constructor].
Qed.
Lemma two_definite d frames : stays_definite demo d frames 3 two_calls.
Proof.
  intros d' fr id _ _ a n _ DN. split.
  - destruct (two_known _ _ DN) as (n0 & I0 & T & _). rewrite T. destruct I0 as [<-|[<-|[<-|[<-|[<-|[]]]]]]; discriminate.
  - intros _ _ path _. cbn [demo x_kind]. destruct (disk_find _ _); discriminate.
Qed.
Definition one_run : ccall := CExecuteWhole 0 (Handle TWrite 4) [0; 1] 0.
Definition two_run : ccall := CExecute 3 (Handle TWrite 14) [frame0; frame1] 0.
Definition graph_of (l : list ccall) (i : nat) : graph node stream :=
  match prepare (client_new safe_disk) l with Some (_, cl) => cl_graphs cl i | None => graph_new stream_new end.
Definition one_graph : graph node stream := Eval vm_compute in graph_of one_made 0.
Definition two_graph : graph node stream := Eval vm_compute in graph_of two_made 3.
Definition one_end := Eval vm_compute in outcome one_graph 4 [frame0; frame1] (World (with_capacity 193600) safe_disk).
Definition two_end := Eval vm_compute in outcome two_graph 14 [frame0; frame1] (World (with_capacity 193600) safe_disk).
Lemma one_usual : Forall (usual short_keys) (snd one_end).
Proof. unfold one_end. cbn [snd]. usual_log. Qed.
Lemma two_usual : Forall (usual long_keys) (snd two_end).
Proof. unfold two_end. cbn [snd]. usual_log. Qed.

Definition new_files (d : disk) : Prop := map fst d = [[111; 46; 49; 46; 101; 120; 114]; [111; 46; 48; 46; 101; 120; 114]; [97]; [98]].
Lemma one_past : exists cl cl', neat_past Debug demo (with_keys short_keys) insertion_sort area fine_disk one_calls cl /\ cl_disk cl = safe_disk /\
  tame_call Debug demo (with_keys short_keys) insertion_sort cl 99 one_run /\
  client_call Debug demo insertion_sort 99 cl one_run = Some (Ok (cl', RStatus ExSuccess)) /\ new_files (cl_disk cl').
Proof.
  destruct (prepare (client_new safe_disk) one_made) as [[h cl]|] eqn:E; [|vm_compute in E; discriminate E].
  assert (HH : h = one_calls) by (vm_compute in E; injection E as <- _; reflexivity).
  assert (P : neat_past Debug demo (with_keys short_keys) insertion_sort area fine_disk h cl).
  { refine (calm_past (with_keys short_keys) one_made eq_refl eq_refl [] (client_new safe_disk) h cl (np_new _ _ _ _ _ _ safe_disk _ _) E).
    - intros q Q. split; reflexivity.
    - exact (proj2 safe_world). }
  assert (G : cl_graphs cl 0%nat = one_graph /\ cl_caches cl 0%nat = Some (with_capacity 193600) /\ cl_disk cl = safe_disk).
  { vm_compute in E. injection E as _ <-. vm_compute. repeat split. }
  destruct G as (G & C & DK). clear E. subst h.
  assert (RUN : execute (recording (node_ops Debug demo)) insertion_sort 99 one_graph 4 [frame0; frame1] (World (with_capacity 193600) safe_disk, [])
    = Some (Ok (fst (fst one_end), (snd (fst one_end), snd one_end), ExSuccess))) by (vm_compute; reflexivity).
  pose proof (recording_faithful _ _ _ _ _ _ _ _ _ _ _ _ RUN) as PLAIN.
  eexists cl, _. split; [exact P|]. split; [exact DK|]. split; [|split].
  - unfold one_run. cbn [tame_call]. change (map f64_of_Z [0; 1]) with [frame0; frame1].
    apply (calm_run _ cl 0 (Handle TWrite 4) [frame0; frame1] (with_capacity 193600) (fst (fst one_end)) (snd (fst one_end)) (snd one_end) ExSuccess);
      [rewrite G, DK; exact RUN|exact C|]. exact (usual_tame _ _ one_usual).
  - unfold one_run. cbn [client_call]. unfold execute_call. rewrite C, G, DK. change (map f64_of_Z [0; 1]) with [frame0; frame1]. cbn [hd_id]. rewrite PLAIN. reflexivity.
  - vm_compute. reflexivity.
Qed.
Lemma two_past : exists cl cl', neat_past Debug demo (with_keys long_keys) insertion_sort area fine_disk two_calls cl /\ cl_disk cl = safe_disk /\
  tame_call Debug demo (with_keys long_keys) insertion_sort cl 99 two_run /\
  client_call Debug demo insertion_sort 99 cl two_run = Some (Ok (cl', RStatus ExSuccess)).
Proof.
  destruct (prepare (client_new safe_disk) two_made) as [[h cl]|] eqn:E; [|vm_compute in E; discriminate E].
  assert (HH : h = two_calls) by (vm_compute in E; injection E as <- _; reflexivity).
  assert (P : neat_past Debug demo (with_keys long_keys) insertion_sort area fine_disk h cl).
  { refine (calm_past (with_keys long_keys) two_made eq_refl eq_refl [] (client_new safe_disk) h cl (np_new _ _ _ _ _ _ safe_disk _ _) E).
    - intros q Q. split; reflexivity.
    - exact (proj2 safe_world). }
  assert (G : cl_graphs cl 3%nat = two_graph /\ cl_caches cl 0%nat = Some (with_capacity 193600) /\ cl_disk cl = safe_disk).
  { vm_compute in E. injection E as _ <-. vm_compute. repeat split. }
  destruct G as (G & C & DK). clear E. subst h.
  assert (RUN : execute (recording (node_ops Debug demo)) insertion_sort 99 two_graph 14 [frame0; frame1] (World (with_capacity 193600) safe_disk, [])
    = Some (Ok (fst (fst two_end), (snd (fst two_end), snd two_end), ExSuccess))) by (vm_compute; reflexivity).
  pose proof (recording_faithful _ _ _ _ _ _ _ _ _ _ _ _ RUN) as PLAIN.
  eexists cl, _. split; [exact P|]. split; [exact DK|]. split.
  - apply (calm_run _ cl 3 (Handle TWrite 14) [frame0; frame1] (with_capacity 193600) (fst (fst two_end)) (snd (fst two_end)) (snd two_end) ExSuccess);
      [rewrite G, DK; exact RUN|exact C|]. exact (usual_tame _ _ two_usual).
  - unfold two_run. cbn [client_call]. unfold execute_call. rewrite C, G, DK. cbn [hd_id]. rewrite PLAIN. reflexivity.
Qed.

(** All conditions hold of the two programs, each rendering two frames. *)
Example C119_example : exists cl1 cl2 cl1' cl2' w1 w2,
  (clean_paths (x_expand demo) /\ digest_u64 (x_digest demo) /\
   (forall E, E = with_keys short_keys \/ E = with_keys long_keys -> no_collisions (x_digest demo) (SoundSpec.used E) /\
     (forall l, In l (SoundSpec.used E) -> x_digest demo l <> 0) /\ keeps_sources demo E) /\
   roomy area /\ sane demo area fine_disk /\ resampler_works demo area /\ sorts insertion_sort) /\
  (neat_past Debug demo (with_keys short_keys) insertion_sort area fine_disk one_calls cl1 /\ only_builds 0 one_calls /\
   ProgramSpec.all_careful Debug area 0 one_calls /\ all_used 0 one_calls 4) /\
  (neat_past Debug demo (with_keys long_keys) insertion_sort area fine_disk two_calls cl2 /\ only_builds 3 two_calls /\
   ProgramSpec.all_careful Debug area 3 two_calls /\ all_used 3 two_calls 14) /\
  (runs one_run 0 (Handle TWrite 4) [frame0; frame1] /\ tame_call Debug demo (with_keys short_keys) insertion_sort cl1 99 one_run /\
   client_call Debug demo insertion_sort 99 cl1 one_run = Some (Ok (cl1', RStatus ExSuccess))) /\
  (runs two_run 3 (Handle TWrite 14) [frame0; frame1] /\ tame_call Debug demo (with_keys long_keys) insertion_sort cl2 99 two_run /\
   client_call Debug demo insertion_sort 99 cl2 two_run = Some (Ok (cl2', RStatus ExSuccess))) /\
  renders 0 one_calls 4 w1 3 /\ renders 3 two_calls 14 w2 13 /\ (forall k name, get_value k name w1 = get_value k name w2) /\
  same_build 0 3 one_calls two_calls render_pairs /\ render_pairs 3 13 /\ stays_definite demo (cl_disk cl2) [frame0; frame1] 3 two_calls /\
  cl_disk cl1 = cl_disk cl2 /\ cl_disk cl1' = cl_disk cl2' /\ new_files (cl_disk cl1').
Proof.
  destruct one_past as (cl1 & cl1' & P1 & K1 & T1 & X1 & N1), two_past as (cl2 & cl2' & P2 & K2 & T2 & X2).
  destruct one_renders as (w1 & W1 & A1), two_renders as (w2 & W2 & A2). destruct kept_surroundings as (CP & DU & KS).
  assert (EV : forall E, E = with_keys short_keys \/ E = with_keys long_keys -> no_collisions (x_digest demo) (SoundSpec.used E) /\
     (forall l, In l (SoundSpec.used E) -> x_digest demo l <> 0) /\ keeps_sources demo E).
  { intros E [->| ->]; (split; [apply collision_check; vm_compute; reflexivity|]); (split; [|exact (KS _)]);
      intros l IL; unfold with_keys, SoundSpec.used, short_keys, long_keys in IL; repeat (destruct IL as [<-|IL]; [vm_compute; discriminate|]); destruct IL. }
  assert (R1 : runs one_run 0 (Handle TWrite 4) [frame0; frame1]) by (exists 0%nat; right; exists [0; 1]; split; reflexivity).
  assert (R2 : runs two_run 3 (Handle TWrite 14) [frame0; frame1]) by (exists 0%nat; left; reflexivity).
  assert (RW : resampler_works demo area) by exact demo_resamples.
  assert (SAME : forall k name, get_value k name w1 = get_value k name w2) by (apply (alike_reads w1 w2 (out_write 4)); assumption).
  assert (DD : cl_disk cl1 = cl_disk cl2) by congruence.
  assert (RP : render_pairs 3 13) by now left.
  assert (C1 : ProgramSpec.all_careful Debug area 0 one_calls) by exact (render_careful _ _ one_known).
  assert (C2 : ProgramSpec.all_careful Debug area 3 two_calls) by exact (render_careful _ _ two_known).
  exists cl1, cl2, cl1', cl2', w1, w2.
  split; [exact (conj CP (conj DU (conj EV (conj area_roomy (conj demo_sane (conj RW insertion_sorts))))))|].
  split; [exact (conj P1 (conj (proj1 render_builds) (conj C1 one_used)))|]. split; [exact (conj P2 (conj (proj2 render_builds) (conj C2 two_used)))|].
  split; [exact (conj R1 (conj T1 X1))|]. split; [exact (conj R2 (conj T2 X2))|]. split; [exact W1|]. split; [exact W2|]. split; [exact SAME|].
  split; [exact render_build|]. split; [exact RP|]. split; [apply two_definite|]. split; [exact DD|]. split; [|exact N1].
  exact (C119_same_files disk Debug demo area area fine_disk fine_disk insertion_sort insertion_sort (with_keys short_keys) (with_keys long_keys)
    CP DU EV area_roomy area_roomy demo_sane demo_sane RW RW insertion_sorts insertion_sorts
    one_calls two_calls cl1 cl2 0%nat 3%nat (Handle TWrite 4) (Handle TWrite 14) [frame0; frame1] one_run two_run 99%nat 99%nat cl1' cl2'
    P1 (proj1 render_builds) C1 one_used P2 (proj2 render_builds) C2 two_used R1 T1 X1 R2 T2 X2
    w1 w2 3 13 render_pairs W1 W2 SAME render_build RP (two_definite _ _) DD).
Qed.

(** C117: programs that have set up the same see the same. *)
From Coq Require String.
Import String.StringSyntax.
From Coq Require Import Lia Floats.SpecFloat.
From Verif Require Import Machine CacheModel BBoxModel BBoxSpec MergeSpec AttrModel AttrSpec HashSpec LutSpec StreamModel GraphModel GraphSpec GraphSim NodeModel NodeExamples FrameModel SoundSpec SafeSpec TotalSpec SceneSpec EachSpec
  AlikeSpec ClientModel ClientSpec ClientSpec2 ClientProofs ProgramSpec ProgramProofs2 ProgramSpec2 ProgramProofs3 ChainSpec AttrProofs EditSpec EditProofs PropertiesNode PropertiesSafe PropertiesShow2 PropertiesTotal PropertiesClient PropertiesClient2 PropertiesProgram.
Local Open Scope string_scope.

(** Two programs, or one program at two moments, on the same or other graphs, with
    other ids, other numbers of inputs, other orders of calls, other executions
    before, other caches and other idle nodes, but with the same settings, the same
    order of connections and the same files, get the same picture. *)
Theorem C117_same_setup : forall D p (x : externals D) B1 B2 ok1 ok2 srt1 srt2 (E1 E2 : setting D),
  clean_paths (x_expand x) -> digest_u64 (x_digest x) ->
  (forall E, E = E1 \/ E = E2 -> no_collisions (x_digest x) (SoundSpec.used E) /\ (forall l, In l (SoundSpec.used E) -> x_digest x l <> 0) /\ keeps_sources x E) ->
  roomy B1 -> roomy B2 -> sane x B1 ok1 -> sane x B2 ok2 -> resampler_works x B1 -> resampler_works x B2 -> sorts srt1 -> sorts srt2 ->
  forall h1 h2 cl1 cl2 i1 i2 n1 n2 frames1 frames2 fr1 fr2 call1 call2 fuel1 fuel2 cl1' cl2',
  neat_past p x E1 srt1 B1 ok1 h1 cl1 -> only_builds i1 h1 -> all_careful p B1 i1 h1 -> described i1 h1 (hd_id n1) <> None -> all_used i1 h1 (hd_id n1) ->
  neat_past p x E2 srt2 B2 ok2 h2 cl2 -> only_builds i2 h2 -> all_careful p B2 i2 h2 -> described i2 h2 (hd_id n2) <> None -> all_used i2 h2 (hd_id n2) ->
  runs call1 i1 n1 (frames1 ++ [fr1]) -> tame_call p x E1 srt1 cl1 fuel1 call1 -> client_call p x srt1 fuel1 cl1 call1 = Some (Ok (cl1', RStatus ExSuccess)) ->
  runs call2 i2 n2 (frames2 ++ [fr2]) -> tame_call p x E2 srt2 cl2 fuel2 call2 -> client_call p x srt2 fuel2 cl2 call2 = Some (Ok (cl2', RStatus ExSuccess)) ->
  forall R, same_setup x fr1 fr2 (cl_disk cl1) (cl_disk cl2) i1 i2 h1 h2 R -> R (hd_id n1) (hd_id n2) -> definite x (cl_disk cl2) fr2 i2 h2 (hd_id n2) ->
  exists v1 v2, answers p x srt1 cl1' (COutput i1) (RStream v1) /\ answers p x srt2 cl2' (COutput i2) (RStream v2) /\ looks_like v1 v2.
Proof. exact @programs_same. Qed.
Print Assumptions C117_same_setup.

(* ------------------------------ example ------------------------------ *)

(** The composition of [prog_calls], built on another graph from the other end,
    with other ids and other inputs. *)
Definition twin_made : list ccall :=
  [CSetCapacity 0 193600; CCreate 3 TCrop (ById 14); CCreate 3 TMerge (ById 13); CConnect 3 (Handle TMerge 13) (Handle TCrop 14) 5;
   CSet 3 (Handle TCrop 14) (WI32 "window_min_x" 1); CCreate 3 TRead (ById 12); CCreate 3 TRead (ById 11);
   CConnect 3 (Handle TRead 12) (Handle TMerge 13) 9; CConnect 3 (Handle TRead 11) (Handle TMerge 13) 2;
   CSet 3 (Handle TRead 12) (WStr "file_path" [98]); CSet 3 (Handle TRead 11) (WStr "file_path" [97]);
   CSet 3 (Handle TCrop 14) (WI32 "window_max_x" 5); CSet 3 (Handle TCrop 14) (WI32 "window_max_y" 5)].
Definition twin_calls : list (ccall * reply) := Eval vm_compute in
  match prepare (client_new safe_disk) twin_made with Some (h, _) => h | None => [] end.
Definition twin_run : ccall * reply := (CExecute 3 (Handle TCrop 14) [frame0] 0, RStatus ExSuccess).

Lemma twin_builds : only_builds 3 twin_calls.
Proof.
  assert (N : only_builds 3 []) by (intros h1 call r h2 E; destruct h1; discriminate E).
  apply (only_buildsb_ok 3 _ [] N); vm_compute; reflexivity.
Qed.
Lemma twin_links a b s : connected 3 twin_calls a b s -> (a, b, s) = (11, 13, 2) \/ (a, b, s) = (12, 13, 9) \/ (a, b, s) = (13, 14, 5).
Proof.
  intro C. destruct (connected_made _ _ _ _ _ C) as (n & m & r & I & A & B). unfold twin_calls in I.
  repeat (destruct I as [I|I]; [try discriminate I; injection I; intros; subst; cbn [hd_id] in *; vm_compute in C; try discriminate C; auto|]). destruct I.
Qed.
Lemma twin_nodes id n : described 3 twin_calls id = Some n ->
  (id = 11 /\ alike n kept_read) \/ (id = 12 /\ alike n kept_other) \/ (id = 13 /\ alike n kept_merge) \/ (id = 14 /\ alike n kept_crop).
Proof.
  intro H. assert (K : In id [11; 12; 13; 14]).
  { destruct (described_created 3 twin_calls id ltac:(congruence)) as (t & how & r & I & <-). unfold twin_calls in I.
    repeat (destruct I as [I|I]; [try discriminate I; injection I; intros; subst; cbn [creation_id In]; tauto|]). destruct I. }
  destruct K as [<-|[<-|[<-|[<-|[]]]]]; vm_compute in H; injection H as <-.
  - left. split; [reflexivity|]. split; vm_compute; reflexivity.
  - right. left. split; [reflexivity|]. split; vm_compute; reflexivity.
  - right. right. left. split; [reflexivity|]. split; vm_compute; reflexivity.
  - right. right. right. split; [reflexivity|]. split; vm_compute; reflexivity.
Qed.
Lemma twin_careful : all_careful Debug area 3 twin_calls.
Proof.
  intros id n l DN _. destruct (twin_nodes _ _ DN) as [(_ & K)|[(_ & K)|[(_ & K)|(_ & K)]]]; apply (SafeFacts.careful_key Debug area _ n _ (proj1 K) (proj2 K)).
  - split; [apply kept_wf; intros w [<-|[]] c [<-|[]]; lia|exact I].
  - split; [apply kept_wf; intros w [<-|[]] c [<-|[]]; lia|exact I].
  - split; [apply kept_wf; intros w []|exact I].
  - split; [apply kept_wf; intros w H; repeat (destruct H as [<-|H]; [cbn; lia|]); destruct H|].
    intros _. split; [vm_compute; discriminate|]. change (within (BBox 1 0 5 5) area). unfold within, window_in. cbn. lia.
Qed.
Lemma twin_used : all_used 3 twin_calls 14.
Proof.
  intros a n l _ DN FB. destruct (twin_nodes _ _ DN) as [(E & K)|[(E & K)|[(E & K)|(E & K)]]]; rewrite (proj1 K); (split; [|discriminate]);
    (refine (Nat.le_trans _ _ _ (fed_length _ _ _ _ (if (a =? 13)%Z then [(2, 11); (9, 12)]%Z else [(5, 13)]%Z) FB _) _);
     [intros s src C; apply twin_links in C; destruct C as [C|[C|C]]; injection C as -> -> ->; cbn; auto|subst a; cbn; lia]).
Qed.

(** The four ids of the one program and those of the other. *)
Definition pairs (a b : Z) : Prop := In (a, b) [(1, 11); (2, 12); (3, 13); (4, 14)].
Lemma pairs_ten a b : pairs a b -> b = a + 10.
Proof. intro P. repeat (destruct P as [P|P]; [injection P as <- <-; reflexivity|]). destruct P. Qed.
Lemma prog_inputs id l : fed_by 0 (prog_calls ++ [prog_run]) id l -> In (id, l) [(3, [1; 2]); (4, [3])] \/ (id <> 3 /\ id <> 4 /\ l = []).
Proof.
  intros FB. apply (same_fed _ _ _ _ _ prog_connected) in FB. destruct (Z.eq_dec id 3) as [->|N3].
  { left. left. now rewrite (fed_unique _ _ _ _ _ FB prog_fed). }
  destruct (Z.eq_dec id 4) as [->|N4].
  - left. right. left. f_equal. refine (fed_unique _ _ _ _ _ _ FB). exists [(0, 3)]. split; [reflexivity|]. split; [repeat constructor|]. intros s src. split.
    + intros [H|[]]. injection H as <- <-. vm_compute. reflexivity.
    + intro H. apply prog_links in H. destruct H as [H|[H|H]]; injection H; intros; subst; try discriminate; cbn; auto.
  - right. split; [exact N3|]. split; [exact N4|]. destruct FB as ([|(s, a) ss] & -> & _ & SS); [reflexivity|]. exfalso.
    specialize (proj1 (SS s a) (or_introl eq_refl)) as C. apply prog_links in C. destruct C as [C|[C|C]]; injection C; intros; congruence.
Qed.
Lemma twin_fed : fed_by 3 twin_calls 11 [] /\ fed_by 3 twin_calls 12 [] /\ fed_by 3 twin_calls 13 [11; 12] /\ fed_by 3 twin_calls 14 [13].
Proof.
  assert (F : forall id ss, (forall s src, In (s, src) ss -> connected 3 twin_calls src id s) ->
    (forall a b s, In (a, b, s) [(11, 13, 2); (12, 13, 9); (13, 14, 5)] -> b = id -> In (s, a) ss) -> Sorted.StronglySorted Z.lt (map fst ss) -> fed_by 3 twin_calls id (map snd ss)).
  { intros id ss H1 H2 S. exists ss. split; [reflexivity|]. split; [exact S|]. intros s src. split; [apply H1|]. intro C. apply (H2 src id s); [|reflexivity].
    apply twin_links in C. destruct C as [C|[C|C]]; rewrite C; cbn; auto. }
  split; [|split; [|split]].
  - apply (F 11 []); [intros ? ? []| |constructor]. intros a b s [H|[H|[H|[]]]] Q; injection H as <- <- <-; discriminate Q.
  - apply (F 12 []); [intros ? ? []| |constructor]. intros a b s [H|[H|[H|[]]]] Q; injection H as <- <- <-; discriminate Q.
  - apply (F 13 [(2, 11); (9, 12)]).
    + intros s src [H|[H|[]]]; injection H as <- <-; vm_compute; reflexivity.
    + intros a b s [H|[H|[H|[]]]] Q; injection H as <- <- <-; try discriminate Q; cbn; auto.
    + repeat constructor.
  - apply (F 14 [(5, 13)]).
    + intros s src [H|[]]; injection H as <- <-; vm_compute; reflexivity.
    + intros a b s [H|[H|[H|[]]]] Q; injection H as <- <- <-; try discriminate Q; cbn; auto.
    + repeat constructor.
Qed.
Lemma twin_setup : same_setup demo frame0 frame0 safe_disk safe_disk 0 3 (prog_calls ++ [prog_run]) twin_calls pairs.
Proof.
  intros a b P. exists a, b. destruct twin_fed as (F1 & F2 & F3 & F4).
  destruct (described 0 prog_calls a) as [n|] eqn:DN; [|repeat (destruct P as [P|P]; [injection P as <- <-; vm_compute in DN; discriminate DN|]); destruct P].
  destruct (described 3 twin_calls b) as [m|] eqn:DM; [|repeat (destruct P as [P|P]; [injection P as <- <-; vm_compute in DM; discriminate DM|]); destruct P].
  exists n, m. split; [constructor|]. split; [constructor|]. split; [rewrite prog_described; exact DN|]. split; [reflexivity|].
  assert (A : alike m n).
  { pose proof (pairs_ten _ _ P) as ->. destruct (prog_nodes _ _ DN) as [(-> & ->)|[(-> & ->)|[(-> & ->)|(-> & ->)]]];
      destruct (twin_nodes _ _ DM) as [(Q & K)|[(Q & K)|[(Q & K)|(Q & K)]]]; try discriminate Q; exact K. }
  split; [symmetry; exact (proj1 A)|]. split; [intros k name|]. 
  { pose proof (AttrProofs.reads_attrs k name m n (eq_sym (proj1 A)) (eq_sym (proj2 A))) as X. injection X; auto. }
  split; [intros _ path E; exists path; auto|].
  intros l FB. destruct (prog_inputs _ _ FB) as [IN|(N3 & N4 & ->)].
  - destruct IN as [IN|[IN|[]]]; injection IN as <- <-; pose proof (pairs_ten _ _ P) as ->.
    + exists [11; 12]. split; [exact F3|]. repeat apply Forall2_cons; try apply Forall2_nil; unfold pairs; cbn; auto.
    + exists [13]. split; [exact F4|]. repeat apply Forall2_cons; try apply Forall2_nil; unfold pairs; cbn; auto.
  - exists []. split; [|constructor]. repeat (destruct P as [P|P]; [injection P as <- <-; try congruence; assumption|]). destruct P.
Qed.
Lemma twin_definite : definite demo safe_disk frame0 3 twin_calls 14.
Proof.
  intros a n _ DN. destruct (twin_nodes _ _ DN) as [(_ & K)|[(_ & K)|[(_ & K)|(_ & K)]]]; destruct K as (K1 & K2); rewrite K1; split; try discriminate;
    intros _ _ path; unfold node_get_str; rewrite K1, K2; intro E; vm_compute in E; injection E as <-; vm_compute; discriminate.
Qed.
Lemma twin_past : exists cl, neat_past Debug demo kept_setting insertion_sort area fine_disk twin_calls cl /\ cl_disk cl = safe_disk /\
  cl_caches cl 0 = Some (with_capacity 193600) /\ tame_call Debug demo kept_setting insertion_sort cl 99 (fst twin_run) /\
  exists cl', client_call Debug demo insertion_sort 99 cl (fst twin_run) = Some (Ok (cl', RStatus ExSuccess)).
Proof.
  destruct (prepare (client_new safe_disk) twin_made) as [[h cl]|] eqn:E; [|vm_compute in E; discriminate E].
  assert (HH : h = twin_calls) by (vm_compute in E; injection E as <- _; reflexivity).
  assert (P : neat_past Debug demo kept_setting insertion_sort area fine_disk h cl).
  { refine (prog_past twin_made eq_refl [] (client_new safe_disk) h cl (np_new _ _ _ _ _ _ safe_disk _ _) E).
    - intros q Q. split; reflexivity.
    - exact (proj2 safe_world). }
  assert (G : exists g' w' log, cl_caches cl 0%nat = Some (with_capacity 193600) /\ cl_disk cl = safe_disk /\ log_ok log /\
    execute (recording (node_ops Debug demo)) insertion_sort 99 (cl_graphs cl 3%nat) 14 [frame0] (World (with_capacity 193600) (cl_disk cl), []) = Some (Ok (g', (w', log), ExSuccess))).
  { vm_compute in E. injection E as _ <-. do 3 eexists. split; [reflexivity|]. split; [reflexivity|]. split; [|vm_compute; reflexivity]. vm_compute. repeat split. }
  destruct G as (g' & w' & log & C & DK & LO & X). clear E. subst h. exists cl. split; [exact P|]. split; [exact DK|]. split; [exact C|]. split.
  - exact (tame_run cl 3 (Handle TCrop 14) [frame0] _ g' w' log ExSuccess X C (all_tame _ (log_expected _ LO))).
  - cbn [client_call twin_run fst]. unfold execute_call. rewrite C. cbn [hd_id]. rewrite (recording_faithful _ _ _ _ _ _ _ _ _ _ _ _ X). eexists. reflexivity.
Qed.

(** The program of C116, which has executed its composition before, and one that
    never executed anything: all conditions hold. *)
Example C117_example : exists cl1 cl2,
  neat_past Debug demo kept_setting insertion_sort area fine_disk (prog_calls ++ [prog_run]) cl1 /\
  only_builds 0 (prog_calls ++ [prog_run]) /\ all_careful Debug area 0 (prog_calls ++ [prog_run]) /\
  described 0 (prog_calls ++ [prog_run]) 4 <> None /\ all_used 0 (prog_calls ++ [prog_run]) 4 /\
  neat_past Debug demo kept_setting insertion_sort area fine_disk twin_calls cl2 /\ only_builds 3 twin_calls /\ all_careful Debug area 3 twin_calls /\
  described 3 twin_calls 14 <> None /\ all_used 3 twin_calls 14 /\
  runs (fst prog_run) 0 (Handle TCrop 4) ([] ++ [frame0]) /\ runs (fst twin_run) 3 (Handle TCrop 14) ([] ++ [frame0]) /\
  tame_call Debug demo kept_setting insertion_sort cl2 99 (fst twin_run) /\
  (exists cl2', client_call Debug demo insertion_sort 99 cl2 (fst twin_run) = Some (Ok (cl2', RStatus ExSuccess))) /\
  same_setup demo frame0 frame0 safe_disk safe_disk 0 3 (prog_calls ++ [prog_run]) twin_calls pairs /\ pairs 4 14 /\
  definite demo safe_disk frame0 3 twin_calls 14.
Proof.
  destruct C116_example as (cl1 & P1 & B1 & C1 & D1 & _ & _ & U1 & R1 & _). destruct twin_past as (cl2 & P2 & _ & _ & T2 & X2).
  exists cl1, cl2. split; [exact P1|]. split; [exact B1|]. split; [exact C1|]. split; [exact D1|]. split; [exact U1|]. split; [exact P2|].
  split; [exact twin_builds|]. split; [exact twin_careful|]. split; [vm_compute; discriminate|]. split; [exact twin_used|]. split; [exact R1|].
  split; [exists 0%nat; left; reflexivity|]. split; [exact T2|]. split; [exact X2|]. split; [exact twin_setup|]. split; [cbn; auto|exact twin_definite].
Qed.

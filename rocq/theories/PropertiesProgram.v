(** C116: the picture and the files a C++ program gets follow from its calls. *)
From Coq Require String.
Import String.StringSyntax.
From Coq Require Import Floats.SpecFloat.
From Verif Require Import Machine CacheModel BBoxModel BBoxSpec MergeSpec AttrModel AttrSpec HashSpec LutSpec StreamModel GraphModel GraphSpec GraphSim NodeModel NodeExamples FrameModel SoundSpec SafeSpec TotalSpec SceneSpec EachSpec
  ClientModel ClientSpec ClientSpec2 ClientProofs ProgramSpec ProgramProofs2 PropertiesNode PropertiesSafe PropertiesShow2 PropertiesTotal PropertiesClient PropertiesClient2 PropertiesClient4.
Local Open Scope string_scope.

(** Executing a node of what has been built succeeds, and the output of the
    graph is the picture that follows from the calls and the files. *)
Theorem C116_picture : forall D p (x : externals D) B ok_disk, roomy B -> sane x B ok_disk -> resampler_works x B ->
  forall srt, sorts srt -> forall E : setting D,
  clean_paths (x_expand x) -> no_collisions (x_digest x) (SoundSpec.used E) -> digest_u64 (x_digest x) ->
  (forall l, In l (SoundSpec.used E) -> x_digest x l <> 0) -> keeps_sources x E ->
  forall h cl i n frames fr call, neat_past p x E srt B ok_disk h cl -> only_builds i h -> all_careful p B i h ->
  described i h (hd_id n) <> None -> ~ gone i h (hd_id n) -> shaped i h (hd_id n) -> all_used i h (hd_id n) -> runs call i n (frames ++ [fr]) ->
  exists fuel0 cl', (forall fuel, (fuel0 <= fuel)%nat -> client_call p x srt fuel cl call = Some (Ok (cl', RStatus ExSuccess))) /\
    (tame_call p x E srt cl fuel0 call ->
     exists v, answers p x srt cl' (COutput i) (RStream v) /\ drawn x p (cl_disk cl) fr i h (hd_id n) v).
Proof. exact @program_picture. Qed.
Print Assumptions C116_picture.

(** For every frame, the file of every writer before the node is there
    afterwards. *)
Theorem C116_files : forall D p (x : externals D) B ok_disk, roomy B -> sane x B ok_disk -> resampler_works x B ->
  forall srt, sorts srt -> forall E : setting D,
  clean_paths (x_expand x) -> no_collisions (x_digest x) (SoundSpec.used E) -> digest_u64 (x_digest x) ->
  (forall l, In l (SoundSpec.used E) -> x_digest x l <> 0) -> keeps_sources x E ->
  forall h cl i n frames fr call fuel cl' r holds, neat_past p x E srt B ok_disk h cl -> only_builds i h -> all_careful p B i h ->
  described i h (hd_id n) <> None -> ~ gone i h (hd_id n) -> shaped i h (hd_id n) -> all_used i h (hd_id n) -> runs call i n (frames ++ [fr]) ->
  tame_call p x E srt cl fuel call -> client_call p x srt fuel cl call = Some (Ok (cl', r)) ->
  keeps_files x holds -> apart (fun fr => outcome x p (cl_disk cl) fr i h) (frames ++ [fr]) ->
  forall fr1 id nw src, In fr1 (frames ++ [fr]) -> above i h (hd_id n) id -> writing i h id nw src ->
  exists o, outcome x p (cl_disk cl) fr1 i h id o /\ holds (cl_disk cl') o.
Proof. exact @program_files. Qed.
Print Assumptions C116_files.

(** Calls in another order, or other calls between them, that set up the same
    give the same picture. *)
Theorem C116_order : forall D (x : externals D) p d fr i h h', (forall id, described i h' id = described i h id) ->
  (forall a b s, connected i h' a b s <-> connected i h a b s) -> forall id v, drawn x p d fr i h id v -> drawn x p d fr i h' id v.
Proof. exact @drawn_same. Qed.
Print Assumptions C116_order.

(** Why at most one connection between two nodes: a picture connected to both
    inputs of a merge is merged with the colour bars (4 by 4), not with itself
    (1 by 1); everything is reported successful. *)
Definition self_calls : list ccall :=
  [CCreate 0 TRead (ById 1); CSet 0 (Handle TRead 1) (WStr "file_path" [97]); CCreate 0 TMerge (ById 3);
   CConnect 0 (Handle TRead 1) (Handle TMerge 3) 0; CConnect 0 (Handle TRead 1) (Handle TMerge 3) 1;
   CExecuteWhole 0 (Handle TRead 1) [0] 0; COutput 0; CExecuteWhole 0 (Handle TMerge 3) [0] 0; COutput 0].
Theorem C116_itself_refuted : exists h (cl : client disk) a v, past Debug demo insertion_sort h cl /\ map fst h = self_calls /\
  map snd h = [RNode (Handle TRead 1); RVoid; RNode (Handle TMerge 3); RVoid; RVoid; RStatus ExSuccess; RStream a; RStatus ExSuccess; RStream v] /\
  connected 0 h 1 3 0 /\ connected 0 h 1 3 1 /\ st_data a = BBox 0 0 1 1 /\ st_data v = BBox 0 0 4 4.
Proof.
  destruct (replay 99 (client_new safe_disk) self_calls) as [[h cl]|] eqn:E; [|vm_compute in E; discriminate E].
  assert (K : exists a v, map fst h = self_calls /\
    map snd h = [RNode (Handle TRead 1); RVoid; RNode (Handle TMerge 3); RVoid; RVoid; RStatus ExSuccess; RStream a; RStatus ExSuccess; RStream v] /\
    connected 0 h 1 3 0 /\ connected 0 h 1 3 1 /\ st_data a = BBox 0 0 1 1 /\ st_data v = BBox 0 0 4 4).
  { vm_compute in E. injection E as <- _. do 2 eexists. split; [vm_compute; reflexivity|]. split; [vm_compute; reflexivity|].
    split; [vm_compute; reflexivity|]. split; [vm_compute; reflexivity|]. split; reflexivity. }
  destruct K as (a & v & K). exists h, cl, a, v. split; [exact (replay_past 99 self_calls [] _ h cl (p_new _ _ _ safe_disk) E)|exact K].
Qed.
Print Assumptions C116_itself_refuted.

(** Why only loose inputs: an input that is neither the only one connected nor
    the one connected last stays connected.  A merge of two pictures shows exactly
    the same after its first input was disconnected. *)
Definition stuck_calls : list ccall :=
  [CCreate 0 TRead (ById 1); CSet 0 (Handle TRead 1) (WStr "file_path" [97]); CCreate 0 TRead (ById 2); CSet 0 (Handle TRead 2) (WStr "file_path" [98]);
   CCreate 0 TMerge (ById 3); CConnect 0 (Handle TRead 1) (Handle TMerge 3) 0; CConnect 0 (Handle TRead 2) (Handle TMerge 3) 1;
   CExecuteWhole 0 (Handle TMerge 3) [0] 0; COutput 0; CDisconnect 0 (Handle TMerge 3) 0; CExecuteWhole 0 (Handle TMerge 3) [0] 0; COutput 0].
Theorem C116_disconnect_refuted : exists h (cl : client disk) v, past Debug demo insertion_sort h cl /\ map fst h = stuck_calls /\
  skipn 7 (map snd h) = [RStatus ExSuccess; RStream v; RVoid; RStatus ExSuccess; RStream v] /\ fed_by 0 h 3 [2].
Proof.
  destruct (replay 99 (client_new safe_disk) stuck_calls) as [[h cl]|] eqn:E; [|vm_compute in E; discriminate E].
  assert (K : exists v, map fst h = stuck_calls /\ skipn 7 (map snd h) = [RStatus ExSuccess; RStream v; RVoid; RStatus ExSuccess; RStream v] /\
    feeder 0 h 3 1 = Some 2 /\ feeder 0 h 3 0 = None).
  { vm_compute in E. injection E as <- _. eexists. split; [vm_compute; reflexivity|]. split; [vm_compute; reflexivity|]. split; vm_compute; reflexivity. }
  destruct K as (v & K1 & K2 & K3 & K4). exists h, cl, v. split; [exact (replay_past 99 stuck_calls [] _ h cl (p_new _ _ _ safe_disk) E)|]. split; [exact K1|]. split; [exact K2|].
  exists [(1, 2)]. split; [reflexivity|]. split; [repeat constructor|]. intros s src. split.
  - intros [Q|[]]. injection Q as <- <-. exact K3.
  - intro C. destruct (connected_made _ _ _ _ _ C) as (n & m & r & I & A & B). apply (in_map fst) in I. rewrite K1 in I. cbn [fst] in I. unfold stuck_calls in I.
    unfold feeder in K3, K4. unfold connected in C.
    repeat (destruct I as [I|I]; [try discriminate I; injection I; intros; subst; cbn [hd_id] in *; rewrite ?K3, ?K4 in C; first [discriminate C|left; congruence]|]). destruct I.
Qed.
Print Assumptions C116_disconnect_refuted.

(* ------------------------------ example ------------------------------ *)

(** The program of C113 (two readers, a merge and a crop), connected
    differently for a while, with its answers. *)
Definition prog_made : list ccall := (kept_client_calls ++
  [CConnect 0 (Handle TRead 1) (Handle TCrop 4) 0; CDisconnect 0 (Handle TMerge 3) 1; CConnect 0 (Handle TRead 2) (Handle TMerge 3) 1; CConnect 0 (Handle TMerge 3) (Handle TCrop 4) 0])%list.
Definition prog_calls : list (ccall * reply) := Eval vm_compute in
  match prepare (client_new safe_disk) prog_made with Some (h, _) => h | None => [] end.
Definition prog_run : ccall * reply := (CExecuteWhole 0 (Handle TCrop 4) [0] 0, RStatus ExSuccess).

Lemma prog_builds : only_builds 0 prog_calls /\ only_builds 0 (prog_calls ++ [prog_run]).
Proof.
  assert (N : only_builds 0 []) by (intros h1 call r h2 E; destruct h1; discriminate E).
  split; apply (only_buildsb_ok 0 _ [] N); vm_compute; reflexivity.
Qed.
Lemma prog_described id : described 0 (prog_calls ++ [prog_run]) id = described 0 prog_calls id.
Proof. rewrite ProgramProofs.described_app. unfold describe, prog_run. cbn [fst]. destruct (described 0 prog_calls id); reflexivity. Qed.
Lemma prog_connected a b s : connected 0 (prog_calls ++ [prog_run]) a b s <-> connected 0 prog_calls a b s.
Proof. unfold prog_run. rewrite ProgramProofs.connected_app. reflexivity. Qed.
Lemma prog_links a b s : connected 0 prog_calls a b s -> (a, b, s) = (1, 3, 0) \/ (a, b, s) = (2, 3, 1) \/ (a, b, s) = (3, 4, 0).
Proof.
  intro C. destruct (connected_made _ _ _ _ _ C) as (n & m & r & I & A & B). unfold prog_calls in I.
  repeat (destruct I as [I|I]; [try discriminate I; injection I; intros; subst; cbn [hd_id] in *; vm_compute in C; try discriminate C; auto|]). destruct I.
Qed.
Lemma prog_links2 a b s : connected 0 (prog_calls ++ [prog_run]) a b s -> (a, b, s) = (1, 3, 0) \/ (a, b, s) = (2, 3, 1) \/ (a, b, s) = (3, 4, 0).
Proof. intro C. exact (prog_links a b s (proj1 (prog_connected a b s) C)). Qed.
Lemma prog_nodes id n : described 0 prog_calls id = Some n ->
  (id = 1 /\ n = kept_read) \/ (id = 2 /\ n = kept_other) \/ (id = 3 /\ n = kept_merge) \/ (id = 4 /\ n = kept_crop).
Proof.
  intro H. assert (K : In id [1; 2; 3; 4]).
  { destruct (described_created 0 prog_calls id ltac:(congruence)) as (t & how & r & I & <-). unfold prog_calls in I.
    repeat (destruct I as [I|I]; [try discriminate I; injection I; intros; subst; cbn [creation_id In]; tauto|]). destruct I. }
  destruct K as [<-|[<-|[<-|[<-|[]]]]]; vm_compute in H; injection H as <-.
  - left. split; [reflexivity|vm_compute; reflexivity].
  - right. left. split; [reflexivity|vm_compute; reflexivity].
  - right. right. left. split; [reflexivity|vm_compute; reflexivity].
  - right. right. right. split; [reflexivity|vm_compute; reflexivity].
Qed.
Lemma prog_careful : all_careful Debug area 0 prog_calls.
Proof.
  intros id n l DN _. destruct (prog_nodes _ _ DN) as [(_ & ->)|[(_ & ->)|[(_ & ->)|(_ & ->)]]].
  - split; [apply kept_wf; intros w [<-|[]] c [<-|[]]; lia|exact I].
  - split; [apply kept_wf; intros w [<-|[]] c [<-|[]]; lia|exact I].
  - split; [apply kept_wf; intros w []|exact I].
  - split; [apply kept_wf; intros w H; repeat (destruct H as [<-|H]; [cbn; lia|]); destruct H|].
    intros _. split; [vm_compute; discriminate|]. change (within (BBox 1 0 5 5) area). unfold within, window_in. cbn. lia.
Qed.
Lemma same_fed h h' i id l : (forall a b s, connected i h' a b s <-> connected i h a b s) -> fed_by i h' id l -> fed_by i h id l.
Proof. intros C (ss & E & S & SS). exists ss. split; [exact E|]. split; [exact S|]. intros s src. rewrite <- C. apply SS. Qed.
Lemma prog_careful2 : all_careful Debug area 0 (prog_calls ++ [prog_run]).
Proof. intros id n l DN FB. rewrite prog_described in DN. exact (prog_careful id n l DN (same_fed _ _ _ _ _ prog_connected FB)). Qed.

Lemma prog_there : ~ gone 0 (prog_calls ++ [prog_run]) 4.
Proof.
  intros (n & r & I & _). unfold prog_calls, prog_run in I. cbn [app] in I. repeat (destruct I as [I|I]; [discriminate I|]). destruct I.
Qed.
Lemma prog_shaped : shaped 0 (prog_calls ++ [prog_run]) 4.
Proof.
  left. split.
  - intros a b b' s s' _ _ C1 C2. apply prog_links2 in C1. apply prog_links2 in C2.
    destruct C1 as [C1|[C1|C1]], C2 as [C2|[C2|C2]]; congruence.
  - intros b s _ C. apply prog_links2 in C. destruct C as [C|[C|C]]; congruence.
Qed.
Lemma prog_used : all_used 0 (prog_calls ++ [prog_run]) 4.
Proof.
  intros a n l _ DN FB. rewrite prog_described in DN. split.
  - assert (Q : (length l <= length (if (a =? 3)%Z then [(0, 1); (1, 2)]%Z else [(0, 3)]%Z))%nat).
    { apply (fed_length _ _ _ _ _ FB). intros s src C. apply prog_links2 in C.
      destruct C as [C|[C|C]]; injection C as -> -> ->; cbn; auto. }
    destruct (prog_nodes _ _ DN) as [(-> & ->)|[(-> & ->)|[(-> & ->)|(-> & ->)]]]; exact Q.
  - destruct (prog_nodes _ _ DN) as [(-> & ->)|[(-> & ->)|[(-> & ->)|(-> & ->)]]]; discriminate.
Qed.

Lemma prog_fed : fed_by 0 prog_calls 3 [1; 2].
Proof.
  exists [(0, 1); (1, 2)]. split; [reflexivity|]. split; [repeat constructor|]. intros s src. split.
  - intros [H|[H|[]]]; injection H as <- <-.
    + vm_compute. reflexivity.
    + vm_compute. reflexivity.
  - intro H. apply prog_links in H. destruct H as [H|[H|H]]; injection H; intros; subst; try discriminate; cbn; auto.
Qed.

Definition prog_calm (c : ccall) : bool := no_execution c && match c with CSetCapacity _ v => v =? 193600 | _ => true end.
Lemma prog_past calls : forallb prog_calm calls = true -> forall h0 cl h cl',
  neat_past Debug demo kept_setting insertion_sort area fine_disk h0 cl -> prepare cl calls = Some (h, cl') ->
  neat_past Debug demo kept_setting insertion_sort area fine_disk (h0 ++ h) cl'.
Proof.
  induction calls as [|c calls IH]; intros N h0 cl h cl' P R; cbn [prepare] in R.
  - injection R as <- <-. rewrite app_nil_r. exact P.
  - cbn [forallb] in N. apply andb_prop in N. destruct N as (N1 & N2).
    destruct (client_call Debug demo insertion_sort 99 cl c) as [[[cl1 r]|]|] eqn:E; try discriminate R.
    destruct (prepare cl1 calls) as [[h1 cl2]|] eqn:E2; [|discriminate R]. injection R as <- <-.
    change (h0 ++ (c, r) :: h1)%list with (h0 ++ [(c, r)] ++ h1)%list. rewrite app_assoc.
    unfold prog_calm in N1. apply andb_prop in N1. destruct N1 as (N1 & N3).
    assert (T : tame_call Debug demo kept_setting insertion_sort cl 99 c).
    { destruct c; cbn in N1 |- *; try exact I; try discriminate N1. }
    assert (NC : neat_call Debug area h0 c).
    { destruct c; try discriminate N1; try exact I. apply Z.eqb_eq in N3. subst value. split; [unfold two64; lia|]. intros _. unfold largest, area, two64. cbn. lia. }
    apply (IH N2 _ _ _ _ (np_call _ _ _ _ _ _ _ _ _ _ _ _ P T NC E) E2).
Qed.

(** The program has built, sensibly, a tree, and has executed it once; all
    conditions hold for executing it again, and every picture is then taken
    from the cache. *)
Example C116_example : exists cl, neat_past Debug demo kept_setting insertion_sort area fine_disk (prog_calls ++ [prog_run]) cl /\
  only_builds 0 (prog_calls ++ [prog_run]) /\ all_careful Debug area 0 (prog_calls ++ [prog_run]) /\
  described 0 (prog_calls ++ [prog_run]) 4 <> None /\ ~ gone 0 (prog_calls ++ [prog_run]) 4 /\ shaped 0 (prog_calls ++ [prog_run]) 4 /\ all_used 0 (prog_calls ++ [prog_run]) 4 /\
  runs (fst prog_run) 0 (Handle TCrop 4) ([] ++ [frame0]) /\ fed_by 0 prog_calls 3 [1; 2] /\
  (exists c, cl_caches cl 0 = Some c /\ len c = 4) /\ cl_caches cl 7 = Some (with_capacity 0).
Proof.
  destruct (prepare (client_new safe_disk) prog_made) as [[h cl]|] eqn:E; [|vm_compute in E; discriminate E].
  assert (HH : h = prog_calls) by (vm_compute in E; injection E as <- _; reflexivity).
  assert (P : neat_past Debug demo kept_setting insertion_sort area fine_disk h cl).
  { refine (prog_past prog_made eq_refl [] (client_new safe_disk) h cl (np_new _ _ _ _ _ _ safe_disk _ _) E).
    - intros q Q. split; reflexivity.
    - exact (proj2 safe_world). }
  assert (G : cl_graphs cl 0%nat = kept_graph /\ cl_caches cl 0%nat = Some (with_capacity 193600) /\ cl_caches cl 7%nat = Some (with_capacity 0) /\ cl_disk cl = safe_disk).
  { vm_compute in E. injection E as _ <-. vm_compute. repeat split. }
  destruct G as (G & C & C7 & DK). clear E. subst h.
  assert (FIRST : execute (recording (node_ops Debug demo)) insertion_sort 99 kept_graph 4 [frame0] (World (with_capacity 193600) safe_disk, [])
    = Some (Ok (fst (fst kept_first), (snd (fst kept_first), snd kept_first), ExSuccess))) by (vm_compute; reflexivity).
  pose proof (recording_faithful _ _ _ _ _ _ _ _ _ _ _ _ FIRST) as PLAIN.
  eexists. split; [|split; [exact (proj2 prog_builds)|split; [exact prog_careful2|split; [vm_compute; discriminate|split; [exact prog_there|split; [exact prog_shaped|split; [exact prog_used|split]]]]]]].
  - refine (np_call _ _ _ _ _ _ prog_calls cl 99 _ _ _ P _ _ _).
    + change (map f64_of_Z [0]) with [frame0].
      apply (tame_run cl 0 (Handle TCrop 4) [frame0] (with_capacity 193600) (fst (fst kept_first)) (snd (fst kept_first)) (snd kept_first) ExSuccess);
        [rewrite G, DK; exact FIRST|exact C|]. apply all_tame, log_expected. vm_compute. repeat split.
    + split; [exact (proj1 prog_builds)|exact prog_careful].
    + cbn [client_call]. unfold execute_call. rewrite C, G, DK. change (map f64_of_Z [0]) with [frame0]. cbn [hd_id]. rewrite PLAIN. reflexivity.
  - exists 0%nat. right. exists [0]. split; reflexivity.
  - split.
    + exact prog_fed.
    + split; [|exact C7]. eexists. split; [cbn [cl_caches]; apply put_eq|]. vm_compute. reflexivity.
Qed.

(** After that, a second cache is given room, a table is asked for with it, and
    the composition is executed with it. *)
Definition more_calls (img : shared) : list (ccall * reply) :=
  [(CSetCapacity 7 193600, RVoid); (CTransformTable (LutModel.ascii_bytes "a") (LutModel.ascii_bytes "b") 2 7, RTable img)].
Example C116_caches_example : exists cl img, neat_past Debug demo table_setting insertion_sort area fine_disk ((prog_calls ++ [prog_run]) ++ more_calls img) cl /\
  neat_table area 2 /\ runs (CExecute 0 (Handle TCrop 4) [frame0] 7) 0 (Handle TCrop 4) ([] ++ [frame0]) /\ exists c, cl_caches cl 7 = Some c /\ len c = 1.
Proof.
  destruct C116_example as (cl & P & _ & _ & _ & _ & _ & _ & _ & _ & _ & C7). assert (WI : forall l, In l (SoundSpec.used kept_setting) -> In l (SoundSpec.used table_setting)) by (intros l L; right; now right).
  apply (neat_wider Debug demo insertion_sort area fine_disk _ _ (sources kept_setting) (disk0 kept_setting) (lens_direction kept_setting) _ _ WI) in P.
  change (neat_past Debug demo table_setting insertion_sort area fine_disk (prog_calls ++ [prog_run]) cl) in P.
  assert (ROOM : neat_call Debug area (prog_calls ++ [prog_run]) (CSetCapacity 7 193600)).
  { split; [unfold two64; lia|]. intros _. unfold largest, area, two64. cbn. lia. }
  set (k7 := set_capacity image_bytes Debug (with_capacity 0) 193600). destruct k7 as [c1|] eqn:E1; [|vm_compute in E1; discriminate E1].
  pose (cl1 := Client (cl_graphs cl) (put (cl_caches cl) 7 (Some c1)) (cl_disk cl)).
  assert (P1 : neat_past Debug demo table_setting insertion_sort area fine_disk ((prog_calls ++ [prog_run]) ++ [(CSetCapacity 7 193600, RVoid)]) cl1).
  { refine (np_call _ _ _ _ _ _ _ cl 0 (CSetCapacity 7 193600) _ _ P I ROOM _). cbn [client_call]. rewrite C7. fold k7. rewrite E1. reflexivity. }
  destruct (LutModel.get_transform_lut Debug demo (LutModel.ascii_bytes "a") (LutModel.ascii_bytes "b") 2 c1) as [[img c2]|] eqn:E2;
    [|exfalso; vm_compute in E1; injection E1 as <-; vm_compute in E2; discriminate E2].
  assert (NT : neat_table area 2) by (unfold neat_table, area; cbn; lia).
  eexists _, img. split; [|split; [exact NT|split; [exists 7%nat; left; reflexivity|]]].
  - unfold more_calls.
    match goal with |- neat_past _ _ _ _ _ _ (?h ++ [?a; ?b]) _ => change (h ++ [a; b])%list with (h ++ [a] ++ [b])%list; rewrite (app_assoc h [a] [b]) end.
    refine (np_call _ _ _ _ _ _ _ cl1 0 (CTransformTable (LutModel.ascii_bytes "a") (LutModel.ascii_bytes "b") 2 7) _ _ P1 _ NT _).
    + split; [split; [lia|]|]; [intros [H|[]]; vm_compute in H; discriminate H|]. intros l <-. now left.
    + cbn [client_call]. unfold table_call. change (cl_caches cl1 7%nat) with (Some c1). cbv beta iota. rewrite E2. reflexivity.
  - exists c2. split; [reflexivity|]. vm_compute in E1. injection E1 as <-. vm_compute in E2. injection E2 as _ <-. vm_compute. reflexivity.
Qed.

(** C118: a composition that is left as it was, or put back, looks as it did. *)
From Coq Require String.
Import String.StringSyntax.
From Coq Require Import Lia Floats.SpecFloat.
From Verif Require Import Machine CacheModel BBoxModel BBoxSpec MergeSpec AttrModel AttrSpec HashSpec LutSpec StreamModel GraphModel GraphSpec GraphSim NodeModel NodeExamples FrameModel SoundSpec SafeSpec TotalSpec SceneSpec EachSpec
  AlikeSpec ClientModel ClientSpec ClientSpec2 ClientProofs ProgramSpec ProgramProofs2 ProgramSpec2 ProgramProofs3 ProgramSpec3 ProgramProofs4 ChainSpec AttrProofs EditSpec EditProofs PropertiesNode PropertiesSafe PropertiesShow2 PropertiesTotal PropertiesClient PropertiesClient2 PropertiesProgram PropertiesProgram2.
Local Open Scope string_scope.

(** Whatever a program did between two executions of a node: if what is above
    the node reads the same, is connected the same and its files are the same,
    both outputs are the same picture. *)
Theorem C118_again : forall D p (x : externals D) B ok srt (E : setting D),
  roomy B -> sane x B ok -> resampler_works x B -> sorts srt -> clean_paths (x_expand x) -> no_collisions (x_digest x) (SoundSpec.used E) -> digest_u64 (x_digest x) ->
  (forall l, In l (SoundSpec.used E) -> x_digest x l <> 0) -> keeps_sources x E ->
  forall h h' cl cl' i n n' frames frames' fr call call' fuel fuel' cl1 cl1',
  neat_past p x E srt B ok h cl -> only_builds i h -> all_careful p B i h -> described i h (hd_id n) <> None -> all_used i h (hd_id n) -> definite x (cl_disk cl) fr i h (hd_id n) ->
  runs call i n (frames ++ [fr]) -> tame_call p x E srt cl fuel call -> client_call p x srt fuel cl call = Some (Ok (cl1, RStatus ExSuccess)) ->
  neat_past p x E srt B ok h' cl' -> only_builds i h' -> all_careful p B i h' -> as_it_was i h h' (hd_id n) -> files_as_they_were x fr (cl_disk cl) (cl_disk cl') i h (hd_id n) ->
  runs call' i n' (frames' ++ [fr]) -> hd_id n' = hd_id n -> tame_call p x E srt cl' fuel' call' -> client_call p x srt fuel' cl' call' = Some (Ok (cl1', RStatus ExSuccess)) ->
  exists v v', answers p x srt cl1 (COutput i) (RStream v) /\ answers p x srt cl1' (COutput i) (RStream v') /\ looks_like v v'.
Proof. exact @seen_again. Qed.
Print Assumptions C118_again.

(** Questions, executions, caches, lookup tables, other graphs, new nodes and
    anything done to nodes that are not above leave it as it was. *)
Theorem C118_aside : forall i h more id, only_builds i h -> described i h id <> None -> all_aside i (above i h id) more -> as_it_was i h (h ++ more) id.
Proof. exact aside_leaves. Qed.
Print Assumptions C118_aside.

(** So does setting an attribute and, later, setting it to what it read before. *)
Theorem C118_set_back : forall i h more id m n w w' r r', only_builds i h -> described i h id <> None -> described i h (hd_id m) = Some n ->
  all_aside i (above i h id) more -> same_target w w' -> get_value (w_kind w) (w_name w) n = w_value w' ->
  as_it_was i h (h ++ (CSet i m w, r) :: more ++ [(CSet i m w', r')]) id.
Proof. exact set_back. Qed.
Print Assumptions C118_set_back.

(** And connecting something else to an input and, later, what was connected
    before. *)
Theorem C118_connected_back : forall i h more id u v b slot r r', only_builds i h -> described i h id <> None ->
  connected i h (hd_id v) (hd_id b) slot -> all_aside i (above i h id) more ->
  as_it_was i h (h ++ (CConnect i u b slot, r) :: more ++ [(CConnect i v b slot, r')]) id.
Proof. exact connected_back. Qed.
Print Assumptions C118_connected_back.

(** One after the other. *)
Theorem C118_steps : forall i h1 h2 h3 id, as_it_was i h1 h2 id -> as_it_was i h2 h3 id -> as_it_was i h1 h3 id.
Proof. exact as_it_was_steps. Qed.
Print Assumptions C118_steps.

(* ------------------------------ example ------------------------------ *)

(** The second program of C117 goes on: it moves the crop, creates a reader, moves
    the crop back, connects the new reader to the merge, creates a node
    in another graph, and connects the old one again. *)
Definition away_set : list ccall := [CSet 3 (Handle TCrop 14) (WI32 "window_min_x" 2); CCreate 3 TRead (ById 19); CSet 3 (Handle TCrop 14) (WI32 "window_min_x" 1)].
Definition away_connect : list ccall := [CConnect 3 (Handle TRead 19) (Handle TMerge 13) 2; CCreate 5 TCrop (ById 11); CConnect 3 (Handle TRead 11) (Handle TMerge 13) 2].
Definition away_made : list ccall := (twin_made ++ away_set ++ away_connect)%list.
Definition away_calls : list (ccall * reply) := Eval vm_compute in
  match prepare (client_new safe_disk) away_made with Some (h, _) => h | None => [] end.

Definition away_first : list (ccall * reply) := Eval vm_compute in firstn 16 away_calls.
Lemma away_builds : only_builds 3 away_first /\ only_builds 3 away_calls.
Proof.
  assert (N : only_builds 3 []) by (intros h1 call r h2 E; destruct h1; discriminate E).
  split; apply (only_buildsb_ok 3 _ [] N); vm_compute; reflexivity.
Qed.
Lemma away_back : as_it_was 3 twin_calls away_calls 14.
Proof.
  assert (F : exists n, described 3 twin_calls 14 = Some n /\ get_value KI32 "window_min_x" n = w_value (WI32 "window_min_x" 1)) by (eexists; split; vm_compute; reflexivity).
  destruct F as (n & DN & RV). apply (as_it_was_steps 3 _ away_first).
  - refine (set_back 3 twin_calls [(CCreate 3 TRead (ById 19), RNode (Handle TRead 19))] 14 (Handle TCrop 14) n (WI32 "window_min_x" 2) (WI32 "window_min_x" 1) RVoid RVoid
      twin_builds _ DN _ _ RV).
    + vm_compute. discriminate.
    + intros c q [Q|[]]. injection Q as <- _. exact I.
    + split; reflexivity.
  - refine (connected_back 3 away_first [(CCreate 5 TCrop (ById 11), RNode (Handle TCrop 11))] 14 (Handle TRead 19) (Handle TRead 11) (Handle TMerge 13) 2 RVoid RVoid (proj1 away_builds) _ _ _).
    + vm_compute. discriminate.
    + vm_compute. reflexivity.
    + intros c q [Q|[]]. injection Q as <- _. exact I.
Qed.
Definition away_crop : node := setup TCrop 14 [WI32 "window_min_x" 1; WI32 "window_max_x" 5; WI32 "window_max_y" 5; WI32 "window_min_x" 2; WI32 "window_min_x" 1].
Lemma away_nodes id n : described 3 away_calls id = Some n ->
  (id = 11 /\ alike n kept_read) \/ (id = 12 /\ alike n kept_other) \/ (id = 13 /\ alike n kept_merge) \/ (id = 14 /\ alike n away_crop) \/ (id = 19 /\ alike n (setup TRead 19 [])).
Proof.
  intro H. assert (K : In id [11; 12; 13; 14; 19]).
  { destruct (described_created 3 away_calls id ltac:(congruence)) as (t & how & r & I & <-). unfold away_calls in I.
    repeat (destruct I as [I|I]; [try discriminate I; injection I; intros; subst; cbn [creation_id In]; tauto|]). destruct I. }
  destruct K as [<-|[<-|[<-|[<-|[<-|[]]]]]]; vm_compute in H; injection H as <-.
  - left. split; [reflexivity|]. split; vm_compute; reflexivity.
  - right. left. split; [reflexivity|]. split; vm_compute; reflexivity.
  - right. right. left. split; [reflexivity|]. split; vm_compute; reflexivity.
  - right. right. right. left. split; [reflexivity|]. split; vm_compute; reflexivity.
  - right. right. right. right. split; [reflexivity|]. split; vm_compute; reflexivity.
Qed.
Lemma away_careful : all_careful Debug area 3 away_calls.
Proof.
  intros id n l DN _. destruct (away_nodes _ _ DN) as [(_ & K)|[(_ & K)|[(_ & K)|[(_ & K)|(_ & K)]]]]; apply (SafeFacts.careful_key Debug area _ n _ (proj1 K) (proj2 K)).
  - split; [apply kept_wf; intros w [<-|[]] c [<-|[]]; lia|exact I].
  - split; [apply kept_wf; intros w [<-|[]] c [<-|[]]; lia|exact I].
  - split; [apply kept_wf; intros w []|exact I].
  - split; [apply kept_wf; intros w H; repeat (destruct H as [<-|H]; [cbn; lia|]); destruct H|].
    intros _. split; [vm_compute; discriminate|]. change (within (BBox 1 0 5 5) area). unfold within, window_in. cbn. lia.
  - split; [apply (kept_wf TRead 19 []); intros w []|exact I].
Qed.
Lemma away_same : nd_attrs away_crop = nd_attrs kept_crop.
Proof.
  set (n := setup TCrop 14 [WI32 "window_min_x" 1; WI32 "window_max_x" 5; WI32 "window_max_y" 5]).
  change (nd_attrs (node_write (node_write n (WI32 "window_min_x" 2)) (WI32 "window_min_x" 1)) = nd_attrs kept_crop).
  rewrite (write_back n); [vm_compute; reflexivity|split; reflexivity|vm_compute; reflexivity].
Qed.
Lemma away_past : exists cl, neat_past Debug demo kept_setting insertion_sort area fine_disk away_calls cl /\ cl_disk cl = safe_disk /\
  tame_call Debug demo kept_setting insertion_sort cl 99 (fst twin_run) /\
  exists cl', client_call Debug demo insertion_sort 99 cl (fst twin_run) = Some (Ok (cl', RStatus ExSuccess)).
Proof.
  destruct (prepare (client_new safe_disk) away_made) as [[h cl]|] eqn:E; [|vm_compute in E; discriminate E].
  assert (HH : h = away_calls) by (vm_compute in E; injection E as <- _; reflexivity).
  assert (P : neat_past Debug demo kept_setting insertion_sort area fine_disk h cl).
  { refine (prog_past away_made eq_refl [] (client_new safe_disk) h cl (np_new _ _ _ _ _ _ safe_disk _ _) E).
    - intros q Q. split; reflexivity.
    - exact (proj2 safe_world). }
  assert (G : exists g' w' log, cl_caches cl 0%nat = Some (with_capacity 193600) /\ cl_disk cl = safe_disk /\ log_ok log /\
    execute (recording (node_ops Debug demo)) insertion_sort 99 (cl_graphs cl 3%nat) 14 [frame0] (World (with_capacity 193600) (cl_disk cl), []) = Some (Ok (g', (w', log), ExSuccess))).
  { vm_compute in E. injection E as _ <-. do 3 eexists. split; [reflexivity|]. split; [reflexivity|]. split; [|vm_compute; reflexivity]. vm_compute. repeat split. exact away_same. }
  destruct G as (g' & w' & log & C & DK & LO & X). clear E. subst h. exists cl. split; [exact P|]. split; [exact DK|]. split.
  - exact (tame_run cl 3 (Handle TCrop 14) [frame0] _ g' w' log ExSuccess X C (all_tame _ (log_expected _ LO))).
  - cbn [client_call twin_run fst]. unfold execute_call. rewrite C. cbn [hd_id]. rewrite (recording_faithful _ _ _ _ _ _ _ _ _ _ _ _ X). eexists. reflexivity.
Qed.

(** All conditions hold before and after. *)
Example C118_example : exists cl cl' cl1 cl1',
  neat_past Debug demo kept_setting insertion_sort area fine_disk twin_calls cl /\ only_builds 3 twin_calls /\ all_careful Debug area 3 twin_calls /\
  described 3 twin_calls 14 <> None /\ all_used 3 twin_calls 14 /\ definite demo (cl_disk cl) frame0 3 twin_calls 14 /\
  tame_call Debug demo kept_setting insertion_sort cl 99 (fst twin_run) /\ client_call Debug demo insertion_sort 99 cl (fst twin_run) = Some (Ok (cl1, RStatus ExSuccess)) /\
  neat_past Debug demo kept_setting insertion_sort area fine_disk away_calls cl' /\ only_builds 3 away_calls /\ all_careful Debug area 3 away_calls /\
  as_it_was 3 twin_calls away_calls 14 /\ files_as_they_were demo frame0 (cl_disk cl) (cl_disk cl') 3 twin_calls 14 /\
  tame_call Debug demo kept_setting insertion_sort cl' 99 (fst twin_run) /\ client_call Debug demo insertion_sort 99 cl' (fst twin_run) = Some (Ok (cl1', RStatus ExSuccess)) /\
  length away_calls = (length twin_calls + 6)%nat.
Proof.
  destruct twin_past as (cl & P & DK & _ & T & (cl1 & X)). destruct away_past as (cl' & P' & DK' & T' & (cl1' & X')). exists cl, cl', cl1, cl1'. rewrite DK, DK'.
  split; [exact P|]. split; [exact twin_builds|]. split; [exact twin_careful|]. split; [vm_compute; discriminate|]. split; [exact twin_used|]. split; [exact twin_definite|].
  split; [exact T|]. split; [exact X|]. split; [exact P'|]. split; [exact (proj2 away_builds)|]. split; [exact away_careful|]. split; [exact away_back|].
  split; [intros a n path _ _ _ _; split; reflexivity|]. split; [exact T'|]. split; [exact X'|]. reflexivity.
Qed.

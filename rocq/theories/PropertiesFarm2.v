(** C121: writers need paths of their own when frames are shared. *)
From Coq Require String.
Import String.StringSyntax.
From Coq Require Import Lia Floats.SpecFloat.
From Verif Require Import Machine BakeModel BakeProofs CacheModel BBoxModel BBoxSpec MergeSpec PathModel AttrModel AttrSpec HashModel HashSpec LutSpec StreamModel GraphModel GraphSpec GraphSim NodeModel NodeExamples FrameModel SoundSpec SafeSpec TotalSpec SceneSpec EachSpec
  LutProofs3 GraphWalk AlikeSpec WriteSpec ClientModel ClientSpec ClientSpec2 ClientProofs ClientProofs2 ProgramSpec ProgramProofs2 ProgramSpec2 ProgramProofs3 ProgramSpec4 FarmSpec FarmProofs
  PropertiesNode PropertiesSafe PropertiesScene PropertiesShow2 PropertiesTotal PropertiesWrite PropertiesEach PropertiesClient PropertiesClient2 PropertiesProgram PropertiesProgram4 PropertiesFarm.
Local Open Scope string_scope.


(** A sequence of two files, and a program that writes every frame of it to the
    same path. *)
Definition seq_disk : disk := [([48], dot_image); ([49], blank)].
(** o.exr *)
Definition still_path : list Z := [111; 46; 101; 120; 114].
Definition seq_made : list ccall :=
  [CSetCapacity 0 193600; CCreate 0 TRead (ById 1); CSet 0 (Handle TRead 1) (WStr "file_path" [35]);
   CCreate 0 TWrite (ById 2); CSet 0 (Handle TWrite 2) (WStr "file_path" still_path); CSet 0 (Handle TWrite 2) (WI32 "execute" 1); CSet 0 (Handle TWrite 2) (WI32 "enable" 1);
   CConnect 0 (Handle TRead 1) (Handle TWrite 2) 0].
Definition seq_calls : list (ccall * reply) := Eval vm_compute in match prepare (client_new seq_disk) seq_made with Some (h, _) => h | None => [] end.
Definition seq_graph : graph node stream := Eval vm_compute in
  match prepare (client_new seq_disk) seq_made with Some (_, cl) => cl_graphs cl 0%nat | None => graph_new stream_new end.
Definition seq_read : node := setup TRead 1 [WStr "file_path" [35]].
Definition still_write : node := setup TWrite 2 [WStr "file_path" still_path; WI32 "execute" 1; WI32 "enable" 1].
Definition seq_there := Eval vm_compute in PropertiesWrite.outcome seq_graph 2 [frame0; frame1] (World (with_capacity 193600) seq_disk).
Definition seq_back := Eval vm_compute in PropertiesWrite.outcome seq_graph 2 [frame1; frame0] (World (with_capacity 193600) seq_disk).
Definition seq_keys : list (list Z) := Eval vm_compute in nodup (list_eq_dec Z.eq_dec) (keys_of (snd seq_there ++ snd seq_back)).
Definition seq_kept : list Z -> bool := fun q => bytes_eqb [48] q || bytes_eqb [49] q.
Definition seq_setting : setting disk := Setting seq_keys seq_kept seq_disk 0.

Lemma seq_wf : HashSpec.wf_block (nd_attrs seq_read) /\ HashSpec.wf_block (nd_attrs still_write).
Proof.
  split; apply kept_wf; intros w Q; repeat (destruct Q as [<-|Q]; [cbn; intuition lia|]); destruct Q.
Qed.
Definition in_seq (q : node * spec_float * list stream) : Prop :=
  let '(n, fr, ins) := q in
  (alike n seq_read \/ alike n still_write) /\ (fr = frame0 \/ fr = frame1) /\
  exists l, cache_hash_bytes Debug (x_expand demo) (nd_type n) (nd_attrs n) fr (map st_hash ins) = Ok l /\ In l seq_keys.
Lemma seq_tame log : Forall in_seq log -> Forall (tame Debug demo seq_setting) log.
Proof.
  apply Forall_impl. intros [[n fr] ins] (A & F & K). destruct seq_wf as (W1 & W2).
  unfold tame. cbv zeta. destruct A as [(T & A)|(T & A)]; (split; [rewrite A; assumption|]); (split; [exact K|]); rewrite T, A; clear K; (split; [intros _ _; exact I|]).
  - right. split; [reflexivity|]. intros path Q. destruct F as [-> | ->]; vm_compute in Q; injection Q as <-; reflexivity.
  - intros _ _ path Q. destruct F as [-> | ->]; vm_compute in Q; injection Q as <-; reflexivity.
Qed.
Lemma seq_logs : Forall in_seq (snd seq_there) /\ Forall in_seq (snd seq_back).
Proof.
  unfold seq_there, seq_back. cbn [snd]. split; repeat apply Forall_cons; try apply Forall_nil;
    (split; [first [left; split; vm_compute; reflexivity|right; split; vm_compute; reflexivity]
     |split; [first [left; reflexivity|right; reflexivity]|eexists; split; [vm_compute; reflexivity|vm_compute; tauto]]]).
Qed.
Lemma seq_nodes id n : described 0 seq_calls id = Some n -> (id = 1 /\ alike n seq_read) \/ (id = 2 /\ alike n still_write).
Proof.
  intro H. assert (K : In id [1; 2]).
  { destruct (described_created 0 seq_calls id ltac:(congruence)) as (t & how & r & I & <-). unfold seq_calls in I.
    repeat (destruct I as [I|I]; [try discriminate I; injection I; intros; subst; cbn [creation_id In]; tauto|]). destruct I. }
  destruct K as [<-|[<-|[]]]; vm_compute in H; injection H as <-; [left|right]; (split; [reflexivity|split; vm_compute; reflexivity]).
Qed.
Lemma seq_links a b s : connected 0 seq_calls a b s -> In (a, b, s) [(1, 2, 0)].
Proof.
  intro C. destruct (connected_made _ _ _ _ _ C) as (n & m & r & I & A & B). unfold seq_calls in I.
  repeat (destruct I as [I|I]; [try discriminate I; injection I; intros; subst; cbn [hd_id] in *; vm_compute in C; try discriminate C; cbn; auto|]). destruct I.
Qed.
Lemma seq_fine : fine_disk seq_disk.
Proof.
  intros path i. cbn [seq_disk disk_find].
  destruct (bytes_eqb [48] path); [intros [= <-]|destruct (bytes_eqb [49] path); [intros [= <-]|discriminate]].
  all: unfold fine_image, fine_block, PixelSpec.wf_block, PixelSpec.placed, SafeSpec.within, window_in; cbn; repeat split; try lia; try reflexivity; auto.
Qed.
Lemma seq_past calls : forallb prog_calm calls = true -> forall h0 cl h cl',
  neat_past Debug demo seq_setting insertion_sort area fine_disk h0 cl -> prepare cl calls = Some (h, cl') ->
  neat_past Debug demo seq_setting insertion_sort area fine_disk (h0 ++ h) cl'.
Proof.
  induction calls as [|c calls IH]; intros N h0 cl h cl' P R; cbn [prepare] in R.
  - injection R as <- <-. rewrite app_nil_r. exact P.
  - cbn [forallb] in N. apply andb_prop in N. destruct N as (N1 & N2).
    destruct (client_call Debug demo insertion_sort 99 cl c) as [[[cl1 r]|]|] eqn:EC; try discriminate R.
    destruct (prepare cl1 calls) as [[h1 cl2]|] eqn:E2; [|discriminate R]. injection R as <- <-.
    change (h0 ++ (c, r) :: h1)%list with (h0 ++ [(c, r)] ++ h1)%list. rewrite app_assoc.
    unfold prog_calm in N1. apply andb_prop in N1. destruct N1 as (N1 & N3).
    assert (T : tame_call Debug demo seq_setting insertion_sort cl 99 c).
    { destruct c; cbn in N1 |- *; try exact I; try discriminate N1. }
    assert (NC : neat_call Debug area h0 c).
    { destruct c; try discriminate N1; try exact I. apply Z.eqb_eq in N3. subst value. split; [unfold two64; lia|]. intros _. unfold largest, area, two64. cbn. lia. }
    apply (IH N2 _ _ _ _ (np_call _ _ _ _ _ _ _ _ _ _ _ _ P T NC EC) E2).
Qed.

(** Writers that share a path break this: of two orders of the frames, each
    leaves its last one. *)
Theorem C121_own_paths_refuted : exists D p (x : externals D) kept d0 srt0 i0 h0 cl0 id0 same frames1 frames2 d d1 d2,
  clean_paths (x_expand x) /\ digest_u64 (x_digest x) /\ sorts srt0 /\ past p x srt0 h0 cl0 /\ only_builds i0 h0 /\ independent_files x same /\
  (forall fr id, In fr frames1 -> definite x d0 fr i0 h0 id) /\
  farm p x kept d0 i0 h0 id0 frames1 d d1 /\ farm p x kept d0 i0 h0 id0 frames2 d d2 /\
  (forall fr, In fr frames1 <-> In fr frames2) /\ ~ same d1 d2.
Proof.
  destruct demo_keys as (CP & DU & _). destruct seq_logs as (L1 & L2). apply seq_tame in L1, L2.
  destruct (prepare (client_new seq_disk) seq_made) as [[h cl]|] eqn:E; [|vm_compute in E; discriminate E].
  assert (HH : h = seq_calls) by (vm_compute in E; injection E as <- _; reflexivity).
  assert (P : neat_past Debug demo seq_setting insertion_sort area fine_disk h cl).
  { refine (seq_past seq_made eq_refl [] (client_new seq_disk) h cl (np_new _ _ _ _ _ _ seq_disk _ _) E); [intros q Q; split; reflexivity|exact seq_fine]. }
  assert (S : cl_graphs cl 0%nat = seq_graph /\ cl_caches cl 0%nat = Some (with_capacity 193600) /\ cl_disk cl = seq_disk).
  { vm_compute in E. injection E as _ <-. split; [reflexivity|split; reflexivity]. }
  destruct S as (G & C & DK). subst h. clear E.
  assert (NC : no_collisions (x_digest demo) (SoundSpec.used seq_setting)) by (apply collision_check; vm_compute; reflexivity).
  assert (NZ : forall l, In l (SoundSpec.used seq_setting) -> x_digest demo l <> 0).
  { intros l IL. unfold seq_setting, SoundSpec.used, seq_keys in IL. repeat (destruct IL as [<-|IL]; [vm_compute; discriminate|]). destruct IL. }
  pose proof (proj2 (proj2 kept_surroundings) seq_setting) as KS.
  assert (OB : only_builds 0 seq_calls).
  { apply (only_buildsb_ok 0 _ []); [intros h1 call r h2 E; destruct h1; discriminate E|vm_compute; reflexivity]. }
  assert (CA : ProgramSpec.all_careful Debug area 0 seq_calls).
  { intros id n l DN _. destruct seq_wf as (W1 & W2).
    destruct (seq_nodes id n DN) as [(_ & T & A)|(_ & T & A)];
      [apply (SafeFacts.careful_key Debug area seq_read)|apply (SafeFacts.careful_key Debug area still_write)]; auto; (split; [assumption|]);
      [exact I|intros _ _; vm_compute; discriminate]. }
  assert (DW : described 0 seq_calls (hd_id (Handle TWrite 2)) <> None) by (vm_compute; discriminate).
  assert (AU : all_used 0 seq_calls (hd_id (Handle TWrite 2))).
  { assert (F1 : fed_by 0 seq_calls 1 []) by (apply (fed_check 0 seq_calls _ seq_links 1 []); [reflexivity|reflexivity|constructor]).
    assert (F2 : fed_by 0 seq_calls 2 [1]) by (apply (fed_check 0 seq_calls _ seq_links 2 [(0, 1)]); [vm_compute; reflexivity|reflexivity|repeat constructor]).
    intros a n l _ DN FB. destruct (seq_nodes _ _ DN) as [(-> & K)|(-> & K)]; rewrite (proj1 K); (split; [|discriminate]).
    - rewrite (fed_unique _ _ _ _ _ FB F1). cbn. lia.
    - rewrite (fed_unique _ _ _ _ _ FB F2). cbn. lia. }
  assert (JOB : forall fs e, execute (recording (node_ops Debug demo)) insertion_sort 99 seq_graph 2 fs (World (with_capacity 193600) seq_disk, []) =
      Some (Ok (fst (fst e), (snd (fst e), snd e), ExSuccess)) -> Forall (tame Debug demo seq_setting) (snd e) ->
    farm Debug demo seq_kept seq_disk 0 seq_calls 2 fs seq_disk (w_disk (snd (fst e)))).
  { intros fs e X U. pose proof (recording_faithful _ _ _ _ _ _ _ _ _ _ _ _ X) as PL.
    assert (TC : tame_call Debug demo seq_setting insertion_sort cl 99 (CExecute 0 (Handle TWrite 2) fs 0)).
    { apply (calm_run _ cl 0 (Handle TWrite 2) fs (with_capacity 193600) (fst (fst e)) (snd (fst e)) (snd e) ExSuccess); [rewrite G, DK; exact X|exact C|exact U]. }
    assert (Q : exists cl', client_call Debug demo insertion_sort 99 cl (CExecute 0 (Handle TWrite 2) fs 0) = Some (Ok (cl', RStatus ExSuccess)) /\ cl_disk cl' = w_disk (snd (fst e))).
    { eexists. cbn [client_call]. unfold execute_call. rewrite C, G, DK. cbn [hd_id]. rewrite PL. split; reflexivity. }
    destruct Q as (cl' & X' & E').
    assert (R : runs (CExecute 0 (Handle TWrite 2) fs 0) 0 (Handle TWrite 2) fs) by (exists 0%nat; now left).
    pose proof (own_job Debug demo area fine_disk insertion_sort seq_setting seq_calls cl 0 (Handle TWrite 2) _ 99 cl' fs NC NZ KS area_roomy demo_sane demo_resamples insertion_sorts
      P OB CA DW AU R TC X') as J.
    rewrite DK, E' in J. cbn [hd_id] in J. rewrite <- (app_nil_r fs). exact (farm_job _ _ _ _ _ _ _ _ _ _ _ _ J (farm_nil _ _ _ _ _ _ _ _)). }
  exists disk, Debug, demo, seq_kept, seq_disk, insertion_sort, 0%nat, seq_calls, cl, 2, same_disk, [frame0; frame1], [frame1; frame0], seq_disk,
    (w_disk (snd (fst seq_there))), (w_disk (snd (fst seq_back))).
  split; [exact CP|]. split; [exact DU|]. split; [exact insertion_sorts|].
  split; [exact (tame_is_past _ _ _ _ _ _ (neat_tame _ _ _ _ _ _ _ _ P))|]. split; [exact OB|]. split; [exact demo_independent|].
  split.
  { intros fr id _ a n _ DN. split; [destruct (seq_nodes _ _ DN) as [(_ & T & _)|(_ & T & _)]; rewrite T; discriminate|].
    intros _ _ path _. cbn [demo x_kind]. destruct (disk_find _ _); discriminate. }
  split; [apply JOB; [vm_compute; reflexivity|exact L1]|]. split; [apply JOB; [vm_compute; reflexivity|exact L2]|].
  split; [intro fr; cbn [In]; tauto|].
  intro S. specialize (S still_path). vm_compute in S. discriminate S.
Qed.
Print Assumptions C121_own_paths_refuted.

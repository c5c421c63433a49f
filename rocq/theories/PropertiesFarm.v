(** C121: the frames to be rendered can be shared among programs. *)
From Coq Require String.
Import String.StringSyntax.
From Coq Require Import Lia Floats.SpecFloat.
From Verif Require Import Machine BakeModel BakeProofs CacheModel BBoxModel BBoxSpec MergeSpec PathModel AttrModel AttrSpec HashModel HashSpec LutSpec StreamModel GraphModel GraphSpec GraphSim NodeModel NodeExamples FrameModel SoundSpec SafeSpec TotalSpec SceneSpec EachSpec
  LutProofs3 GraphWalk AlikeSpec WriteSpec ClientModel ClientSpec ClientSpec2 ClientProofs ClientProofs2 ProgramSpec ProgramProofs2 ProgramSpec2 ProgramProofs3 ProgramSpec4 FarmSpec FarmProofs
  PropertiesNode PropertiesSafe PropertiesScene PropertiesShow2 PropertiesTotal PropertiesWrite PropertiesEach PropertiesClient PropertiesClient2 PropertiesProgram PropertiesProgram4.
Local Open Scope string_scope.

(** However the frames are divided among programs that have built the same, in
    whichever order and how often, the files are the same in the end. *)
Theorem C121_same_files : forall D p (x : externals D), clean_paths (x_expand x) -> digest_u64 (x_digest x) ->
  forall kept d0 srt0, sorts srt0 -> forall i0 h0 cl0 id0, past p x srt0 h0 cl0 -> only_builds i0 h0 ->
  forall same frames1 frames2 d d1 d2, independent_files x same ->
  (forall fr id, In fr frames1 -> definite x d0 fr i0 h0 id) -> own_paths x frames1 i0 h0 id0 ->
  farm p x kept d0 i0 h0 id0 frames1 d d1 -> farm p x kept d0 i0 h0 id0 frames2 d d2 ->
  (forall fr, In fr frames1 <-> In fr frames2) -> same d1 d2.
Proof. exact @farms_agree. Qed.
Print Assumptions C121_same_files.

(** They are the files one program alone writes: for every frame and writer, the
    composition before it. *)
Theorem C121_files : forall D p (x : externals D) B ok_disk srt (E : setting D) same holds,
  clean_paths (x_expand x) -> digest_u64 (x_digest x) ->
  no_collisions (x_digest x) (SoundSpec.used E) -> (forall l, In l (SoundSpec.used E) -> x_digest x l <> 0) -> keeps_sources x E ->
  roomy B -> sane x B ok_disk -> resampler_works x B -> sorts srt ->
  independent_files x same -> keeps_files x holds -> (forall d d' o, same d d' -> holds d o -> holds d' o) ->
  forall h cl i n frames fr call fuel cl' shared d',
  neat_past p x E srt B ok_disk h cl -> only_builds i h -> ProgramSpec.all_careful p B i h ->
  described i h (hd_id n) <> None -> ~ gone i h (hd_id n) -> shaped i h (hd_id n) -> all_used i h (hd_id n) ->
  runs call i n (frames ++ [fr]) -> tame_call p x E srt cl fuel call -> client_call p x srt fuel cl call = Some (Ok (cl', RStatus ExSuccess)) ->
  farm p x (SoundSpec.sources E) (SoundSpec.disk0 E) i h (hd_id n) shared (cl_disk cl) d' -> (forall f, In f shared <-> In f (frames ++ [fr])) ->
  (forall f id, In f shared -> definite x (SoundSpec.disk0 E) f i h id) -> own_paths x shared i h (hd_id n) ->
  apart (fun f => ProgramSpec.outcome x p (cl_disk cl) f i h) (frames ++ [fr]) ->
  forall f id nw src, In f shared -> above i h (hd_id n) id -> writing i h id nw src ->
  exists o, ProgramSpec.outcome x p (cl_disk cl) f i h id o /\ holds d' o.
Proof. exact @farm_files. Qed.
Print Assumptions C121_files.

(* ------------------------------ example ------------------------------ *)

(** The same files at the same paths. *)
Definition same_disk (d d' : disk) : Prop := forall q, disk_find q d = disk_find q d'.
Lemma demo_independent : independent_files demo same_disk.
Proof.
  assert (F : forall d o q, disk_find q (obey demo d o) = if bytes_eqb (place o) q then Some (snd (fst o)) else disk_find q d) by (intros d [[a b] c] q; reflexivity).
  split; [intros d q; reflexivity|]. split; [intros d d' S q; now rewrite S|]. split; [intros d d' d'' S S' q; now rewrite S, S'|].
  split; [intros d d' o S q; now rewrite !F, S|]. split.
  - intros d o o' NE q. rewrite !F. destruct (bytes_eqb (place o') q) eqn:E1, (bytes_eqb (place o) q) eqn:E2; try reflexivity.
    apply bytes_eqb_true in E1, E2. congruence.
  - intros d o q. rewrite !F. now destruct (bytes_eqb (place o) q).
Qed.

Definition kept_files : list Z -> bool := fun q => bytes_eqb [97] q || bytes_eqb [98] q.
Lemma started keys made h i g : calls_of made = h -> graph_of made i = g -> forallb prog_calm made = true ->
  match prepare (client_new safe_disk) made with Some (_, cl) => cl_caches cl 0%nat = Some (with_capacity 193600) /\ cl_disk cl = safe_disk | None => False end ->
  exists cl, neat_past Debug demo (with_keys keys) insertion_sort area fine_disk h cl /\ cl_graphs cl i = g /\ cl_caches cl 0%nat = Some (with_capacity 193600) /\ cl_disk cl = safe_disk.
Proof.
  unfold calls_of, graph_of. intros <- <- PC X. destruct (prepare (client_new safe_disk) made) as [[h0 cl]|] eqn:E; [|destruct X].
  exists cl. split; [|split; [reflexivity|exact X]].
  refine (calm_past (with_keys keys) made eq_refl PC [] (client_new safe_disk) h0 cl (np_new _ _ _ _ _ _ safe_disk _ _) E).
  - intros q Q. split; reflexivity.
  - exact (proj2 safe_world).
Qed.
Lemma executed keys cl i t id g fs e : cl_graphs cl i = g -> cl_caches cl 0%nat = Some (with_capacity 193600) ->
  execute (recording (node_ops Debug demo)) insertion_sort 99 g id fs (World (with_capacity 193600) (cl_disk cl), []) = Some (Ok (fst (fst e), (snd (fst e), snd e), ExSuccess)) ->
  Forall (usual keys) (snd e) ->
  tame_call Debug demo (with_keys keys) insertion_sort cl 99 (CExecute i (Handle t id) fs 0) /\
  exists cl', client_call Debug demo insertion_sort 99 cl (CExecute i (Handle t id) fs 0) = Some (Ok (cl', RStatus ExSuccess)) /\ cl_disk cl' = w_disk (snd (fst e)).
Proof.
  intros G C X U. pose proof (recording_faithful _ _ _ _ _ _ _ _ _ _ _ _ X) as PL. split.
  - apply (calm_run _ cl i (Handle t id) fs (with_capacity 193600) (fst (fst e)) (snd (fst e)) (snd e) ExSuccess); [rewrite G; exact X|exact C|exact (usual_tame _ _ U)].
  - eexists. cbn [client_call]. unfold execute_call. rewrite C, G. cbn [hd_id]. rewrite PL. split; reflexivity.
Qed.

(** The first program renders one frame, the second the other. *)
Definition first_half := Eval vm_compute in PropertiesWrite.outcome one_graph 4 [frame0] (World (with_capacity 193600) safe_disk).
Definition half_way : disk := Eval vm_compute in w_disk (snd (fst first_half)).
Definition second_half := Eval vm_compute in PropertiesWrite.outcome two_graph 14 [frame1] (World (with_capacity 193600) half_way).
(** The second program renders both, the other way round. *)
Definition whole_work := Eval vm_compute in PropertiesWrite.outcome two_graph 14 [frame1; frame0] (World (with_capacity 193600) safe_disk).
Lemma halves_usual : Forall (usual short_keys) (snd first_half) /\ Forall (usual long_keys) (snd second_half) /\ Forall (usual long_keys) (snd whole_work).
Proof. unfold first_half, second_half, whole_work. cbn [snd]. split; [usual_log|]. split; usual_log. Qed.

Lemma demo_keys : clean_paths (x_expand demo) /\ digest_u64 (x_digest demo) /\
  forall E, E = with_keys short_keys \/ E = with_keys long_keys -> no_collisions (x_digest demo) (SoundSpec.used E) /\
     (forall l, In l (SoundSpec.used E) -> x_digest demo l <> 0) /\ keeps_sources demo E.
Proof.
  destruct kept_surroundings as (CP & DU & KS). split; [exact CP|]. split; [exact DU|].
  intros E [->| ->]; (split; [apply collision_check; vm_compute; reflexivity|]); (split; [|exact (KS _)]);
    intros l IL; unfold with_keys, SoundSpec.used, short_keys, long_keys in IL; repeat (destruct IL as [<-|IL]; [vm_compute; discriminate|]); destruct IL.
Qed.

Lemma one_writers : same_writers 0 3 one_calls two_calls 4 14 render_pairs.
Proof.
  destruct one_renders as (w1 & (W1 & _) & A1), two_renders as (w2 & (W2 & _) & A2). pose proof (proj2 (alike_reads w1 w2 (out_write 4) A1 A2)) as SAME.
  assert (RP : render_pairs 3 13) by now left.
  split.
  - intros a n src _ W. pose proof W as (DN & TW & _). destruct (one_nodes _ _ DN) as [(-> & Q)|[(-> & Q)|[(-> & Q)|(-> & Q)]]]; try (rewrite (proj1 Q) in TW; discriminate TW).
    destruct W as (_ & _ & _ & _ & F), W1 as (DW & _ & _ & _ & F1). rewrite DN in DW. injection DW as <-. pose proof (fed_unique _ _ _ _ _ F F1) as X. injection X as ->.
    exists 14, w2, 13. split; [constructor|]. split; [exact W2|]. split; [exact SAME|exact RP].
  - intros b m src _ W. pose proof W as (DN & TW & _). destruct (two_nodes _ _ DN) as [(-> & Q)|[(-> & Q)|[(-> & Q)|[(-> & Q)|[(-> & Q)|(-> & Q)]]]]]; try (rewrite (proj1 Q) in TW; discriminate TW).
    destruct W as (_ & _ & _ & _ & F), W2 as (DW & _ & _ & _ & F1). rewrite DN in DW. injection DW as <-. pose proof (fed_unique _ _ _ _ _ F F1) as X. injection X as ->.
    exists 4, w1, 3. split; [constructor|]. split; [exact W1|]. split; [exact SAME|exact RP].
Qed.
Lemma two_paths : own_paths demo [frame0; frame1] 3 two_calls 14.
Proof.
  intros fr1 fr2 a b n m src1 src2 path I1 I2 _ _ (DN & TN & _) (DM & TM & _) P1 P2.
  destruct (two_nodes _ _ DN) as [(-> & Q)|[(-> & Q)|[(-> & Q)|[(-> & Q)|[(-> & Q)|(-> & Q)]]]]]; try (rewrite (proj1 Q) in TN; discriminate TN).
  destruct (two_nodes _ _ DM) as [(-> & Q')|[(-> & Q')|[(-> & Q')|[(-> & Q')|[(-> & Q')|(-> & Q')]]]]]; try (rewrite (proj1 Q') in TM; discriminate TM).
  split; [|reflexivity]. unfold node_get_str in P1, P2. rewrite (proj1 Q), (proj2 Q) in P1. rewrite (proj1 Q'), (proj2 Q') in P2.
  destruct I1 as [<-|[<-|[]]], I2 as [<-|[<-|[]]]; try reflexivity; exfalso; vm_compute in P1, P2; rewrite <- P1 in P2; discriminate P2.
Qed.

(** The two ways, and the program that renders alone. *)
Lemma two_farms : exists c2 c2', job Debug demo kept_files safe_disk 3 two_calls 14 [frame0] safe_disk half_way /\
  job Debug demo kept_files safe_disk 3 two_calls 14 [frame1] half_way (w_disk (snd (fst second_half))) /\
  farm Debug demo kept_files safe_disk 3 two_calls 14 [frame0; frame1] safe_disk (w_disk (snd (fst second_half))) /\
  farm Debug demo kept_files safe_disk 3 two_calls 14 [frame1; frame0] safe_disk (w_disk (snd (fst whole_work))) /\
  neat_past Debug demo (with_keys long_keys) insertion_sort area fine_disk two_calls c2 /\ cl_disk c2 = safe_disk /\
  tame_call Debug demo (with_keys long_keys) insertion_sort c2 99 (CExecute 3 (Handle TWrite 14) [frame1; frame0] 0) /\
  client_call Debug demo insertion_sort 99 c2 (CExecute 3 (Handle TWrite 14) [frame1; frame0] 0) = Some (Ok (c2', RStatus ExSuccess)).
Proof.
  destruct demo_keys as (CP & DU & KE). destruct halves_usual as (U1 & U2 & U3).
  assert (RW : resampler_works demo area) by exact demo_resamples.
  destruct (started short_keys one_made one_calls 0 one_graph) as (c1 & P1 & G1 & C1 & D1); [vm_compute; reflexivity|vm_compute; reflexivity|vm_compute; reflexivity|vm_compute; split; reflexivity|].
  destruct (started long_keys two_made two_calls 3 two_graph) as (c2 & P2 & G2 & C2 & D2); [vm_compute; reflexivity|vm_compute; reflexivity|vm_compute; reflexivity|vm_compute; split; reflexivity|].
  destruct (KE _ (or_introl eq_refl)) as (NC1 & NZ1 & KS1), (KE _ (or_intror eq_refl)) as (NC2 & NZ2 & KS2).
  assert (CA1 : ProgramSpec.all_careful Debug area 0 one_calls) by exact (render_careful _ _ one_known).
  assert (CA2 : ProgramSpec.all_careful Debug area 3 two_calls) by exact (render_careful _ _ two_known).
  destruct (executed short_keys c1 0 TWrite 4 one_graph [frame0] first_half G1 C1) as (T1 & c1' & X1 & E1); [rewrite D1; vm_compute; reflexivity|exact U1|].
  assert (R1 : runs (CExecute 0 (Handle TWrite 4) [frame0] 0) 0 (Handle TWrite 4) [frame0]) by (exists 0%nat; now left).
  assert (J1 : job Debug demo kept_files safe_disk 3 two_calls 14 [frame0] safe_disk half_way).
  { assert (DN : described 0 one_calls (hd_id (Handle TWrite 4)) <> None) by (destruct one_renders as (w & ((DW & _) & _) & _); cbn [hd_id]; congruence).
    pose proof (job_done Debug demo kept_files safe_disk 3 two_calls 14 area fine_disk insertion_sort (with_keys short_keys) one_calls c1 0 (Handle TWrite 4) _ 99 c1' render_pairs [frame0]
      eq_refl eq_refl NC1 NZ1 KS1 area_roomy demo_sane RW insertion_sorts P1 (proj1 render_builds) CA1 DN one_used render_build one_writers R1 T1 X1) as J.
    rewrite D1, E1 in J. exact J. }
  assert (FH : fine_disk half_way).
  { assert (N1 : neat_past Debug demo (with_keys short_keys) insertion_sort area fine_disk (one_calls ++ [(CExecute 0 (Handle TWrite 4) [frame0] 0, RStatus ExSuccess)]) c1')
      by (refine (np_call _ _ _ _ _ _ _ _ 99 _ _ _ P1 T1 _ X1); split; [exact (proj1 render_builds)|exact CA1]).
    destruct (neat_fine Debug demo area fine_disk area_roomy demo_sane RW insertion_sort insertion_sorts (with_keys short_keys) _ _ N1) as (FK & _).
    destruct (FK 0%nat) as (c & _ & _ & FD). cbn [w_disk] in FD. rewrite E1 in FD. exact FD. }
  assert (OH : disk_ok demo (with_keys long_keys) half_way).
  { intros q Q. unfold with_keys in Q. cbn [SoundSpec.sources] in Q. apply Bool.orb_true_iff in Q. destruct Q as [Q|Q]; apply bytes_eqb_true in Q; subst q; split; vm_compute; reflexivity. }
  pose (c3 := Client (cl_graphs c2) (cl_caches c2) half_way).
  assert (P3 : neat_past Debug demo (with_keys long_keys) insertion_sort area fine_disk two_calls c3) by exact (np_files _ _ _ _ _ _ _ _ _ P2 OH FH).
  destruct (executed long_keys c3 3 TWrite 14 two_graph [frame1] second_half G2 C2) as (T3 & c3' & X3 & E3); [vm_compute; reflexivity|exact U2|].
  destruct (executed long_keys c2 3 TWrite 14 two_graph [frame1; frame0] whole_work G2 C2) as (T2 & c2' & X2 & E2); [rewrite D2; vm_compute; reflexivity|exact U3|].
  assert (DW : described 3 two_calls (hd_id (Handle TWrite 14)) <> None) by (destruct two_renders as (w & ((DW & _) & _) & _); cbn [hd_id]; congruence).
  assert (R3 : runs (CExecute 3 (Handle TWrite 14) [frame1] 0) 3 (Handle TWrite 14) [frame1]) by (exists 0%nat; now left).
  assert (R2 : runs (CExecute 3 (Handle TWrite 14) [frame1; frame0] 0) 3 (Handle TWrite 14) [frame1; frame0]) by (exists 0%nat; now left).
  pose proof (own_job Debug demo area fine_disk insertion_sort (with_keys long_keys) two_calls c3 3 (Handle TWrite 14) _ 99 c3' [frame1] NC2 NZ2 KS2 area_roomy demo_sane RW insertion_sorts
    P3 (proj2 render_builds) CA2 DW two_used R3 T3 X3) as J3.
  pose proof (own_job Debug demo area fine_disk insertion_sort (with_keys long_keys) two_calls c2 3 (Handle TWrite 14) _ 99 c2' [frame1; frame0] NC2 NZ2 KS2 area_roomy demo_sane RW insertion_sorts
    P2 (proj2 render_builds) CA2 DW two_used R2 T2 X2) as J2.
  rewrite E3 in J3. rewrite E2, D2 in J2. cbn [hd_id] in J2, J3. change (cl_disk c3) with half_way in J3.
  change (SoundSpec.sources (with_keys long_keys)) with kept_files in J2, J3. change (SoundSpec.disk0 (with_keys long_keys)) with safe_disk in J2, J3.
  assert (F1 : farm Debug demo kept_files safe_disk 3 two_calls 14 [frame0; frame1] safe_disk (w_disk (snd (fst second_half)))).
  { change [frame0; frame1] with ([frame0] ++ [frame1] ++ [])%list. exact (farm_job _ _ _ _ _ _ _ _ _ _ _ _ J1 (farm_job _ _ _ _ _ _ _ _ _ _ _ _ J3 (farm_nil _ _ _ _ _ _ _ _))). }
  assert (F2 : farm Debug demo kept_files safe_disk 3 two_calls 14 [frame1; frame0] safe_disk (w_disk (snd (fst whole_work)))).
  { change [frame1; frame0] with ([frame1; frame0] ++ [])%list. exact (farm_job _ _ _ _ _ _ _ _ _ _ _ _ J2 (farm_nil _ _ _ _ _ _ _ _)). }
  exists c2, c2'. repeat (split; [assumption|]). assumption.
Qed.
Lemma two_certain : forall fr id, In fr [frame0; frame1] -> definite demo safe_disk fr 3 two_calls id.
Proof. intros fr id I. exact (two_definite safe_disk [frame0; frame1] safe_disk fr id (aw_here _ _) I). Qed.

(** All conditions hold: one frame by each of two programs, against both frames
    by one of them in the other order. *)
Example C121_example : exists cl0 d1 d2,
  (clean_paths (x_expand demo) /\ digest_u64 (x_digest demo) /\ sorts insertion_sort /\ independent_files demo same_disk) /\
  past Debug demo insertion_sort two_calls cl0 /\ only_builds 3 two_calls /\
  (forall fr id, In fr [frame0; frame1] -> definite demo safe_disk fr 3 two_calls id) /\ own_paths demo [frame0; frame1] 3 two_calls 14 /\
  job Debug demo kept_files safe_disk 3 two_calls 14 [frame0] safe_disk half_way /\ job Debug demo kept_files safe_disk 3 two_calls 14 [frame1] half_way d1 /\
  farm Debug demo kept_files safe_disk 3 two_calls 14 [frame0; frame1] safe_disk d1 /\
  farm Debug demo kept_files safe_disk 3 two_calls 14 [frame1; frame0] safe_disk d2 /\
  d1 <> d2 /\ same_disk d1 d2 /\ new_files d1.
Proof.
  destruct demo_keys as (CP & DU & _). destruct two_farms as (c2 & c2' & J1 & J3 & F1 & F2 & P2 & _).
  assert (PA : past Debug demo insertion_sort two_calls c2) by exact (tame_is_past _ _ _ _ _ _ (neat_tame _ _ _ _ _ _ _ _ P2)).
  pose proof two_certain as DE.
  exists c2, (w_disk (snd (fst second_half))), (w_disk (snd (fst whole_work))).
  split; [exact (conj CP (conj DU (conj insertion_sorts demo_independent)))|]. split; [exact PA|]. split; [exact (proj2 render_builds)|]. split; [exact DE|]. split; [exact two_paths|].
  split; [exact J1|]. split; [exact J3|]. split; [exact F1|]. split; [exact F2|]. split; [vm_compute; discriminate|]. split; [|vm_compute; reflexivity].
  refine (C121_same_files disk Debug demo CP DU kept_files safe_disk insertion_sort insertion_sorts 3 two_calls c2 14 PA (proj2 render_builds) same_disk _ _ _ _ _ demo_independent DE two_paths F1 F2 _).
  intro fr. cbn [In]. tauto.
Qed.

Lemma two_shaped : ~ gone 3 two_calls 14 /\ shaped 3 two_calls 14.
Proof.
  split.
  - intros (n & r & I & _). unfold two_calls in I. repeat (destruct I as [I|I]; [discriminate I|]). destruct I.
  - right. exists (fun id => if id =? 14 then 0%nat else if id =? 13 then 1%nat else if (id =? 15) || (id =? 16) then 2%nat else 3%nat).
    intros a b s _ C. destruct (two_links _ _ _ C) as [E|[E|[E|[E|[E|[]]]]]]; injection E as <- <- <-; reflexivity.
Qed.
Lemma two_apart d frames : (forall fr, In fr frames -> In fr [frame0; frame1]) -> apart (fun f => ProgramSpec.outcome demo Debug d f 3 two_calls) frames.
Proof.
  intros S fr1 fr2 a1 a2 [[path1 img1] co1] [[path2 img2] co2] I1 I2 (n & src & s & (DN & TN & _) & _ & P1 & _) (m & src' & s' & (DM & TM & _) & _ & P2 & _) PL.
  cbn in PL. subst path2. specialize (S fr1 I1) as K1. specialize (S fr2 I2) as K2.
  destruct (two_nodes _ _ DN) as [(-> & Q)|[(-> & Q)|[(-> & Q)|[(-> & Q)|[(-> & Q)|(-> & Q)]]]]]; try (rewrite (proj1 Q) in TN; discriminate TN).
  destruct (two_nodes _ _ DM) as [(-> & Q')|[(-> & Q')|[(-> & Q')|[(-> & Q')|[(-> & Q')|(-> & Q')]]]]]; try (rewrite (proj1 Q') in TM; discriminate TM).
  split; [|reflexivity]. unfold node_get_str in P1, P2. rewrite (proj1 Q), (proj2 Q) in P1. rewrite (proj1 Q'), (proj2 Q') in P2.
  destruct K1 as [<-|[<-|[]]], K2 as [<-|[<-|[]]]; try reflexivity; exfalso; vm_compute in P1, P2; rewrite <- P1 in P2; discriminate P2.
Qed.
(** The files left by the two programs are those described. *)
Example C121_files_example : exists cl cl' n, keeps_files demo each_holds /\ (forall d d' o, same_disk d d' -> each_holds d o -> each_holds d' o) /\
  neat_past Debug demo (with_keys long_keys) insertion_sort area fine_disk two_calls cl /\ cl_disk cl = safe_disk /\ ~ gone 3 two_calls 14 /\ shaped 3 two_calls 14 /\
  tame_call Debug demo (with_keys long_keys) insertion_sort cl 99 (CExecute 3 (Handle TWrite 14) [frame1; frame0] 0) /\
  client_call Debug demo insertion_sort 99 cl (CExecute 3 (Handle TWrite 14) [frame1; frame0] 0) = Some (Ok (cl', RStatus ExSuccess)) /\
  apart (fun f => ProgramSpec.outcome demo Debug safe_disk f 3 two_calls) ([frame1] ++ [frame0]) /\
  above 3 two_calls 14 14 /\ writing 3 two_calls 14 n 13 /\
  forall f, In f [frame0; frame1] -> exists o, ProgramSpec.outcome demo Debug safe_disk f 3 two_calls 14 o /\ each_holds (w_disk (snd (fst second_half))) o.
Proof.
  destruct demo_keys as (CP & DU & KE). destruct (KE _ (or_intror eq_refl)) as (NC & NZ & KS). destruct two_farms as (c2 & c2' & _ & _ & F1 & _ & P2 & D2 & T2 & X2).
  destruct two_renders as (n & (W & _) & _). destruct two_shaped as (NG & SH).
  assert (RW : resampler_works demo area) by exact demo_resamples.
  assert (CA : ProgramSpec.all_careful Debug area 3 two_calls) by exact (render_careful _ _ two_known).
  assert (HS : forall d d' o, same_disk d d' -> each_holds d o -> each_holds d' o) by (intros d d' [[a b] c] S H; unfold each_holds in *; now rewrite <- S).
  assert (AP : apart (fun f => ProgramSpec.outcome demo Debug safe_disk f 3 two_calls) ([frame1] ++ [frame0])) by (apply two_apart; cbn; tauto).
  assert (DW : described 3 two_calls (hd_id (Handle TWrite 14)) <> None) by (destruct W as (DW & _); cbn [hd_id]; congruence).
  assert (R2 : runs (CExecute 3 (Handle TWrite 14) [frame1; frame0] 0) 3 (Handle TWrite 14) ([frame1] ++ [frame0])) by (exists 0%nat; now left).
  exists c2, c2', n. split; [exact demo_keeps|]. split; [exact HS|]. split; [exact P2|]. split; [exact D2|]. split; [exact NG|]. split; [exact SH|]. split; [exact T2|]. split; [exact X2|].
  split; [exact AP|]. split; [constructor|]. split; [exact W|]. intros f I. rewrite <- D2 in AP, F1 |- *.
  refine (C121_files disk Debug demo area fine_disk insertion_sort (with_keys long_keys) same_disk each_holds CP DU NC NZ KS area_roomy demo_sane RW insertion_sorts demo_independent demo_keeps HS
    two_calls c2 3 (Handle TWrite 14) [frame1] frame0 _ 99 c2' [frame0; frame1] _ P2 (proj2 render_builds) CA DW NG SH two_used R2 T2 X2 _ _ _ two_paths AP f 14 n 13 I (above_here _ _ _) W).
  - rewrite D2 in F1 |- *. exact F1.
  - intro g. cbn [In app]. tauto.
  - exact two_certain.
Qed.

(** Programs that have set up the same render the same files. *)
From Coq Require String.
Import String.StringSyntax.
From Coq Require Import Lia Floats.SpecFloat.
From Verif Require Import Machine CacheModel BBoxModel AttrModel AttrSpec AttrProofs HashModel HashSpec EnumModel StreamModel PathModel GraphModel GraphSpec GraphWalk GraphExec GraphHistory GraphHistory2
  GraphFacts GraphSim NodeModel ChainSpec ChainProofs SafeFacts SafeSpec SafeProofs SceneSpec SceneProofs SceneProofs2 AlikeSpec AlikeProofs LutSpec LutHistory SoundSpec TotalSpec TotalProofs
  ClientModel ClientSpec ClientSpec2 ClientProofs ClientProofs2 ProgramSpec ProgramProofs ProgramProofs2 ProgramSpec2 EditProofs WriteSpec SceneWrite ProgramSpec2 ProgramProofs3 ProgramSpec4.
Local Open Scope string_scope.

Lemma build_setup {D} (x : externals D) i1 i2 h1 h2 R : same_build i1 i2 h1 h2 R -> forall fr d, same_setup x fr fr d d i1 i2 h1 h2 R.
Proof.
  intros SB fr d a b RAB. destruct (SB a b RAB) as (a' & b' & n & m & PA & PB & DA & DB & TY & AT & IN).
  exists a', b', n, m. repeat (split; [assumption|]). split; [|exact IN]. intros _ path E. exists path. auto.
Qed.

Section There.
Context {D : Type}.
Variable p : profile.
Variable x : externals D.
Variable i : nat.
Variable h : list (ccall * reply).
Variable g : graph node stream.
Hypothesis WG : wf_graph (node_ops p x) g.
Hypothesis T : tidy i h g.
Notation "j '~>' id" := (nth_error (g_ids g) j = Some id) (at level 70).

Lemma renders_there j id n src : j ~> id -> renders i h id n src -> exists nw k, writes g j nw k /\ k ~> src /\ nd_attrs nw = nd_attrs n.
Proof.
  intros J (W & SI). destruct (writing_there p x i h g WG T j id n src J W) as (nw & k & (N & W1 & W2 & W3 & IO) & K). exists nw, k. split; [|split; [exact K|]].
  - split; [exact N|]. split; [exact W1|]. split; [exact W2|]. split; [exact W3|]. split.
    + destruct IO as (_ & IO & _). split.
      * intros ->. destruct (proj1 (IO j) (or_introl eq_refl)) as (_ & NE). now apply NE.
      * intro m. split.
        -- intro L. destruct (Nat.eq_dec m j) as [->|NE].
           ++ exfalso. destruct (link_ids i h g T _ _ L) as (b & ? & Q & _). apply (link_connected i h g T j j id id J J) in L. destruct L as (s & C). now apply (proj2 (td_known _ _ _ T _ _ _ C)).
           ++ assert (Q : In m [k]) by (apply IO; split; assumption). destruct Q as [<-|[]]. reflexivity.
        -- intros ->. apply IO. now left.
    + intros q m RE NE NQ. destruct (reaches_above i h g T j id q J RE) as (a & A & AB).
      destruct (node_described p x i h g WG T _ _ NQ) as (A' & n0 & DN & KN). assert (a = nd_id m) by congruence. subst a.
      assert (NI : nd_id m <> id) by (intro Q; apply NE; rewrite Q in A; exact (same_place i h g T _ _ _ A J)).
      specialize (SI _ _ AB NI DN). unfold silent in *. destruct (key_inj _ _ KN) as (K1 & _). destruct (key_get _ _ KN) as (GI & _). rewrite K1, !GI. exact SI.
  - destruct (node_described p x i h g WG T _ _ N) as (J' & n0 & DN & KN). assert (nd_id nw = id) by congruence. destruct W as (DW & _). rewrite H, DW in DN. injection DN as <-.
    exact (proj2 (key_inj _ _ KN)).
Qed.

Lemma determined_there d fr : (forall id, definite x d fr i h id) -> determined x d fr g.
Proof.
  intro DE. split.
  - intros m u w s F1 F2. apply (td_link _ _ _ T) in F1, F2. destruct F1 as (ia & ib & A1 & A2 & A3), F2 as (ic & id & B1 & B2 & B3).
    assert (id = ib) by congruence. subst id. pose proof (connected_one _ _ _ _ _ _ A3 B3). subst ic. exact (same_place i h g T _ _ _ A1 B1).
  - intros j n N. destruct (node_described p x i h g WG T _ _ N) as (J & n0 & DN & KN).
    destruct (key_inj _ _ KN) as (K1 & _). destruct (key_get _ _ KN) as (GI & GS & _). rewrite K1, !GI, GS. exact (DE _ _ _ (above_here i h _) DN).
Qed.
End There.

Theorem programs_render {D} p (x : externals D) B1 B2 ok1 ok2 srt1 srt2 (E1 E2 : setting D) :
  clean_paths (x_expand x) -> digest_u64 (x_digest x) ->
  (forall E, E = E1 \/ E = E2 -> no_collisions (x_digest x) (SoundSpec.used E) /\ (forall l, In l (SoundSpec.used E) -> x_digest x l <> 0) /\ keeps_sources x E) ->
  roomy B1 -> roomy B2 -> sane x B1 ok1 -> sane x B2 ok2 -> resampler_works x B1 -> resampler_works x B2 -> sorts srt1 -> sorts srt2 ->
  forall h1 h2 cl1 cl2 i1 i2 n1 n2 frames call1 call2 fuel1 fuel2 cl1' cl2',
  neat_past p x E1 srt1 B1 ok1 h1 cl1 -> only_builds i1 h1 -> all_careful p B1 i1 h1 -> all_used i1 h1 (hd_id n1) ->
  neat_past p x E2 srt2 B2 ok2 h2 cl2 -> only_builds i2 h2 -> all_careful p B2 i2 h2 -> all_used i2 h2 (hd_id n2) ->
  runs call1 i1 n1 frames -> tame_call p x E1 srt1 cl1 fuel1 call1 -> client_call p x srt1 fuel1 cl1 call1 = Some (Ok (cl1', RStatus ExSuccess)) ->
  runs call2 i2 n2 frames -> tame_call p x E2 srt2 cl2 fuel2 call2 -> client_call p x srt2 fuel2 cl2 call2 = Some (Ok (cl2', RStatus ExSuccess)) ->
  forall w1 w2 src1 src2 R, renders i1 h1 (hd_id n1) w1 src1 -> renders i2 h2 (hd_id n2) w2 src2 -> (forall k name, get_value k name w1 = get_value k name w2) ->
  same_build i1 i2 h1 h2 R -> R src1 src2 -> stays_definite x (cl_disk cl2) frames i2 h2 ->
  cl_disk cl1 = cl_disk cl2 -> cl_disk cl1' = cl_disk cl2'.
Proof.
  intros CP DU KE R1 R2 X1 X2 W1 W2 S1 S2 h1 h2 cl1 cl2 i1 i2 n1 n2 frames call1 call2 fuel1 fuel2 cl1' cl2'
    P1 O1 C1 U1 P2 O2 C2 U2 Q1 T1 Y1 Q2 T2 Y2 w1 w2 src1 src2 R RE1 RE2 RW SB RS SD ED.
  assert (ONE : forall B ok srt E h cl i n call fuel cl' w src, roomy B -> sane x B ok -> resampler_works x B -> sorts srt ->
    neat_past p x E srt B ok h cl -> only_builds i h -> all_careful p B i h -> all_used i h (hd_id n) -> renders i h (hd_id n) w src ->
    runs call i n frames -> tame_call p x E srt cl fuel call -> client_call p x srt fuel cl call = Some (Ok (cl', RStatus ExSuccess)) ->
    wf_graph (node_ops p x) (cl_graphs cl i) /\ tidy i h (cl_graphs cl i) /\
    exists start nw k c g' c' log, nth_error (g_ids (cl_graphs cl i)) start = Some (hd_id n) /\ find_index (cl_graphs cl i) (hd_id n) = Some start /\
      writes (cl_graphs cl i) start nw k /\ nth_error (g_ids (cl_graphs cl i)) k = Some src /\ nd_attrs nw = nd_attrs w /\
      session p x E srt (cl_graphs cl) (World c (cl_disk cl)) /\ ok (cl_disk cl) /\ careful_graph p B (cl_graphs cl i) /\ fine_stream B (g_output (cl_graphs cl i)) /\
      all_asked (cl_graphs cl i) start /\
      execute (recording (node_ops p x)) srt fuel (cl_graphs cl i) (hd_id n) frames (World c (cl_disk cl), []) = Some (Ok (g', (World c' (cl_disk cl'), log), ExSuccess)) /\
      Forall (tame p x E) log).
  { clear - CP DU. intros B ok srt E h cl i n call fuel cl' w src RB SX RW HS H OB AC AU RE RU TC HC.
    pose proof (neat_tame p x B ok srt E _ _ H) as TP. pose proof (tame_is_past p x E srt _ _ TP) as P.
    destruct RU as (k & RU). destruct (client_session p x E srt _ _ TP k) as (c & C & S). destruct (neat_fine p x B ok RB SX RW srt HS E _ _ H) as (FK & FO).
    destruct (FK k) as (c' & C' & FW). rewrite C in C'. injection C' as <-.
    destruct (built p x srt h cl i P OB) as (WG & T).
    assert (DE : described i h (hd_id n) <> None) by (destruct RE as ((DN & _) & _); congruence).
    destruct (place_of i h _ T _ DE) as (start & ST). pose proof (position_nodup _ _ _ (td_ids _ _ _ T) ST) as FI.
    destruct (renders_there p x i h _ WG T _ _ _ _ ST RE) as (nw & q & WR & Q & AT).
    split; [exact WG|]. split; [exact T|].
    assert (RUN : client_call p x srt fuel cl call = execute_call p x srt fuel cl i n frames k) by (destruct RU as [-> |(zs & -> & ->)]; reflexivity).
    assert (TE : tame_execution p x E srt cl fuel i n frames k).
    { destruct RU as [-> |(zs & -> & EQ)]; cbn [tame_call] in TC; [exact TC|]. rewrite EQ. exact TC. }
    rewrite RUN in HC. unfold execute_call in HC. rewrite C in HC.
    destruct (execute (node_ops p x) srt fuel (cl_graphs cl i) (hd_id n) frames (World c (cl_disk cl))) as [[[[g [wc wd]] st]|]|] eqn:EX; try discriminate HC.
    injection HC as <- ->. destruct (recording_complete _ _ _ _ _ _ _ [] _ _ _ EX) as (log & REC). cbn [cl_disk w_disk].
    exists start, nw, q, c, g, wc, log. split; [exact ST|]. split; [exact FI|]. split; [exact WR|]. split; [exact Q|]. split; [exact AT|]. split; [exact S|].
    split; [exact (proj2 FW)|]. split; [exact (careful_there p x i h _ WG T B AC)|]. split; [exact (FO i)|]. split; [exact (asked_there p x i h _ WG T start _ ST AU)|].
    split; [exact REC|]. exact (TE c _ _ _ _ C REC). }
  destruct (ONE B1 ok1 srt1 E1 h1 cl1 i1 n1 call1 fuel1 cl1' w1 src1 R1 X1 W1 S1 P1 O1 C1 U1 RE1 Q1 T1 Y1)
    as (WG1 & TD1 & s1 & nw1 & k1 & c1 & g1 & c1' & log1 & I1 & F1 & WR1 & K1 & A1 & SE1 & OK1 & CG1 & FS1 & AA1 & EX1 & TA1).
  destruct (ONE B2 ok2 srt2 E2 h2 cl2 i2 n2 call2 fuel2 cl2' w2 src2 R2 X2 W2 S2 P2 O2 C2 U2 RE2 Q2 T2 Y2)
    as (WG2 & TD2 & s2 & nw2 & k2 & c2 & g2 & c2' & log2 & I2 & F2 & WR2 & K2 & A2 & SE2 & OK2 & CG2 & FS2 & AA2 & EX2 & TA2).
  assert (AE : nd_attrs nw1 = nd_attrs nw2).
  { rewrite A1, A2. destruct RE1 as ((DN1 & TY1 & _) & _), RE2 as ((DN2 & TY2 & _) & _).
    exact (readings_attrs w1 w2 (described_dressed _ _ _ _ DN1) (described_dressed _ _ _ _ DN2) (eq_trans TY1 (eq_sym TY2)) RW). }
  refine (alike_files D p x E1 E2 CP DU KE B1 B2 ok1 ok2 R1 R2 X1 X2 srt1 srt2 S1 S2 _ _ _ _ i1 i2 fuel1 fuel2 _ _ s1 s2 k1 k2 nw1 nw2 frames _ _ _ _ log1 log2
    SE1 OK1 CG1 FS1 SE2 OK2 CG2 FS2 F1 AA1 WR1 F2 AA2 WR2 AE ED
    (fun j k => exists a b, nth_error (g_ids (cl_graphs cl1 i1)) j = Some a /\ nth_error (g_ids (cl_graphs cl2 i2)) k = Some b /\ R a b) _ _ _ EX1 TA1 EX2 TA2).
  - intros fr d. exact (setup_composition p x fr fr d d i1 i2 h1 h2 _ _ srt1 srt2 S1 S2 WG1 WG2 TD1 TD2 R (build_setup x i1 i2 h1 h2 R SB fr d)).
  - eauto 6.
  - intros d fr AW IF. cbn [w_disk] in AW. apply (determined_there p x i2 h2 _ WG2 TD2 d fr). intro id. exact (SD d fr id AW IF).
Qed.

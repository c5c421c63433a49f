(** Programs that have set up the same show the same. *)
From Coq Require String.
Import String.StringSyntax.
From Coq Require Import Lia Sorted Floats.SpecFloat.
From Verif Require Import Machine CacheModel BBoxModel AttrModel AttrSpec AttrProofs HashModel HashSpec EnumModel StreamModel PathModel GraphModel GraphSpec GraphWalk GraphExec GraphHistory GraphHistory2
  GraphFacts GraphSim NodeModel ChainSpec ChainProofs SafeFacts SafeSpec SafeProofs SceneSpec SceneProofs SceneProofs2 AlikeSpec AlikeProofs LutSpec LutHistory SoundSpec TotalSpec TotalProofs
  ClientModel ClientSpec ClientSpec2 ClientProofs ClientProofs2 ProgramSpec ProgramProofs ProgramProofs2 ProgramSpec2 EditProofs.
Local Open Scope string_scope.

(** Lists sorted strictly by their first parts are equal if they have the same
    elements. *)
Lemma sorted_same (l l' : list (Z * Z)) : StronglySorted Z.lt (map fst l) -> StronglySorted Z.lt (map fst l') -> (forall e, In e l <-> In e l') -> l = l'.
Proof.
  revert l'. induction l as [|a l IH]; intros [|b l'] S S' H; [reflexivity|exfalso; apply (H b); now left|exfalso; apply (H a); now left|].
  cbn [map] in S, S'. inversion S as [|? ? S1 S2]; subst. inversion S' as [|? ? S1' S2']; subst. rewrite Forall_forall in S2, S2'.
  assert (a = b) as <-.
  { destruct (proj1 (H a) (or_introl eq_refl)) as [Q|Q]; [now symmetry|]. destruct (proj2 (H b) (or_introl eq_refl)) as [Q'|Q']; [exact Q'|].
    pose proof (S2 _ (in_map fst _ _ Q')). pose proof (S2' _ (in_map fst _ _ Q)). lia. }
  f_equal. apply IH; auto. intro e. split; intro I.
  - destruct (proj1 (H e) (or_intror I)) as [Q|Q]; [|exact Q]. subst e. pose proof (S2 _ (in_map fst _ _ I)). lia.
  - destruct (proj2 (H e) (or_intror I)) as [Q|Q]; [|exact Q]. subst e. pose proof (S2' _ (in_map fst _ _ I)). lia.
Qed.
Lemma fed_unique i h id l l' : fed_by i h id l -> fed_by i h id l' -> l = l'.
Proof.
  intros (ss & -> & S & H) (ss' & -> & S' & H'). f_equal. apply sorted_same; auto. intros (s, a). now rewrite H, H'.
Qed.

Lemma Forall2_join {A B C E} (P : A -> C -> Prop) (Q : B -> E -> Prop) (R : C -> E -> Prop) ms l l' ms' :
  Forall2 P ms l -> Forall2 R l l' -> Forall2 Q ms' l' -> Forall2 (fun m m' => exists a b, P m a /\ Q m' b /\ R a b) ms ms'.
Proof.
  intros F. revert l' ms'. induction F as [|m a ms l H F IH]; intros l' ms' G K; inversion G; subst; inversion K; subst; constructor; eauto.
Qed.

Lemma described_dressed i h id : forall n, described i h id = Some n -> dressed n.
Proof.
  induction h as [|(call, r) h IH] using rev_ind; intros n H; [discriminate H|]. rewrite described_app in H. unfold describe in H. cbn [fst] in H.
  destruct (described i h id) as [m|]; [specialize (IH m eq_refl)|clear IH].
  - destruct call; try (injection H as <-; exact IH). destruct (_ && _)%bool; injection H as <-; [now apply dressed_write|exact IH].
  - destruct call; try discriminate H. destruct (_ && _)%bool; [|discriminate H]. injection H as <-. intros k name _. reflexivity.
Qed.
Lemma readings_attrs n m : dressed n -> dressed m -> nd_type n = nd_type m -> (forall k name, get_value k name n = get_value k name m) -> nd_attrs n = nd_attrs m.
Proof.
  intros C C' T R. apply block_ext. intros k name. destruct (has_attr_dec (nd_type n) k name) as [A|A].
  - rewrite <- (get_field n k name A), R. apply get_field. now rewrite <- T.
  - rewrite (C k name A), T. symmetry. apply C'. now rewrite <- T.
Qed.

Lemma idle_key n m : node_key n = node_key m -> idle n -> idle m.
Proof.
  intros K. destruct (key_inj _ _ K) as (K1 & K2). destruct (key_get _ _ K) as (GI & _). unfold idle. rewrite <- K1, <- K2.
  destruct (nd_type n); auto; try (now rewrite <- GI).
  - intros [H|H]; [left; now rewrite <- GI|right]. intros f I. rewrite <- GI. now apply H.
  - rewrite <- !GI. auto.
Qed.

Lemma same_file_key {D} (x : externals D) fr1 fr2 d1 d2 n m : node_key n = node_key m -> same_file x fr1 fr2 d1 d2 n -> same_file x fr1 fr2 d1 d2 m.
Proof.
  intros K. destruct (key_inj _ _ K) as (K1 & K2). destruct (key_get _ _ K) as (_ & GS & _). unfold same_file. now rewrite <- K1, <- GS.
Qed.

Section Two.
Context {D : Type}.
Variable p : profile.
Variable x : externals D.
Notation ops := (node_ops p x).

Section One.
Variable srt : edge_sort.
Hypothesis HS : sorts srt.
Variable i : nat.
Variable h : list (ccall * reply).
Variable g : graph node stream.
Hypothesis WG : wf_graph ops g.
Hypothesis T : tidy i h g.
Notation "j '~>' id" := (nth_error (g_ids g) j = Some id) (at level 70).

Lemma fed_inputs j id l : j ~> id -> fed_by i h id l -> exists ms, inputs_in_slot_order (g_graph g) j ms /\ Forall2 (fun m a => m ~> a) ms l.
Proof.
  intros J F. pose proof (inputs_slot_order srt (g_graph g) HS (wg_stable _ _ WG) j) as IO. exists (inputs_of srt (g_graph g) j). split; [exact IO|].
  destruct (inputs_fed i h g T j id _ J IO) as (l' & F2 & FB). now rewrite (fed_unique _ _ _ _ _ F FB).
Qed.

Lemma described_node j id n : j ~> id -> described i h id = Some n -> exists m, nth_error (g_nodes g) j = Some m /\ node_key m = node_key n.
Proof.
  intros J DN. destruct (ids_nodes p x _ _ _ WG J) as (m & N & <-). destruct (td_node _ _ _ T _ _ N) as (n0 & DN' & K).
  rewrite DN in DN'. injection DN' as <-. eauto.
Qed.

Lemma passing_through a b : passing i h a b -> forall j, j ~> a -> exists k, k ~> b /\ AlikeSpec.through g j k.
Proof.
  induction 1 as [a|a n k b DN ID FB _ IH]; intros j J; [exists j; split; [exact J|constructor]|].
  destruct (described_node _ _ _ J DN) as (m & N & K). destruct (fed_inputs _ _ _ J FB) as (ms & IO & F). inversion F as [|mk ? ? ? MK F']; subst. inversion F'; subst.
  destruct (IH _ MK) as (kb & KB & TH). exists kb. split; [exact KB|]. exact (through_idle g j m mk kb N (idle_key n m (eq_sym K) ID) IO TH).
Qed.

(** Only what is above the node counts. *)
Fixpoint scene_once d fr (P : nat -> Prop)
  (ONE : forall j a b s, P j -> feeds (g_graph g) a j s -> feeds (g_graph g) b j s -> a = b)
  (UP : forall j m, P j -> link (g_graph g) m j -> P m)
  (OFF : forall j n, P j -> nth_error (g_nodes g) j = Some n -> (nd_type n = TLens -> node_get_i32 n "enable" <> 1) /\
    (nd_type n = TRead -> node_get_i32 n "enable" <> 0 -> forall path,
       expand_string (x_expand x) (node_get_str n "file_path") (frame_number fr) = Ok path -> x_kind x d path <> OtherEntry))
  j v (H : scene p x d fr g j v) {struct H} : P j -> forall v', scene p x d fr g j v' -> looks_like v v'.
Proof.
  destruct H as [j n l vs v E IO FV DO]. intros PJ v' H'. destruct H' as [j n' l' vs' v' E' IO' FV' DO'].
  rewrite E in E'. injection E' as <-. pose proof (order_once _ _ (fun a b s => ONE j a b s PJ) _ _ IO IO') as <-.
  destruct (OFF j n PJ E) as (NL & NO). refine (does_unique p x d fr n vs vs' v v' _ NL NO DO DO').
  assert (PL : Forall P l). { apply Forall_forall. intros m IM. apply (UP j m PJ). now apply IO. }
  clear - FV FV' PL scene_once ONE UP OFF. revert vs' FV'. induction FV as [|a b l vs S FV IH]; intros vs' FV'; inversion FV'; subst; inversion PL; subst; constructor.
  - eapply (scene_once d fr P ONE UP OFF a b S); eassumption.
  - now apply IH.
Qed.
End One.

Variables (fr1 fr2 : spec_float) (d1 d2 : D) (i1 i2 : nat) (h1 h2 : list (ccall * reply)).
Variables g1 g2 : graph node stream.
Variables srt1 srt2 : edge_sort.
Hypothesis HS1 : sorts srt1.
Hypothesis HS2 : sorts srt2.
Hypothesis WG1 : wf_graph ops g1.
Hypothesis WG2 : wf_graph ops g2.
Hypothesis T1 : tidy i1 h1 g1.
Hypothesis T2 : tidy i2 h2 g2.

Lemma setup_composition R : same_setup x fr1 fr2 d1 d2 i1 i2 h1 h2 R ->
  same_composition x fr1 fr2 d1 d2 g1 g2 (fun j k => exists a b, nth_error (g_ids g1) j = Some a /\ nth_error (g_ids g2) k = Some b /\ R a b).
Proof.
  intros SS j k (a & b & J & K & RAB). destruct (SS a b RAB) as (a' & b' & n & m & PA & PB & DA & DB & TY & AT & SF & IN).
  destruct (passing_through srt1 HS1 i1 h1 g1 WG1 T1 a a' PA j J) as (j' & J' & TJ).
  destruct (passing_through srt2 HS2 i2 h2 g2 WG2 T2 b b' PB k K) as (k' & K' & TK).
  destruct (described_node i1 h1 g1 WG1 T1 _ _ _ J' DA) as (n0 & N0 & KN). destruct (described_node i2 h2 g2 WG2 T2 _ _ _ K' DB) as (m0 & M0 & KM).
  destruct (key_inj _ _ KN) as (E1 & E2), (key_inj _ _ KM) as (E3 & E4).
  pose proof (readings_attrs n m (described_dressed _ _ _ _ DA) (described_dressed _ _ _ _ DB) TY AT) as AE.
  exists j', k', n0, m0. split; [exact TJ|]. split; [exact TK|]. split; [exact N0|]. split; [exact M0|]. split; [congruence|]. split; [congruence|].
  split; [exact (same_file_key x _ _ _ _ n n0 (eq_sym KN) SF)|].
  intros ms IO. destruct (inputs_fed i1 h1 g1 T1 j' a' ms J' IO) as (l & F & FB). destruct (IN l FB) as (l' & FB' & FR).
  destruct (fed_inputs srt2 HS2 i2 h2 g2 WG2 T2 k' b' l' K' FB') as (ms' & IO' & F'). exists ms'. split; [exact IO'|].
  exact (Forall2_join _ _ R ms l l' ms' F FR F').
Qed.

Lemma setup_unique R a b j k : same_setup x fr1 fr2 d1 d2 i1 i2 h1 h2 R -> R a b -> definite x d2 fr2 i2 h2 b ->
  nth_error (g_ids g1) j = Some a -> nth_error (g_ids g2) k = Some b ->
  forall v1 v2, scene p x d1 fr1 g1 j v1 -> scene p x d2 fr2 g2 k v2 -> looks_like v1 v2.
Proof.
  intros SS RAB DE J K v1 v2 V1 V2.
  destruct (scene_alike p x fr1 fr2 d1 d2 g1 g2 _ (setup_composition R SS) j k v1 (ex_intro _ a (ex_intro _ b (conj J (conj K RAB)))) V1) as (v' & V' & L).
  refine (like_trans _ _ _ L (scene_once g2 d2 fr2 (fun m => exists c, nth_error (g_ids g2) m = Some c /\ above i2 h2 b c) _ _ _ k v' V' _ v2 V2)).
  - intros m u w s _ F1 F2. apply (td_link _ _ _ T2) in F1, F2. destruct F1 as (ia & ib & A1 & A2 & A3), F2 as (ic & id & B1 & B2 & B3).
    assert (id = ib) by congruence. subst id. pose proof (connected_one _ _ _ _ _ _ A3 B3). subst ic. exact (same_place i2 h2 g2 T2 _ _ _ A1 B1).
  - intros m q (c & C & AB) L'. destruct (link_ids i2 h2 g2 T2 _ _ L') as (e & c' & Q & _). exists e. split; [exact Q|].
    apply (link_connected i2 h2 g2 T2 q m e c Q C) in L'. destruct L' as (s & L'). exact (above_more _ _ _ _ _ _ AB L').
  - intros m n (c & C & AB) N. destruct (node_described p x i2 h2 g2 WG2 T2 _ _ N) as (C' & n0 & DN & KN). assert (nd_id n = c) by congruence. subst c.
    destruct (key_inj _ _ KN) as (K1 & _). destruct (key_get _ _ KN) as (GI & GS & _). rewrite K1, !GI, GS. exact (DE _ _ AB DN).
  - exists b. split; [exact K|constructor].
Qed.
End Two.

(** The picture at the end of an execution. *)
Lemma program_scene {D} p (x : externals D) B ok_disk srt E h cl i n frames fr call fuel cl' :
  roomy B -> sane x B ok_disk -> resampler_works x B -> sorts srt -> clean_paths (x_expand x) -> no_collisions (x_digest x) (SoundSpec.used E) -> digest_u64 (x_digest x) ->
  (forall l, In l (SoundSpec.used E) -> x_digest x l <> 0) -> keeps_sources x E ->
  neat_past p x E srt B ok_disk h cl -> only_builds i h -> all_careful p B i h -> described i h (hd_id n) <> None -> all_used i h (hd_id n) ->
  runs call i n (frames ++ [fr]) -> tame_call p x E srt cl fuel call -> client_call p x srt fuel cl call = Some (Ok (cl', RStatus ExSuccess)) ->
  wf_graph (node_ops p x) (cl_graphs cl i) /\ tidy i h (cl_graphs cl i) /\
  exists start v, nth_error (g_ids (cl_graphs cl i)) start = Some (hd_id n) /\ answers p x srt cl' (COutput i) (RStream v) /\
    scene p x (cl_disk cl) fr (cl_graphs cl i) start v.
Proof.
  intros R SX RW HS CP NC DU NZ KS H OB AC DE AU RU TC HC.
  pose proof (neat_tame p x B ok_disk srt E _ _ H) as TP. pose proof (tame_is_past p x E srt _ _ TP) as P.
  destruct RU as (k & RU). destruct (client_session p x E srt _ _ TP k) as (c & C & S). destruct (neat_fine p x B ok_disk R SX RW srt HS E _ _ H) as (FK & FO).
  destruct (FK k) as (c' & C' & FW). rewrite C in C'. injection C' as <-.
  destruct (built p x srt h cl i P OB) as (WG & T). destruct (place_of i h _ T _ DE) as (start & ST).
  pose proof (position_nodup _ _ _ (td_ids _ _ _ T) ST) as FI.
  pose proof (careful_there p x i h _ WG T B AC) as CG. pose proof (asked_there p x i h _ WG T start _ ST AU) as AA.
  split; [exact WG|]. split; [exact T|].
  assert (RUN : client_call p x srt fuel cl call = execute_call p x srt fuel cl i n (frames ++ [fr]) k) by (destruct RU as [-> |(zs & -> & ->)]; reflexivity).
  assert (TE : tame_execution p x E srt cl fuel i n (frames ++ [fr]) k).
  { destruct RU as [-> |(zs & -> & EQ)]; cbn [tame_call] in TC; [exact TC|]. rewrite EQ. exact TC. }
  rewrite RUN in HC. unfold execute_call in HC. rewrite C in HC.
  destruct (execute (node_ops p x) srt fuel (cl_graphs cl i) (hd_id n) (frames ++ [fr]) (World c (cl_disk cl))) as [[[[g w] st]|]|] eqn:EX; try discriminate HC.
  injection HC as <- ->. destruct (recording_complete _ _ _ _ _ _ _ [] _ _ _ EX) as (log & RE).
  exists start, (g_output g). split; [exact ST|]. split; [intro f; cbn [client_call cl_graphs]; rewrite put_eq; reflexivity|].
  exact (scene_session p x E CP NC DU NZ KS B ok_disk R SX srt HS _ _ i fuel _ start frames fr g w log S (proj2 FW) CG (FO i) FI AA RE (TE c _ _ _ _ C RE)).
Qed.

Theorem programs_same {D} p (x : externals D) B1 B2 ok1 ok2 srt1 srt2 (E1 E2 : setting D) :
  clean_paths (x_expand x) -> digest_u64 (x_digest x) ->
  (forall E, E = E1 \/ E = E2 -> no_collisions (x_digest x) (SoundSpec.used E) /\ (forall l, In l (SoundSpec.used E) -> x_digest x l <> 0) /\ keeps_sources x E) ->
  roomy B1 -> roomy B2 -> sane x B1 ok1 -> sane x B2 ok2 -> resampler_works x B1 -> resampler_works x B2 -> sorts srt1 -> sorts srt2 ->
  forall h1 h2 cl1 cl2 i1 i2 n1 n2 frames1 frames2 fr1 fr2 call1 call2 fuel1 fuel2 cl1' cl2',
  neat_past p x E1 srt1 B1 ok1 h1 cl1 -> only_builds i1 h1 -> all_careful p B1 i1 h1 -> described i1 h1 (hd_id n1) <> None -> all_used i1 h1 (hd_id n1) ->
  neat_past p x E2 srt2 B2 ok2 h2 cl2 -> only_builds i2 h2 -> all_careful p B2 i2 h2 -> described i2 h2 (hd_id n2) <> None -> all_used i2 h2 (hd_id n2) ->
  runs call1 i1 n1 (frames1 ++ [fr1]) -> tame_call p x E1 srt1 cl1 fuel1 call1 -> client_call p x srt1 fuel1 cl1 call1 = Some (Ok (cl1', RStatus ExSuccess)) ->
  runs call2 i2 n2 (frames2 ++ [fr2]) -> tame_call p x E2 srt2 cl2 fuel2 call2 -> client_call p x srt2 fuel2 cl2 call2 = Some (Ok (cl2', RStatus ExSuccess)) ->
  forall R, same_setup x fr1 fr2 (cl_disk cl1) (cl_disk cl2) i1 i2 h1 h2 R -> R (hd_id n1) (hd_id n2) -> definite x (cl_disk cl2) fr2 i2 h2 (hd_id n2) ->
  exists v1 v2, answers p x srt1 cl1' (COutput i1) (RStream v1) /\ answers p x srt2 cl2' (COutput i2) (RStream v2) /\ looks_like v1 v2.
Proof.
  intros CP DU KE R1 R2 X1 X2 W1 W2 S1 S2 h1 h2 cl1 cl2 i1 i2 n1 n2 frames1 frames2 fr1 fr2 call1 call2 fuel1 fuel2 cl1' cl2'
    P1 O1 C1 D1 U1 P2 O2 C2 D2 U2 Q1 T1 Y1 Q2 T2 Y2 R SS RN DE.
  destruct (KE E1 (or_introl eq_refl)) as (N1 & Z1 & K1). destruct (KE E2 (or_intror eq_refl)) as (N2 & Z2 & K2).
  destruct (program_scene p x B1 ok1 srt1 E1 h1 cl1 i1 n1 frames1 fr1 call1 fuel1 cl1' R1 X1 W1 S1 CP N1 DU Z1 K1 P1 O1 C1 D1 U1 Q1 T1 Y1) as (WG1 & TD1 & s1 & v1 & I1 & A1 & V1).
  destruct (program_scene p x B2 ok2 srt2 E2 h2 cl2 i2 n2 frames2 fr2 call2 fuel2 cl2' R2 X2 W2 S2 CP N2 DU Z2 K2 P2 O2 C2 D2 U2 Q2 T2 Y2) as (WG2 & TD2 & s2 & v2 & I2 & A2 & V2).
  exists v1, v2. split; [exact A1|]. split; [exact A2|].
  exact (setup_unique p x fr1 fr2 _ _ i1 i2 h1 h2 _ _ srt1 srt2 S1 S2 WG1 WG2 TD1 TD2 R _ _ s1 s2 SS RN DE I1 I2 v1 v2 V1 V2).
Qed.

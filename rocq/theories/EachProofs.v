(** Every writer of a graph writes the composition before it. *)
From Coq Require String.
Import String.StringSyntax.
From Coq Require Import Lia Floats.SpecFloat.
From Verif Require Import Machine Loops CacheModel FloatModel BBoxModel BBoxSpec PixelModel PixelSpec PathModel PathSpec MergeModel MergeSpec EnumModel AttrModel AttrSpec AttrProofs HashModel HashSpec
  StreamModel BakeModel NodeModel NodeSpec NodeProofs ChainSpec ChainProofs GraphModel GraphSpec GraphHistory GraphFacts GraphSim LutSpec LutHistory RunSpec RunProofs RenderProofs SafeSpec SafeProofs SafeFacts
  ShowSpec UncachedSpec UncachedProofs ShowProofs ViewSpec ViewProofs PartSpec PartProofs SoundSpec SoundProofs1 SoundProofs3 ShowCacheProofs SceneRun SceneSpec SceneProofs SceneProofs2
  WriteSpec SceneWrite EachRun EachSpec.
Local Open Scope string_scope.

Lemma input_once g i l a : inputs_in_slot_order g i [a] -> inputs_in_slot_order g i l -> l = [a].
Proof.
  intros (_ & A & _) (ND & IN & _). destruct l as [|c l].
  - destruct (proj2 (IN a)). apply A. now left.
  - assert (c = a) by (destruct (proj2 (A c) (proj1 (IN c) (or_introl eq_refl))) as [E|[]]; auto). subst c. destruct l as [|b l]; [reflexivity|].
    assert (b = a) by (destruct (proj2 (A b) (proj1 (IN b) (or_intror (or_introl eq_refl)))) as [E|[]]; auto). subst b.
    inversion ND as [|? ? NI _]; subst. destruct NI. now left.
Qed.

Section Files.
Context {D : Type}.
Variable x : externals D.
Variable of : spec_float -> nat -> order -> Prop.
Variable g : graph node stream.
Variable start : nat.
Variable holds : D -> order -> Prop.
Hypothesis KF : keeps_files x holds.

Lemma last_file : forall os d o, holds d o \/ In o os -> exists o', (o' = o \/ In o' os) /\ place o' = place o /\ holds (fold_left (obey x) os d) o'.
Proof.
  destruct KF as (K1 & K2). induction os as [|q os IH]; intros d o Q; cbn [fold_left].
  - destruct Q as [Q|[]]. exists o. auto.
  - destruct Q as [Q|[->|Q]].
    + destruct (list_eq_dec Z.eq_dec (place q) (place o)) as [EP|NP].
      * destruct (IH (obey x d q) q (or_introl (K1 _ _))) as (o' & A & B & C). exists o'. split; [|split; [congruence|exact C]]. right. destruct A as [->|A]; [now left|now right].
      * destruct (IH (obey x d q) o (or_introl (K2 _ _ _ Q NP))) as (o' & A & B & C). exists o'. split; [|auto]. destruct A as [A|A]; [now left|right; now right].
    + destruct (IH (obey x d o) o (or_introl (K1 _ _))) as (o' & A & B & C). exists o'. split; [|auto]. destruct A as [A|A]; [now left|right; now right].
    + destruct (IH (obey x d q) o (or_intror Q)) as (o' & A & B & C). exists o'. split; [|auto]. destruct A as [A|A]; [now left|right; now right].
Qed.

(** All the orders of a range of frames. *)
Lemma all_orders frames d d' : all_written x of g start frames d d' ->
  exists os, d' = fold_left (obey x) os d /\
    (forall o, In o os -> exists fr i, In fr frames /\ of fr i o) /\
    (forall fr i nw k, In fr frames -> reaches (g_graph g) i start -> writer g i nw k -> exists o, In o os /\ of fr i o).
Proof.
  induction 1 as [d|fr frs os d d' A1 A2 AW (os' & E1 & E2 & E3)].
  { exists []. split; [reflexivity|]. split; [intros ? []|intros ? ? ? ? []]. }
  exists (os ++ os'). rewrite fold_left_app. split; [exact E1|]. split.
  - intros o I. apply in_app_or in I. destruct I as [I|I].
    + destruct (A1 o I) as (i & _ & W). exists fr, i. split; [now left|exact W].
    + destruct (E2 o I) as (f & i & F & W). exists f, i. split; [now right|exact W].
  - intros f i nw k [<-|F] RE W.
    + destruct (A2 i nw k RE W) as (o & I & Q). exists o. split; [apply in_or_app; now left|exact Q].
    + destruct (E3 f i nw k F RE W) as (o & I & Q). exists o. split; [apply in_or_app; now right|exact Q].
Qed.

Lemma all_files frames d d' : own_places of frames -> all_written x of g start frames d d' ->
  forall fr i nw k, In fr frames -> reaches (g_graph g) i start -> writer g i nw k ->
  exists o, of fr i o /\ holds d' o.
Proof.
  intros OP AW fr i nw k F RE W. destruct (all_orders _ _ _ AW) as (os & -> & E2 & E3).
  destruct (E3 fr i nw k F RE W) as (o & I & Q). destruct (last_file os d o (or_intror I)) as (o' & A & B & C).
  exists o'. split; [|exact C].
  assert (I' : In o' os) by (destruct A as [->|A]; auto). destruct (E2 o' I') as (fr' & i' & F' & Q').
  destruct (OP fr' fr i' i o' o F' F Q' Q B) as (-> & ->). exact Q'.
Qed.
End Files.

Section Graph.
Context {D : Type}.
Variable p : profile.
Variable x : externals D.
Variable E : setting D.
Hypothesis CP : clean_paths (x_expand x).
Hypothesis NC : no_collisions (x_digest x) (SoundSpec.used E).
Hypothesis DU : digest_u64 (x_digest x).
Hypothesis NZ : forall l, In l (SoundSpec.used E) -> x_digest x l <> 0.
Hypothesis KS : keeps_sources x E.
Variable B : bbox.
Variable ok_disk : D -> Prop.
Hypothesis R : roomy B.
Hypothesis SX : sane x B ok_disk.
Variable srt : edge_sort.
Hypothesis HS : sorts srt.
Notation ops := (recording (node_ops p x)).
Notation state := (world D * list (node * spec_float * list stream))%type.
Notation disk_of c := (w_disk (fst (c : state))).

(** What computing one node does to the files. *)
Definition did (of : spec_float -> nat -> order -> Prop) (g : graph node stream) (fr : spec_float) (j : nat) (c c' : state) : Prop :=
  (exists o, of fr j o /\ disk_of c' = obey x (disk_of c) o) \/
  (disk_of c' = disk_of c /\ forall nw k, ~ writer g j nw k).

Lemma all_did of g start frames c c' :
  traces (did of g) (g_graph g) start frames c c' -> all_written x of g start frames (disk_of c) (disk_of c').
Proof.
  induction 1 as [c|fr frs l c c1 c' TR AL TS IH]; [constructor|].
  assert (Q : exists os, disk_of c1 = fold_left (obey x) os (disk_of c) /\
    (forall o, In o os -> exists i, In i l /\ of fr i o) /\
    (forall i nw k, In i l -> writer g i nw k -> exists o, In o os /\ of fr i o)).
  { clear - TR. induction TR as [c|i l c c1 c' T TR (os & E1 & E2 & E3)].
    - exists []. split; [reflexivity|]. split; [intros ? []|intros ? ? ? []].
    - destruct T as [(o & OW & EO)|(EO & NW)].
      + exists (o :: os). split; [cbn [fold_left]; now rewrite <- EO|]. split.
        * intros q [<-|IQ]; [exists i; split; [now left|exact OW]|]. destruct (E2 q IQ) as (j & J & Q). exists j. split; [now right|exact Q].
        * intros j nw k [<-|J] WJ; [exists o; split; [now left|exact OW]|]. destruct (E3 j nw k J WJ) as (q & IQ & Q). exists q. split; [now right|exact Q].
      + exists os. split; [now rewrite <- EO|]. split.
        * intros q IQ. destruct (E2 q IQ) as (j & J & Q). exists j. split; [now right|exact Q].
        * intros j nw k [<-|J] WJ; [destruct (NW _ _ WJ)|exact (E3 j nw k J WJ)]. }
  destruct Q as (os & E1 & E2 & E3). apply (al_cons _ _ _ _ fr frs os).
  - intros o IO. destruct (E2 o IO) as (i & I & OW). exists i. split; [now apply AL|exact OW].
  - intros i nw k RE WR. apply (E3 i nw k); [now apply AL|exact WR].
  - now rewrite <- E1.
Qed.

(** Whatever writers make of what they are shown. *)
Definition made_by_writers (d : D) (g : graph node stream) (V : spec_float -> nat -> stream -> Prop) (of : spec_float -> nat -> order -> Prop) : Prop :=
  forall fr j nw k s path img co, writer g j nw k -> V fr k s -> fine_stream B s -> careful p B nw 1 -> written p x nw fr s path img co -> of fr j (path, img, co).

(** [d] is any file system with the same sources. *)
Theorem each_step_from d V of G w i fuel id start frames g' w' log :
  disk_ok x E d -> step_by_step p x B d (G i) V -> made_by_writers d (G i) V of ->
  session p x E srt G w -> ok_disk (w_disk w) -> careful_graph p B (G i) -> fine_stream B (g_output (G i)) ->
  find_index (G i) id = Some start -> all_asked (G i) start ->
  execute ops srt fuel (G i) id frames (w, []) = Some (Ok (g', (w', log), ExSuccess)) ->
  Forall (tame p x E) log ->
  all_written x of (G i) start frames (w_disk w) (w_disk w').
Proof.
  intros ED VS OW S OD CG FO FI AA H TM. destruct (session_ok p x E CP NC DU NZ KS srt G w S) as (WO & MO).
  set (g := G i) in *.
  pose (CC := fun c : state => world_ok p x E (fst c) /\ ok_disk (w_disk (fst c))).
  pose (GG := fun c : state => Forall (tame p x E) (snd c)).
  pose (SS := fun s : stream => SoundProofs3.made p x E s /\ fine_stream B s).
  pose (VV := fun fr j s => V fr j s /\ SS s).
  assert (BK : forall n fr m is out c n' st v c', n_compute ops n fr m is out c = Ok (n', st, v, c') -> GG c' -> GG c).
  { intros n fr0 m is out c n' st v c' HC GC. exact (sim_back _ _ _ _ _ (sound_simulates p x E CP NC DU NZ KS) _ _ _ _ _ _ _ _ _ _ HC GC). }
  assert (WF : wf_graph ops g).
  { destruct (session_wf p x E srt G w S i) as [A B0 L]. split; [exact A|exact B0|exact L]. }
  apply (all_did of g start frames (w, []) (w', log)).
  refine (execute_traces ops srt node_key HS CC GG SS VV (did of g) BK fuel g id start frames (w, []) g' (w', log) WF (conj WO OD) (conj (MO i) FO) FI _ H TM).
  intros inputs IO fr0 j m n is out c n' st v c' A LK HC GC (WC & DC) (MS & FS) FV.
  unfold recording in HC. cbn [n_compute] in HC. apply bind_ok in HC. destruct HC as ([[[n1 s1] o1] c1] & HC & K). injection K as <- <- <- <-.
  cbn [fst snd] in *. unfold GG in GC. cbn [snd] in GC. apply Forall_app in GC. destruct GC as (_ & GC). inversion GC as [|? ? T _]; subst.
  assert (MI : Forall (SoundProofs3.made p x E) is) by (clear - FV; induction FV as [|? ? ? ? (_ & M & _)]; constructor; auto).
  assert (FN : Forall (fine_stream B) is) by (clear - FV; induction FV as [|? ? ? ? (_ & _ & M)]; constructor; auto).
  assert (SC : Forall2 (V fr0) (inputs j) is) by (clear - FV; induction FV as [|? ? ? ? (M & _)]; constructor; auto).
  assert (LI : length is = length (inputs j)) by (clear - FV; induction FV; cbn; congruence).
  destruct LK as (n0 & E0 & K0). destruct (key_inj _ _ K0) as (KT & KA). destruct (key_get _ _ K0) as (GI & _).
  assert (CN : careful p B n (length is)) by (rewrite LI; apply (careful_key p B n0); auto; exact (CG j n0 _ E0 (IO j))).
  pose proof HC as HN. cbn [node_ops n_compute] in HC. unfold node_compute in HC. apply bind_ok in HC. destruct HC as (h & EH & HC).
  pose proof EH as EH'. unfold cache_hash in EH. apply bind_ok in EH. destruct EH as (l & BL & EH). injection EH as <-.
  apply bind_ok in HC. destruct HC as ([[st1 s2] w1] & HC & K). injection K as <- <- <- <-.
  assert (CO : cold (fst c) (no_cache (w_disk (fst c)))) by (unfold cold, no_cache; auto).
  destruct (compute_step p x E CP NC DU NZ KS n fr0 m is out l (fst c) st1 s2 w1 (no_cache (w_disk (fst c))) T BL HC WC MI MS CO)
    as (w0' & H0 & WC' & M' & (_ & _ & D')).
  destruct (compute_fine p x B ok_disk R SX n fr0 m is out (no_cache (w_disk (fst c))) CN FN FS
     (proj1 (held_none p B ok_disk R _ DC)) (x_digest x l)) as (st2 & s3 & w2 & H2 & F2 & (_ & D2)).
  rewrite H0 in H2. injection H2 as <- <- <-.
  split; [reflexivity|]. split; [split; [exact WC'|change (ok_disk (w_disk w1)); rewrite <- D'; exact D2]|]. split; [split; [exact M'|exact F2]|].
  intro ST.
  assert (NCO : node_compute p x n fr0 m is out (no_cache (w_disk (fst c))) =
    Ok (Node (nd_type n) (nd_id n) (status_code st1) (nd_attrs n), st1, s2, w0')).
  { unfold node_compute. rewrite EH'. cbn [bind]. rewrite H0. reflexivity. }
  destruct (asked p x g start inputs j m AA IO A) as (MP & RE).
  split.
  { split; [|split; [exact M'|exact F2]].
    assert (VA : viewer_asks n0) by exact (proj2 (AA j n0 (inputs j) RE E0 (IO j))).
    apply (VS fr0 j n0 (inputs j) is s2 E0 (IO j) SC FN VA).
    apply (does_key p x d fr0 n n0 is s2 K0).
    apply (does_disk p x E (w_disk (fst c)) d fr0 n is s2); [apply T|apply WC|exact ED|].
    assert (VI : nd_type n = TViewer -> node_get_i32 n "enable" = 1 /\
       exists o, In o [BakeNothing; BakeColorSpace; BakeColorSpaceAndGrade] /\ told_to_bake (nd_attrs n) o).
    { rewrite KT, KA, GI. exact (proj2 (AA j n0 (inputs j) RE E0 (IO j))). }
    refine (node_does p x B ok_disk R SX n fr0 m is out (no_cache (w_disk (fst c))) (Node (nd_type n) (nd_id n) (status_code st1) (nd_attrs n)) st1 s2 w0' CN FN _ MP VI NCO ST).
    split; reflexivity. }
  unfold did. cbn [fst].
  assert (DQ : nd_type n = TWrite /\ node_get_i32 n "enable" <> 0 /\ node_get_i32 n "execute" <> 0 \/ silent n).
  { unfold silent. assert (TD : nd_type n = TWrite \/ nd_type n <> TWrite) by (destruct (nd_type n); (now left) || (right; discriminate)).
    destruct TD as [TW|TW]; [|right; intro; contradiction].
    destruct (Z.eq_dec (node_get_i32 n "enable") 0); [right; tauto|]. destruct (Z.eq_dec (node_get_i32 n "execute") 0); [right; tauto|]. left. tauto. }
  destruct DQ as [(TW & EN & EX)|SI].
  - destruct (AA j n0 (inputs j) RE E0 (IO j)) as (LE & _). rewrite <- KT, TW in LE. cbn [uses] in LE.
    destruct (inputs j) as [|k [|k2 ks]] eqn:EI; [| |cbn in LE; lia].
    + right. destruct is; [|discriminate LI]. split.
      * change (w_disk w1 = w_disk (fst c)). rewrite <- D'. cbn [compute_op] in H0. rewrite TW in H0. cbn [compute_op] in H0. unfold write_compute in H0.
        destruct (gi TWrite (nd_attrs n) "enable" =? 0); injection H0 as _ _ <-; reflexivity.
      * intros nw k (_ & _ & _ & _ & OI). pose proof (IO j) as Q. rewrite EI in Q. pose proof (input_once _ _ _ _ OI Q) as X. discriminate X.
    + destruct is as [|s [|s' is]]; try discriminate LI. inversion SC as [|? ? ? ? S1 _]; subst.
      destruct (write_writes p x _ _ _ _ _ _ _ _ _ _ _ TW EN EX NCO) as (_ & path & img & co & WR & WD).
      left. exists (path, img, co). split.
      * assert (WT : writer g j n0 k).
        { split; [exact E0|]. split; [congruence|]. rewrite <- !GI. split; [exact EN|]. split; [exact EX|]. pose proof (IO j) as Q. now rewrite EI in Q. }
        assert (CN0 : careful p B n0 1) by (pose proof (CG j n0 _ E0 (IO j)) as Q; now rewrite EI in Q).
        inversion FN as [|? ? FS1 _]; subst.
        exact (OW fr0 j n0 k s path img co WT S1 FS1 CN0 (written_key p x _ _ _ _ _ _ _ K0 WR)).
      * unfold obey. change (w_disk w1 = fst (x_write x (w_disk (fst c)) path img co)). rewrite <- D'. exact WD.
  - right. destruct (silent_disk p x _ _ _ _ _ _ _ _ _ _ SI NCO) as (_ & DK). split; [change (w_disk w1 = w_disk (fst c)); rewrite <- D'; exact DK|].
    intros nw k (N & TW & EN & EX & _). rewrite E0 in N. injection N as <-. rewrite <- GI in EN, EX. destruct (SI ltac:(congruence)); contradiction.
Qed.

Theorem each_step V of G w i fuel id start frames g' w' log :
  step_by_step p x B (w_disk w) (G i) V -> made_by_writers (w_disk w) (G i) V of ->
  session p x E srt G w -> ok_disk (w_disk w) -> careful_graph p B (G i) -> fine_stream B (g_output (G i)) ->
  find_index (G i) id = Some start -> all_asked (G i) start ->
  execute ops srt fuel (G i) id frames (w, []) = Some (Ok (g', (w', log), ExSuccess)) ->
  Forall (tame p x E) log ->
  all_written x of (G i) start frames (w_disk w) (w_disk w').
Proof.
  intros VS OW S. destruct (session_ok p x E CP NC DU NZ KS srt G w S) as (WO & _).
  exact (each_step_from (w_disk w) V of G w i fuel id start frames g' w' log (proj2 WO) VS OW S).
Qed.

Theorem each_session G w i fuel id start frames g' w' log :
  session p x E srt G w -> ok_disk (w_disk w) -> careful_graph p B (G i) -> fine_stream B (g_output (G i)) ->
  find_index (G i) id = Some start -> all_asked (G i) start ->
  execute ops srt fuel (G i) id frames (w, []) = Some (Ok (g', (w', log), ExSuccess)) ->
  Forall (tame p x E) log ->
  all_written x (of_writer p x (w_disk w) (G i)) (G i) start frames (w_disk w) (w_disk w').
Proof.
  apply (each_step (fun fr => scene p x (w_disk w) fr (G i))).
  - intros fr0 j n l is v EN IO SC _ _ DO. exact (scene_node p x (w_disk w) fr0 (G i) j n l is v EN IO SC DO).
  - intros fr0 j nw k s path img co W SC _ _ WR. exists nw, k, s. auto.
Qed.

Theorem each_session_from d G w i fuel id start frames g' w' log : disk_ok x E d ->
  session p x E srt G w -> ok_disk (w_disk w) -> careful_graph p B (G i) -> fine_stream B (g_output (G i)) ->
  find_index (G i) id = Some start -> all_asked (G i) start ->
  execute ops srt fuel (G i) id frames (w, []) = Some (Ok (g', (w', log), ExSuccess)) ->
  Forall (tame p x E) log ->
  all_written x (of_writer p x d (G i)) (G i) start frames (w_disk w) (w_disk w').
Proof.
  intro ED. apply (each_step_from d (fun fr => scene p x d fr (G i)) _ _ _ _ _ _ _ _ _ _ _ ED).
  - intros fr0 j n l is v EN IO SC _ _ DO. exact (scene_node p x d fr0 (G i) j n l is v EN IO SC DO).
  - intros fr0 j nw k s path img co W SC _ _ WR. exists nw, k, s. auto.
Qed.

Theorem each_file G w i fuel id start frames g' w' log holds :
  session p x E srt G w -> ok_disk (w_disk w) -> careful_graph p B (G i) -> fine_stream B (g_output (G i)) ->
  find_index (G i) id = Some start -> all_asked (G i) start ->
  execute ops srt fuel (G i) id frames (w, []) = Some (Ok (g', (w', log), ExSuccess)) ->
  Forall (tame p x E) log -> keeps_files x holds -> own_places (of_writer p x (w_disk w) (G i)) frames ->
  forall fr j nw k, In fr frames -> reaches (g_graph (G i)) j start -> writer (G i) j nw k ->
  exists o, of_writer p x (w_disk w) (G i) fr j o /\ holds (w_disk w') o.
Proof.
  intros S OD CG FO FI AA H TM KF OP.
  pose proof (each_session G w i fuel id start frames g' w' log S OD CG FO FI AA H TM) as AL.
  exact (all_files x (of_writer p x (w_disk w) (G i)) (G i) start holds KF frames _ _ OP AL).
Qed.
End Graph.

(** Graphs that describe the same composition show the same. *)
From Coq Require String.
Import String.StringSyntax.
From Coq Require Import Lia Floats.SpecFloat.
From Verif Require Import Machine Loops FloatModel BBoxModel BBoxSpec PixelModel PixelSpec PathModel MergeModel MergeSpec EnumModel AttrModel AttrSpec
  HashModel HashSpec StreamModel DeformModel BakeModel NodeModel NodeSpec ChainSpec GraphModel GraphSpec GraphSim LutSpec LutHistory SafeSpec ShowSpec ViewSpec ViewProofs PartSpec PartProofs
  SoundSpec SceneSpec SceneProofs SceneProofs2 AlikeSpec.
Local Open Scope string_scope.

Section Alike.
Context {D : Type}.
Variable p : profile.
Variable x : externals D.

Lemma flattened_same s s' A : looks_like s s' -> flattened p x s A -> flattened p x s' A.
Proof.
  intros L (r & E & ->). destruct (process_like p x _ _ _ _ _ _ L E) as (r2 & E2 & B2 & D2 & _). exists r2. split; [exact E2|].
  destruct L as ((_ & LD & _) & _). congruence.
Qed.

(** What a node does depends on what its inputs look like. *)
Lemma does_inputs d fr n vs vs' v : Forall2 looks_like vs vs' -> does p x d fr n vs v -> does p x d fr n vs' v.
Proof.
  intros LV H. pose proof (like_first _ _ LV) as L1. pose proof (like_second _ _ LV) as L2.
  assert (EM : vs = [] <-> vs' = []) by (destruct LV; split; congruence).
  assert (NE' : vs <> [] -> vs' <> []) by tauto.
  destruct H as [T EN SO|T EN LK|ops defs C IFU P O F|T EN LK|T EN LK|m A C T EN NE SE FA FC NP M SP|T EN NE SE NP PI SP|T WHY LK
    |A T EN NE FA NP CU DI SP|T WHY LK|img T EN NE FN ER LK|T WHY LK|T EN TB LK|o ty r T EN TB NB CF Y E LK].
  - now apply does_read.
  - now apply does_read_off.
  - apply (does_add _ _ _ _ _ _ _ ops defs C IFU); destruct L1 as (L1 & L3 & L4); unfold ChainSpec.same_picture in *; intuition congruence.
  - apply does_write; auto. exact (like_trans _ _ _ LK L1).
  - now apply does_write_off.
  - apply (does_merge _ _ _ _ _ _ _ m A C); eauto using flattened_same.
  - apply does_merge_unknown; auto.
  - apply does_merge_off; auto. tauto.
  - apply (does_crop _ _ _ _ _ _ _ A); eauto using flattened_same; destruct L1 as ((L3 & L4 & L5 & L6 & _) & _); rewrite <- ?L4; congruence.
  - apply does_crop_off; [exact T|tauto|exact (like_trans _ _ _ LK L1)].
  - apply (does_resample _ _ _ _ _ _ _ img); auto; destruct L1 as ((L3 & L4 & L5 & L6 & L7) & L8 & L9).
    + now rewrite <- L3, <- L4, <- L5, <- L6.
    + unfold looks_like, ChainSpec.same_picture, repictured in *. cbn [st_block st_display st_data st_spec st_matrix st_ops st_deformers] in *. intuition congruence.
  - apply does_resample_off; [exact T|tauto|exact (like_trans _ _ _ LK L1)].
  - apply does_view; auto. exact (like_trans _ _ _ LK L1).
  - destruct (process_like p x _ _ _ _ _ _ L1 E) as (r2 & E2 & B1 & B2 & B3 & B4 & B5 & B6).
    apply (does_bake _ _ _ _ _ _ _ o ty r2); auto. destruct L1 as ((_ & L4 & _) & _).
    unfold looks_like, ChainSpec.same_picture, viewed in *. cbn [st_block st_display st_data st_spec st_matrix st_ops st_deformers] in *. intuition congruence.
Qed.

(** Idle nodes. *)
Lemma idle_does d fr n vs v : idle n -> does p x d fr n vs v -> looks_like v (first vs).
Proof.
  intros I H. unfold idle in I.
  destruct H as [T EN SO|T EN LK|ops defs C IFU P O F|T EN LK|T EN LK|m A C T EN NE SE FA FC NP M SP|T EN NE SE NP PI SP|T WHY LK
    |A T EN NE FA NP CU DI SP|T WHY LK|img T EN NE FN ER LK|T WHY LK|T EN TB LK|o ty r T EN TB NB CF Y E LK];
    try (rewrite T in I); try contradiction; try assumption.
  - assert (Q : ops = [] /\ defs = []).
    { destruct C as [T|u T EN (f & IF & NF) SS|T OFF|u T EN SS|u T EN SS|T EN]; try (split; reflexivity); rewrite T in I.
      - destruct I as [I|I]; [contradiction|]. apply I in IF. contradiction.
      - contradiction.
      - contradiction. }
    destruct Q as (-> & ->). rewrite !app_nil_r in *. unfold looks_like. auto.
  - destruct I; contradiction.
  - destruct I as (_ & I). apply told in TB. apply told in I. congruence.
Qed.
Lemma does_idle d fr n s : idle n -> does p x d fr n [s] s.
Proof.
  intro I. unfold idle in I. assert (Q : looks_like s (first [s])) by apply like_refl.
  assert (ADD : contributes n [] [] -> does p x d fr n [s] s).
  { intro C. apply (does_add _ _ _ _ _ _ _ [] [] C); [split; intros _ u []|apply Q|now rewrite app_nil_r|now rewrite app_nil_r]. }
  destruct (nd_type n) eqn:T; try contradiction.
  - apply ADD. now apply con_null.
  - now apply does_write.
  - apply ADD. now apply con_grade_off.
  - apply ADD. apply con_off; auto.
  - apply ADD. apply con_off; auto.
  - apply does_crop_off; auto.
  - destruct I as (E & B). now apply does_view.
  - apply does_resample_off; auto. tauto.
Qed.

Lemma alone g i k l : inputs_in_slot_order g i [k] -> inputs_in_slot_order g i l -> l = [k].
Proof.
  intros (_ & A & _) (ND & B & _). assert (Q : forall m, In m l <-> m = k).
  { intro m. rewrite B, <- A. cbn. intuition. }
  destruct l as [|a l]; [exfalso; apply (Q k); reflexivity|]. assert (a = k) as -> by (apply Q; now left).
  destruct l as [|b l]; [reflexivity|]. assert (b = k) as -> by (apply Q; right; now left). inversion ND. destruct H1. now left.
Qed.

Lemma scene_through d fr g i j v : through g i j -> scene p x d fr g j v -> scene p x d fr g i v.
Proof.
  intros T S. induction T as [|i n k j N I O T IH]; [exact S|]. apply (scene_node _ _ _ _ g i n [k] [v] v N O); [repeat constructor; auto|].
  now apply does_idle.
Qed.

Variables (fr1 fr2 : spec_float) (d1 d2 : D) (g1 g2 : graph node stream).
Variable R : nat -> nat -> Prop.
Hypothesis SC : same_composition x fr1 fr2 d1 d2 g1 g2 R.

Lemma does_file n m vs v : nd_type n = nd_type m -> nd_attrs n = nd_attrs m -> same_file x fr1 fr2 d1 d2 n ->
  does p x d1 fr1 n vs v -> does p x d2 fr2 m vs v.
Proof.
  intros ET EA SF H. assert (K : ChainSpec.node_key n = ChainSpec.node_key m) by (unfold ChainSpec.node_key; congruence).
  apply (does_key p x d2 fr2 n m vs v K).
  destruct H as [T EN SO| | | | | | | | | | | | | ];
    [|eapply does_read_off|eapply does_add|eapply does_write|eapply does_write_off|eapply does_merge|eapply does_merge_unknown|
    eapply does_merge_off|eapply does_crop|eapply does_crop_off|eapply does_resample|eapply does_resample_off|eapply does_view|eapply does_bake]; eauto.
  apply does_read; auto. destruct SO as (path & P & SO). destruct (SF T path P) as (path2 & P2 & K2 & R2). exists path2. split; [exact P2|].
  now rewrite <- K2, <- R2.
Qed.

Fixpoint alike_at i v (H : scene p x d1 fr1 g1 i v) {struct H} : forall j,
  (exists i' j' n m, through g1 i i' /\ through g2 j j' /\
    nth_error (g_nodes g1) i' = Some n /\ nth_error (g_nodes g2) j' = Some m /\
    nd_type n = nd_type m /\ nd_attrs n = nd_attrs m /\ same_file x fr1 fr2 d1 d2 n /\
    forall l, inputs_in_slot_order (g_graph g1) i' l -> exists l', inputs_in_slot_order (g_graph g2) j' l' /\ Forall2 R l l') ->
  exists v', scene p x d2 fr2 g2 j v' /\ looks_like v v'.
Proof.
  destruct H as [i n0 l vs v N0 O0 FV DO]. intros j (i' & j' & n & m & TI & TJ & N & M & ET & EA & SF & IN).
  destruct TI as [i|i n1 k i' N1 I1 O1 TI].
  - rewrite N0 in N. injection N as <-. destruct (IN l O0) as (l' & O' & FR).
    assert (X : exists vs', Forall2 (scene p x d2 fr2 g2) l' vs' /\ Forall2 looks_like vs vs').
    { clear - FV FR SC alike_at. revert l' FR. induction FV as [|a b l vs S FV IH]; intros l' FR; inversion FR as [|? c ? t RA FR']; subst.
      - exists []. split; constructor.
      - destruct (alike_at a b S c (SC a c RA)) as (b' & S' & L'). destruct (IH t FR') as (vs' & S2 & L2).
        exists (b' :: vs'). split; constructor; auto. }
    destruct X as (vs' & S' & L'). exists v. split; [|apply like_refl]. apply (scene_through _ _ _ _ _ _ TJ).
    apply (scene_node _ _ _ _ g2 j' m l' vs' v M O' S'). apply (does_file n0 m); auto. exact (does_inputs _ _ _ _ _ _ L' DO).
  - rewrite N0 in N1. injection N1 as <-. pose proof (alone _ _ _ _ O1 O0) as ->.
    destruct vs as [|s vs]; [inversion FV|]. assert (S : scene p x d1 fr1 g1 k s) by (inversion FV; assumption).
    assert (X : exists v', scene p x d2 fr2 g2 j v' /\ looks_like s v').
    { refine (match FV in Forall2 _ ks ss return (match ks, ss with k' :: _, s' :: _ => k' = k -> exists v', scene p x d2 fr2 g2 j v' /\ looks_like s' v' | _, _ => True end) with
        | Forall2_nil _ => I | Forall2_cons k' s' SS _ => fun EQ => alike_at k' s' SS j _ end eq_refl).
      subst k'. exists i', j', n, m. auto 9. }
    destruct X as (v' & S' & L'). exists v'. split; [exact S'|]. exact (like_trans _ _ _ (idle_does _ _ _ _ _ I1 DO) L').
Qed.
Theorem scene_alike i j v : R i j -> scene p x d1 fr1 g1 i v -> exists v', scene p x d2 fr2 g2 j v' /\ looks_like v v'.
Proof. intros RI H. exact (alike_at i v H j (SC i j RI)). Qed.
End Alike.

(** Executions. *)
Theorem alike_sessions : forall D p (x : externals D) (E1 E2 : setting D),
  clean_paths (x_expand x) -> digest_u64 (x_digest x) ->
  (forall E, E = E1 \/ E = E2 -> no_collisions (x_digest x) (SoundSpec.used E) /\
     (forall l, In l (SoundSpec.used E) -> x_digest x l <> 0) /\ keeps_sources x E) ->
  forall B1 B2 ok_disk1 ok_disk2, roomy B1 -> roomy B2 -> sane x B1 ok_disk1 -> sane x B2 ok_disk2 ->
  forall srt1 srt2, sorts srt1 -> sorts srt2 ->
  forall G1 G2 w1 w2 i1 i2 fuel1 fuel2 id1 id2 start1 start2 frames1 frames2 fr1 fr2 g1' g2' w1' w2' log1 log2,
  session p x E1 srt1 G1 w1 -> ok_disk1 (w_disk w1) -> careful_graph p B1 (G1 i1) -> fine_stream B1 (g_output (G1 i1)) ->
  session p x E2 srt2 G2 w2 -> ok_disk2 (w_disk w2) -> careful_graph p B2 (G2 i2) -> fine_stream B2 (g_output (G2 i2)) ->
  find_index (G1 i1) id1 = Some start1 -> all_asked (G1 i1) start1 ->
  find_index (G2 i2) id2 = Some start2 -> all_asked (G2 i2) start2 ->
  forall R, same_composition x fr1 fr2 (w_disk w1) (w_disk w2) (G1 i1) (G2 i2) R -> R start1 start2 ->
  determined x (w_disk w2) fr2 (G2 i2) ->
  execute (recording (node_ops p x)) srt1 fuel1 (G1 i1) id1 (frames1 ++ [fr1])%list (w1, []) = Some (Ok (g1', (w1', log1), ExSuccess)) ->
  Forall (tame p x E1) log1 ->
  execute (recording (node_ops p x)) srt2 fuel2 (G2 i2) id2 (frames2 ++ [fr2])%list (w2, []) = Some (Ok (g2', (w2', log2), ExSuccess)) ->
  Forall (tame p x E2) log2 ->
  looks_like (g_output g1') (g_output g2').
Proof.
  intros D p x E1 E2 CP DU K B1 B2 ok1 ok2 R1 R2 X1 X2 srt1 srt2 H1 H2 G1 G2 w1 w2 i1 i2 fuel1 fuel2 id1 id2 start1 start2 frames1 frames2 fr1 fr2 g1' g2' w1' w2' log1 log2
    S1 O1 C1 F1 S2 O2 C2 F2 I1 A1 I2 A2 R SC RS DE Q1 T1 Q2 T2.
  destruct (K E1 (or_introl eq_refl)) as (N1 & Z1 & K1). destruct (K E2 (or_intror eq_refl)) as (N2 & Z2 & K2).
  pose proof (scene_session p x E1 CP N1 DU Z1 K1 B1 ok1 R1 X1 srt1 H1 _ _ _ _ _ _ _ _ _ _ _ S1 O1 C1 F1 I1 A1 Q1 T1) as V1.
  pose proof (scene_session p x E2 CP N2 DU Z2 K2 B2 ok2 R2 X2 srt2 H2 _ _ _ _ _ _ _ _ _ _ _ S2 O2 C2 F2 I2 A2 Q2 T2) as V2.
  destruct (scene_alike p x fr1 fr2 (w_disk w1) (w_disk w2) (G1 i1) (G2 i2) R SC start1 start2 _ RS V1) as (v' & V' & L).
  exact (like_trans _ _ _ L (scene_unique p x _ _ _ _ _ _ DE V' V2)).
Qed.

(** Sharing the frames to be rendered. *)
From Coq Require String.
Import String.StringSyntax.
From Coq Require Import Lia Permutation Floats.SpecFloat.
From Verif Require Import Machine CacheModel BBoxModel AttrModel AttrSpec AttrProofs HashModel HashSpec EnumModel StreamModel PathModel GraphModel GraphSpec GraphWalk GraphExec GraphHistory GraphHistory2
  GraphFacts GraphSim NodeModel ChainSpec ChainProofs SafeFacts SafeSpec SafeProofs SceneSpec SceneProofs SceneProofs2 AlikeSpec AlikeProofs LutSpec LutHistory SoundSpec TotalSpec TotalProofs ShowProofs RenderProofs
  ClientModel ClientSpec ClientSpec2 ClientProofs ClientProofs2 ProgramSpec ProgramProofs ProgramProofs2 ProgramSpec2 EditProofs WriteSpec SceneWrite EachSpec EachProofs ProgramProofs3 ProgramSpec4 ProgramProofs5 FarmSpec.
Local Open Scope string_scope.

(* ------------------------------ independent files ------------------------------ *)

Section Orders.
Context {D : Type}.
Variable x : externals D.
Variable same : D -> D -> Prop.
Hypothesis IF : independent_files x same.
Notation after := (fold_left (obey x)).

Definition told_apart (os : list order) : Prop := forall o o', In o os -> In o' os -> place o = place o' -> o = o'.

Lemma same_refl d : same d d. Proof. exact (proj1 IF d). Qed.
Lemma same_sym d d' : same d d' -> same d' d. Proof. exact (proj1 (proj2 IF) d d'). Qed.
Lemma same_trans d d' d'' : same d d' -> same d' d'' -> same d d''. Proof. exact (proj1 (proj2 (proj2 IF)) d d' d''). Qed.
Lemma after_same l : forall d d', same d d' -> same (after l d) (after l d').
Proof. induction l as [|o l IH]; intros d d' S; cbn [fold_left]; [exact S|]. exact (IH _ _ (proj1 (proj2 (proj2 (proj2 IF))) d d' o S)). Qed.

Lemma swap_orders os o o' d : told_apart os -> In o os -> In o' os -> same (obey x (obey x d o) o') (obey x (obey x d o') o).
Proof.
  intros TA I I'. destruct (list_eq_dec Z.eq_dec (place o) (place o')) as [E|E]; [rewrite (TA _ _ I I' E); apply same_refl|exact (proj1 (proj2 (proj2 (proj2 (proj2 IF)))) d o o' E)].
Qed.
Lemma permuted_orders os l l' : Permutation l l' -> told_apart os -> (forall o, In o l -> In o os) -> forall d, same (after l d) (after l' d).
Proof.
  intros P TA. induction P as [|o l l' P IH|o o' l|l l1 l2 P1 IH1 P2 IH2]; intros S d; cbn [fold_left].
  - apply same_refl.
  - apply IH. intros q Q. apply S. now right.
  - apply after_same, (swap_orders os); auto; apply S; cbn; auto.
  - eapply same_trans; [exact (IH1 S d)|]. apply IH2. intros o I. apply S. eapply Permutation_in; [symmetry; exact P1|exact I].
Qed.
Lemma again os o l : told_apart os -> (forall q, In q l -> In q os) -> In o l -> forall d, same (after (o :: l) d) (after l d).
Proof.
  intros TA. induction l as [|q l IH]; intros S I d; [destruct I|]. destruct I as [->|I].
  - cbn [fold_left]. apply after_same. exact (proj2 (proj2 (proj2 (proj2 (proj2 IF)))) d o).
  - cbn [fold_left]. eapply same_trans; [apply after_same, (swap_orders os o q d TA); apply S; cbn; auto|]. apply (IH (fun r R => S r (or_intror R)) I (obey x d q)).
Qed.
Lemma all_again os l l' : told_apart os -> (forall q, In q l' -> In q os) -> (forall q, In q l -> In q l') -> forall d, same (after (l ++ l') d) (after l' d).
Proof.
  intros TA S. induction l as [|o l IH]; intros IN d; [apply same_refl|].
  eapply same_trans; [|apply IH; intros q Q; apply IN; now right]. cbn [app]. apply (again os); auto.
  - intros q Q. apply S. apply in_app_or in Q. destruct Q as [Q|Q]; [apply IN; now right|exact Q].
  - apply in_or_app. right. apply IN. now left.
Qed.
Lemma same_orders l l' d : told_apart l -> (forall o, In o l <-> In o l') -> same (after l d) (after l' d).
Proof.
  intros TA S. eapply same_trans; [|apply (all_again l l l' TA); intros; now apply S].
  eapply same_trans; [apply same_sym, (all_again l l' l TA); intros; auto; now apply S|].
  apply (permuted_orders l); [apply Permutation_app_comm|exact TA|]. intros o I. apply in_app_or in I. destruct I as [I|I]; [now apply S|exact I].
Qed.
End Orders.

Lemma reached_orders {D} (x : externals D) of g start frames d d' : all_written x of g start frames d d' ->
  all_written x (fun fr i o => reaches (g_graph g) i start /\ of fr i o) g start frames d d'.
Proof.
  induction 1 as [d|fr frs os d d' A1 A2 AW IH]; [constructor|]. apply (al_cons _ _ _ _ fr frs os); [| |exact IH].
  - intros o I. destruct (A1 o I) as (i & RE & O). eauto.
  - intros i nw k RE W. destruct (A2 i nw k RE W) as (o & I & O). eauto.
Qed.

Section Farm.
Context {D : Type}.
Variable p : profile.
Variable x : externals D.
Hypothesis CP : clean_paths (x_expand x).
Hypothesis DU : digest_u64 (x_digest x).
Variable kept : list Z -> bool.
Variable d0 : D.
Variable srt0 : edge_sort.
Hypothesis HS0 : sorts srt0.
Variable i0 : nat.
Variable h0 : list (ccall * reply).
Variable cl0 : client D.
Variable id0 : Z.
Hypothesis P0 : past p x srt0 h0 cl0.
Hypothesis O0 : only_builds i0 h0.
Notation g0 := (cl_graphs cl0 i0).

(** The file of writer [b] at a frame. *)
Definition due (fr : spec_float) (b : Z) (o : order) : Prop := above i0 h0 id0 b /\
  exists m src k v s, writing i0 h0 b m src /\ nth_error (g_ids g0) k = Some src /\ scene p x d0 fr g0 k v /\ looks_like s v /\
    let '(path, img, co) := o in written p x m fr s path img co.

Lemma due_path fr b o : due fr b o -> exists m src, writing i0 h0 b m src /\ above i0 h0 id0 b /\
  expand_string (x_expand x) (node_get_str m "file_path") (frame_number fr) = Ok (place o).
Proof.
  destruct o as [[path img] co]. intros (A & m & src & k & v & s & W & _ & _ & _ & [P _ _]). exists m, src. auto.
Qed.

Lemma due_once fr b o o' : (forall id, definite x d0 fr i0 h0 id) -> due fr b o -> due fr b o' -> o = o'.
Proof.
  intros DE. destruct (built p x srt0 h0 cl0 i0 P0 O0) as (WG & T).
  destruct o as [[path img] co], o' as [[path' img'] co'].
  intros (_ & m & src & k & v & s & (DM & W1 & W2 & W3 & F) & K & SC & L & WR) (_ & m' & src' & k' & v' & s' & (DM' & _ & _ & _ & F') & K' & SC' & L' & WR').
  rewrite DM in DM'. injection DM' as <-. pose proof (fed_unique _ _ _ _ _ F F') as Q. injection Q as <-.
  pose proof (same_place i0 h0 _ T _ _ _ K K') as <-.
  pose proof (scene_unique p x d0 fr g0 k v v' (determined_there p x i0 h0 _ WG T d0 fr DE) SC SC') as LV.
  destruct (written_once p x m m fr s s' path img co path' img' co' eq_refl (like_trans _ _ _ L (like_trans _ _ _ LV (like_sym _ _ L'))) WR WR') as (<- & <- & <-).
  reflexivity.
Qed.

Definition all_due (frames : list spec_float) (os : list order) : Prop :=
  (forall o, In o os -> exists fr b, In fr frames /\ due fr b o) /\
  (forall fr b m src, In fr frames -> above i0 h0 id0 b -> writing i0 h0 b m src -> exists o, In o os /\ due fr b o).

Lemma job_orders frames d d' : job p x kept d0 i0 h0 id0 frames d d' -> exists os, d' = fold_left (obey x) os d /\ all_due frames os.
Proof.
  intros [B ok srt E h cl i n call fuel cl' R frames' EK ED NC NZ KS RB SX RW HS H OB AC DE AU SB SW RU TC HC].
  pose proof (neat_tame p x B ok srt E _ _ H) as TP. pose proof (tame_is_past p x E srt _ _ TP) as P.
  destruct RU as (k & RU). destruct (client_session p x E srt _ _ TP k) as (c & C & S). destruct (neat_fine p x B ok RB SX RW srt HS E _ _ H) as (FK & FO).
  destruct (FK k) as (c' & C' & FW). rewrite C in C'. injection C' as <-.
  destruct (built p x srt h cl i P OB) as (WG & T). destruct (built p x srt0 h0 cl0 i0 P0 O0) as (WG0 & T0).
  destruct (place_of i h _ T _ DE) as (start & ST). pose proof (position_nodup _ _ _ (td_ids _ _ _ T) ST) as FI.
  assert (RUN : client_call p x srt fuel cl call = execute_call p x srt fuel cl i n frames' k) by (destruct RU as [-> |(zs & -> & ->)]; reflexivity).
  assert (TE : tame_execution p x E srt cl fuel i n frames' k).
  { destruct RU as [-> |(zs & -> & EQ)]; cbn [tame_call] in TC; [exact TC|]. rewrite EQ. exact TC. }
  rewrite RUN in HC. unfold execute_call in HC. rewrite C in HC.
  destruct (execute (node_ops p x) srt fuel (cl_graphs cl i) (hd_id n) frames' (World c (cl_disk cl))) as [[[[g [wc wd]] st]|]|] eqn:EX; try discriminate HC.
  injection HC as <- ->. destruct (recording_complete _ _ _ _ _ _ _ [] _ _ _ EX) as (log & REC). cbn [cl_disk w_disk].
  pose proof (TE c _ _ _ _ C REC) as TA. clear RUN TE TC RU EX.
  assert (OK0 : disk_ok x E d0) by (rewrite <- ED; intros q Q; split; reflexivity).
  pose proof (each_session_from p x E CP NC DU NZ KS B ok RB SX srt HS d0 _ _ i fuel _ start frames' g _ log OK0 S (proj2 FW)
    (careful_there p x i h _ WG T B AC) (FO i) FI (asked_there p x i h _ WG T start _ ST AU) REC TA) as AW.
  apply reached_orders in AW. apply all_orders in AW. cbn [w_disk] in AW. destruct AW as (os & -> & E1 & E2).
  exists os. split; [reflexivity|].
  assert (TURN : forall fr j a o, In fr frames' -> nth_error (g_ids (cl_graphs cl i)) j = Some a -> of_writer p x d0 (cl_graphs cl i) fr j o ->
    forall na src b m src', writing i h a na src -> above i0 h0 id0 b -> writing i0 h0 b m src' -> (forall q name, get_value q name na = get_value q name m) -> R src src' -> due fr b o).
  { intros fr j a [[path img] co] IF J (nw & q & s & (N & W1 & W2 & W3 & IO) & SC & WR) na src b m src' (DA & WA & _ & _ & FA) AB WB RD RR.
    destruct (node_described p x i h _ WG T _ _ N) as (J' & n0 & DN & KN). assert (nd_id nw = a) by congruence. subst a. rewrite DA in DN. injection DN as <-.
    destruct (inputs_fed i h _ T _ _ _ J IO) as (l & F & FB). inversion F as [|? src1 ? l' KK F']; subst. inversion F'; subst.
    pose proof (fed_unique _ _ _ _ _ FB FA) as Q. injection Q as ->.
    assert (KM : node_key nw = node_key m).
    { rewrite KN. destruct WB as (DB & TB & _). unfold node_key. rewrite (readings_attrs na m (described_dressed _ _ _ _ DA) (described_dressed _ _ _ _ DB) (eq_trans WA (eq_sym TB)) RD). congruence. }
    assert (KS' : exists k', nth_error (g_ids g0) k' = Some src').
    { destruct (SB _ _ RR) as (a' & b' & n1 & m1 & _ & PB & _ & DB & _). inversion PB as [u|u n2 k2 v2 D2]; subst; apply (place_of i0 h0 _ T0); congruence. }
    destruct KS' as (k' & KK').
    destruct (scene_alike p x fr fr d0 d0 (cl_graphs cl i) g0 _
      (setup_composition p x fr fr d0 d0 i i0 h h0 _ _ srt srt0 HS HS0 WG WG0 T T0 R (build_setup x i i0 h h0 R SB fr d0)) q k' s) as (v & SV & LV); [eauto 6|exact SC|].
    split; [exact AB|]. exists m, src', k', v, s. split; [exact WB|]. split; [exact KK'|]. split; [exact SV|]. split; [exact LV|]. exact (written_key p x _ _ _ _ _ _ _ KM WR). }
  destruct SW as (SW1 & SW2). split.
  - intros o IO. destruct (E1 o IO) as (fr & j & IF & RE & OW). destruct (reaches_above i h _ T _ _ _ ST RE) as (a & J & AB).
    assert (WA : exists na src, writing i h a na src).
    { destruct o as [[path img] co]. destruct OW as (nw & q & s & (N & W1 & W2 & W3 & IN) & _).
      destruct (node_described p x i h _ WG T _ _ N) as (J' & n0 & DN & KN). assert (nd_id nw = a) by congruence. subst a.
      destruct (inputs_fed i h _ T _ _ _ J IN) as (l & F & FB). inversion F as [|? src1 ? l' KK F']; subst. inversion F'; subst.
      destruct (key_inj _ _ KN) as (K1 & _). destruct (key_get _ _ KN) as (GI & _).
      exists n0, src1. unfold writing. rewrite <- K1, <- !GI. auto. }
    destruct WA as (na & src & WA). destruct (SW1 a na src AB WA) as (b & m & src' & AB' & WB & RD & RR).
    exists fr, b. split; [exact IF|]. exact (TURN fr j a o IF J OW na src b m src' WA AB' WB RD RR).
  - intros fr b m src' IF AB WB. destruct (SW2 b m src' AB WB) as (a & na & src & AB' & WA & RD & RR).
    destruct (above_reaches i h _ T _ _ _ ST AB') as (j & J & RE). destruct (writing_there p x i h _ WG T j a na src J WA) as (nw & q & WR & _).
    destruct (E2 fr j nw q IF RE WR) as (o & IO & _ & OW). exists o. split; [exact IO|]. exact (TURN fr j a o IF J OW na src b m src' WA AB WB RD RR).
Qed.

Lemma farm_orders frames d d' : farm p x kept d0 i0 h0 id0 frames d d' -> exists os, d' = fold_left (obey x) os d /\ all_due frames os.
Proof.
  induction 1 as [d|frames rest d d1 d2 J F (os2 & E2 & A2 & B2)].
  { exists []. split; [reflexivity|]. split; [intros ? []|intros ? ? ? ? []]. }
  destruct (job_orders _ _ _ J) as (os1 & E1 & A1 & B1). exists (os1 ++ os2). split; [rewrite fold_left_app; congruence|]. split.
  - intros o I. apply in_app_or in I. destruct I as [I|I]; [destruct (A1 o I) as (fr & b & Q & W)|destruct (A2 o I) as (fr & b & Q & W)]; exists fr, b; (split; [apply in_or_app; auto|exact W]).
  - intros fr b m src I AB W. apply in_app_or in I. destruct I as [I|I]; [destruct (B1 fr b m src I AB W) as (o & Q & V)|destruct (B2 fr b m src I AB W) as (o & Q & V)]; exists o; (split; [apply in_or_app; auto|exact V]).
Qed.

Theorem farms_agree same frames1 frames2 d d1 d2 : independent_files x same ->
  (forall fr id, In fr frames1 -> definite x d0 fr i0 h0 id) -> own_paths x frames1 i0 h0 id0 ->
  farm p x kept d0 i0 h0 id0 frames1 d d1 -> farm p x kept d0 i0 h0 id0 frames2 d d2 ->
  (forall fr, In fr frames1 <-> In fr frames2) -> same d1 d2.
Proof.
  intros IF DE OP F1 F2 SF. destruct (farm_orders _ _ _ F1) as (os1 & -> & A1 & B1), (farm_orders _ _ _ F2) as (os2 & -> & A2 & B2).
  assert (ONE : forall fr fr' b b' o o', In fr frames1 -> In fr' frames1 -> due fr b o -> due fr' b' o' -> place o = place o' -> o = o').
  { intros fr fr' b b' o o' I I' W W' PL. destruct (due_path _ _ _ W) as (m & src & WB & AB & PA), (due_path _ _ _ W') as (m' & src' & WB' & AB' & PA').
    rewrite <- PL in PA'. destruct (OP fr fr' b b' m m' src src' (place o) I I' AB AB' WB WB' PA PA') as (<- & <-). exact (due_once fr b o o' (fun id => DE fr id I) W W'). }
  assert (BACK : forall o, In o os2 -> In o os1).
  { intros o I. destruct (A2 o I) as (fr & b & Q & W). apply SF in Q. destruct (due_path _ _ _ W) as (m & src & WB & AB & _).
    destruct (B1 fr b m src Q AB WB) as (o' & I' & W'). now rewrite (due_once fr b o o' (fun id => DE fr id Q) W W'). }
  apply (same_orders x same IF).
  - intros o o' I I' PL. destruct (A1 o I) as (fr & b & Q & W), (A1 o' I') as (fr' & b' & Q' & W'). exact (ONE fr fr' b b' o o' Q Q' W W' PL).
  - intro o. split; [|apply BACK]. intro I. destruct (A1 o I) as (fr & b & Q & W). destruct (due_path _ _ _ W) as (m & src & WB & AB & _).
    destruct (B2 fr b m src (proj1 (SF fr) Q) AB WB) as (o' & I' & W'). now rewrite (due_once fr b o o' (fun id => DE fr id Q) W W').
Qed.
End Farm.

(* ------------------------------ one program alone ------------------------------ *)

Definition itself (i : nat) (h : list (ccall * reply)) (a b : Z) : Prop := a = b /\ described i h a <> None.
Lemma fed_described {D} p (x : externals D) srt h (cl : client D) i : past p x srt h cl -> only_builds i h -> forall id l, fed_by i h id l -> Forall2 (itself i h) l l.
Proof.
  intros P OB id l FB. destruct (built p x srt h cl i P OB) as (_ & T). destruct FB as (ss & -> & _ & SS).
  assert (Q : forall a, In a (map snd ss) -> described i h a <> None).
  { intros a I. apply in_map_iff in I. destruct I as ((s, b) & <- & I). apply SS in I. exact (proj1 (td_known _ _ _ T _ _ _ I)). }
  clear SS. induction (map snd ss) as [|a l IH]; constructor; [split; [reflexivity|apply Q; now left]|apply IH; intros b I; apply Q; now right].
Qed.
Lemma build_itself {D} p (x : externals D) srt h (cl : client D) i : past p x srt h cl -> only_builds i h -> same_build i i h h (itself i h).
Proof.
  intros P OB a b (<- & DA). destruct (described i h a) as [n|] eqn:DN; [|contradiction DA; reflexivity].
  exists a, a, n, n. split; [constructor|]. split; [constructor|]. repeat (split; [auto|]). intros l FB. exists l. split; [exact FB|exact (fed_described p x srt h cl i P OB _ _ FB)].
Qed.
Lemma writers_themselves {D} p (x : externals D) srt h (cl : client D) i id : past p x srt h cl -> only_builds i h -> same_writers i i h h id id (itself i h).
Proof.
  intros P OB. assert (Q : forall a n src, above i h id a -> writing i h a n src -> exists b m src', above i h id b /\ writing i h b m src' /\
    (forall k name, get_value k name n = get_value k name m) /\ itself i h src src').
  { intros a n src A W. exists a, n, src. split; [exact A|]. split; [exact W|]. split; [auto|]. destruct W as (_ & _ & _ & _ & F).
    pose proof (fed_described p x srt h cl i P OB _ _ F) as X. inversion X; auto. }
  split; [exact Q|]. intros b m src A W. destruct (Q b m src A W) as (b' & m' & src' & A' & W' & V). exists b, m, src. split; [exact A|]. split; [exact W|]. split; [auto|].
  destruct W as (_ & _ & _ & _ & F). pose proof (fed_described p x srt h cl i P OB _ _ F) as X. inversion X; auto.
Qed.

Lemma own_job {D} p (x : externals D) B ok_disk srt (E : setting D) h cl i n call fuel cl' frames :
  no_collisions (x_digest x) (SoundSpec.used E) -> (forall l, In l (SoundSpec.used E) -> x_digest x l <> 0) -> keeps_sources x E ->
  roomy B -> sane x B ok_disk -> resampler_works x B -> sorts srt ->
  neat_past p x E srt B ok_disk h cl -> only_builds i h -> all_careful p B i h ->
  described i h (hd_id n) <> None -> all_used i h (hd_id n) ->
  runs call i n frames -> tame_call p x E srt cl fuel call -> client_call p x srt fuel cl call = Some (Ok (cl', RStatus ExSuccess)) ->
  job p x (sources E) (disk0 E) i h (hd_id n) frames (cl_disk cl) (cl_disk cl').
Proof.
  intros NC NZ KS RB SX RW HS H OB AC DE AU RU TC HC. pose proof (tame_is_past p x E srt _ _ (neat_tame p x B ok_disk srt E _ _ H)) as P.
  exact (job_done p x _ _ i h _ B ok_disk srt E h cl i n call fuel cl' (itself i h) frames eq_refl eq_refl NC NZ KS RB SX RW HS H OB AC DE AU
    (build_itself p x srt h cl i P OB) (writers_themselves p x srt h cl i _ P OB) RU TC HC).
Qed.

Theorem farm_files {D} p (x : externals D) B ok_disk srt (E : setting D) same holds :
  clean_paths (x_expand x) -> digest_u64 (x_digest x) ->
  no_collisions (x_digest x) (SoundSpec.used E) -> (forall l, In l (SoundSpec.used E) -> x_digest x l <> 0) -> keeps_sources x E ->
  roomy B -> sane x B ok_disk -> resampler_works x B -> sorts srt ->
  independent_files x same -> keeps_files x holds -> (forall d d' o, same d d' -> holds d o -> holds d' o) ->
  forall h cl i n frames fr call fuel cl' shared d',
  neat_past p x E srt B ok_disk h cl -> only_builds i h -> all_careful p B i h ->
  described i h (hd_id n) <> None -> ~ gone i h (hd_id n) -> shaped i h (hd_id n) -> all_used i h (hd_id n) ->
  runs call i n (frames ++ [fr]) -> tame_call p x E srt cl fuel call -> client_call p x srt fuel cl call = Some (Ok (cl', RStatus ExSuccess)) ->
  farm p x (sources E) (disk0 E) i h (hd_id n) shared (cl_disk cl) d' -> (forall f, In f shared <-> In f (frames ++ [fr])) ->
  (forall f id, In f shared -> definite x (disk0 E) f i h id) -> own_paths x shared i h (hd_id n) ->
  apart (fun f => outcome x p (cl_disk cl) f i h) (frames ++ [fr]) ->
  forall f id nw src, In f shared -> above i h (hd_id n) id -> writing i h id nw src ->
  exists o, outcome x p (cl_disk cl) f i h id o /\ holds d' o.
Proof.
  intros CP DU NC NZ KS RB SX RW HS IF KF RS h cl i n frames fr call fuel cl' shared d' H OB AC DE NG SH AU RU TC HC FA SF DF OP AP f id nw src IN AB WR.
  destruct (program_files p x B ok_disk RB SX RW srt HS E CP NC DU NZ KS h cl i n frames fr call fuel cl' _ holds H OB AC DE NG SH AU RU TC HC KF AP f id nw src (proj1 (SF f) IN) AB WR) as (o & O & HO).
  exists o. split; [exact O|]. refine (RS _ _ _ _ HO).
  pose proof (tame_is_past p x E srt _ _ (neat_tame p x B ok_disk srt E _ _ H)) as P.
  pose proof (own_job p x B ok_disk srt E h cl i n call fuel cl' _ NC NZ KS RB SX RW HS H OB AC DE AU RU TC HC) as J.
  pose proof (farm_job p x _ _ i h _ _ _ _ _ _ J (farm_nil p x _ _ _ _ _ _)) as FJ. rewrite app_nil_r in FJ.
  apply (proj1 (proj2 IF)).
  exact (farms_agree p x CP DU _ _ srt HS i h cl _ P OB same _ _ _ _ _ IF DF OP FA FJ SF).
Qed.

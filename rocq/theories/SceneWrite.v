(** Executing a writer writes the composition before it. *)
From Coq Require String.
Import String.StringSyntax.
From Coq Require Import Lia Floats.SpecFloat.
From Verif Require Import Machine Loops CacheModel FloatModel BBoxModel BBoxSpec PixelModel PixelSpec PathModel PathSpec MergeModel MergeSpec EnumModel AttrModel AttrSpec AttrProofs HashModel HashSpec
  StreamModel BakeModel NodeModel NodeSpec NodeProofs ChainSpec ChainProofs GraphModel GraphSpec GraphHistory GraphFacts GraphSim LutSpec LutHistory RunSpec RunProofs RenderProofs SafeSpec SafeProofs SafeFacts
  ShowSpec UncachedSpec UncachedProofs ShowProofs ViewSpec ViewProofs PartSpec PartProofs SoundSpec SoundProofs1 SoundProofs3 ShowCacheProofs SceneRun SceneSpec SceneProofs SceneProofs2
  FrameModel FrameSpec FrameProofs AlikeSpec AlikeProofs WriteSpec.
Local Open Scope string_scope.

Section Write.
Context {D : Type}.
Variable p : profile.
Variable x : externals D.
Variable B : bbox.
Variable ok_disk : D -> Prop.
Hypothesis R : roomy B.
Hypothesis SX : sane x B ok_disk.
Notation held := (held p B ok_disk).

Lemma silent_disk n fr mode ins out (w : world D) n' st v w' : silent n ->
  node_compute p x n fr mode ins out w = Ok (n', st, v, w') -> node_key n' = node_key n /\ w_disk w' = w_disk w.
Proof.
  intros SI H. assert (DT : nd_type n = TWrite \/ nd_type n <> TWrite) by (destruct (nd_type n); auto; right; discriminate).
  destruct DT as [T|T]; [|exact (disk_kept p x _ _ _ _ _ _ _ _ _ _ T H)].
  apply node_compute_inv in H. destruct H as (h & _ & H & ->). split; [reflexivity|].
  pose proof (gi_get n) as GI. rewrite T in H, GI. cbn [compute_op] in H. unfold write_compute in H. rewrite !GI in H by reflexivity.
  destruct (Z.eqb_spec (node_get_i32 n "enable") 0) as [E|E]; [injection H as _ _ <-; reflexivity|].
  destruct ins as [|s rest]; [injection H as _ _ <-; reflexivity|].
  destruct (Z.eqb_spec (node_get_i32 n "execute") 0) as [E'|E']; [injection H as _ _ <-; reflexivity|].
  destruct (SI T); contradiction.
Qed.
Lemma silent_key n n0 : node_key n = node_key n0 -> silent n -> silent n0.
Proof.
  intros K S T. destruct (key_inj _ _ K) as (KT & _). destruct (key_get _ _ K) as (GI & _). rewrite <- !GI. apply S. congruence.
Qed.

(** One computation. *)
Lemma fine_step n fr mode ins out (w : world D) n' st v w' : careful p B n (length ins) -> Forall (fine_stream B) ins -> fine_stream B out ->
  held w -> node_compute p x n fr mode ins out w = Ok (n', st, v, w') -> fine_stream B v /\ held w'.
Proof.
  intros CA FI FO (FW & UC) H. apply node_compute_inv in H. destruct H as (h & _ & H & _).
  destruct (compute_fine p x B ok_disk R SX n fr mode ins out w CA FI FO FW h) as (st1 & v1 & w1 & H1 & F1 & W1).
  rewrite H in H1. injection H1 as <- <- <-. split; [exact F1|]. split; [exact W1|]. exact (bare_compute p x _ _ _ _ _ _ _ _ _ _ _ UC H).
Qed.

Section Graph.
Variable g : graph node stream.
Variable start : nat.
Hypothesis CG : careful_graph p B g.
Hypothesis AA : all_asked g start.
Variable inputs : nat -> list nat.
Hypothesis IO : forall j, inputs_in_slot_order (g_graph g) j (inputs j).

Lemma asks_recording i m : asks (node_ops p x) node_key (g_nodes g) inputs start i m ->
  asks (recording (node_ops p x)) node_key (g_nodes g) inputs start i m.
Proof. induction 1 as [|i mode n h ns modes j m A IH LK FN V Hj]; [constructor|]. exact (asks_input _ _ _ _ _ _ _ _ _ _ _ _ _ IH LK FN V Hj). Qed.

Definition resting (d : D) (c : world D) : Prop := held c /\ w_disk c = d.

Lemma keeps_resting d : (forall i n, reaches (g_graph g) i start -> i <> start -> nth_error (g_nodes g) i = Some n -> silent n) ->
  keeps_key (node_ops p x) node_key (resting d) (fine_stream B) (g_nodes g) inputs start (fun i => i <> start).
Proof.
  intros OTH i m n NE A (n0 & E0 & K0) fr mode ins out c n' st out' c' H (HC & DC) LE FI FO.
  assert (CN : careful p B n (length ins)) by (rewrite LE; apply (careful_key p B n0); [apply (key_inj _ _ K0)|apply (key_inj _ _ K0)|]; exact (CG i n0 _ E0 (IO i))).
  destruct (fine_step n fr mode ins out c n' st out' c' CN FI FO HC H) as (F & HW).
  assert (SI : silent n).
  { apply (silent_key n0); [now symmetry|]. apply (OTH i n0); auto. exact (proj2 (asked p x g start inputs i m AA IO (asks_recording _ _ A))). }
  destruct (silent_disk _ _ _ _ _ _ _ _ _ _ SI H) as (K & DK). split; [exact K|]. split; [split; [exact HW|congruence]|exact F].
Qed.

Notation the_made d fr := (RunSpec.made (node_ops p x) node_key (resting d) (fine_stream B) (g_nodes g) inputs fr start).
Notation all_made d fr := (RunSpec.made_all (node_ops p x) node_key (resting d) (fine_stream B) (g_nodes g) inputs fr start).

Fixpoint made_scene d fr i m v c c' (M : the_made d fr i m v c c') {struct M} : scene p x d fr g i v
with made_scenes d fr is vs (M : all_made d fr is vs) {struct M} : Forall2 (scene p x d fr g) is vs.
Proof.
  - destruct M as [i m n vs out c n' st v c' A (n0 & E0 & K0) MA FV (HC & DC) FO H OK].
    pose proof (made_scenes d fr _ _ MA) as SC. clear made_scene made_scenes MA.
    assert (LE : length vs = length (inputs i)) by (clear - SC; induction SC; cbn; congruence).
    destruct (asked p x g start inputs i m AA IO (asks_recording _ _ A)) as (MP & RE).
    destruct (key_inj _ _ K0) as (KT & KA). destruct (key_get _ _ K0) as (GI & _).
    apply (scene_node p x d fr g i n0 (inputs i) vs v E0 (IO i) SC). apply (does_key p x d fr n n0 vs v K0). rewrite <- DC.
    refine (node_does p x B ok_disk R SX n fr m vs out c n' st v c' _ FV (proj2 HC) MP _ H OK).
    + rewrite LE. apply (careful_key p B n0); auto. exact (CG i n0 _ E0 (IO i)).
    + rewrite KT, KA, GI. exact (proj2 (AA i n0 (inputs i) RE E0 (IO i))).
  - destruct M as [|i is mode v vs c c' M1 M2].
    + constructor.
    + constructor; [exact (made_scene d fr _ _ _ _ _ M1)|exact (made_scenes d fr _ _ M2)].
Qed.
End Graph.

Variable srt : edge_sort.
Hypothesis HS : sorts srt.

(** One frame. *)
Lemma write_scene fuel (g : graph node stream) id start k nw fr w g' w' : wf_graph (node_ops p x) g -> careful_graph p B g ->
  fine_stream B (g_output g) -> held w -> find_index g id = Some start ->
  nth_error (g_nodes g) start = Some nw -> nd_type nw = TWrite -> node_get_i32 nw "enable" <> 0 -> node_get_i32 nw "execute" <> 0 ->
  only_input (g_graph g) k start -> all_asked g start ->
  (forall i n, reaches (g_graph g) i start -> i <> start -> nth_error (g_nodes g) i = Some n -> silent n) ->
  execute (node_ops p x) srt fuel g id [fr] w = Some (Ok (g', w', ExSuccess)) ->
  exists s path img co, scene p x (w_disk w) fr g k s /\ written p x nw fr s path img co /\
    w_disk w' = fst (x_write x (w_disk w) path img co) /\ held w' /\ fine_stream B (g_output g').
Proof.
  intros WF CG FO HW FI NW T EN EX OI AA OTH H.
  destruct (execute_last (node_ops p x) srt node_key (resting (w_disk w)) (fine_stream B) HS fuel g id start fr w g' w' WF (conj HW eq_refl) FO FI) as
    (inputs & c1 & IO & M); [|exact H|].
  { intros inputs IO. exact (keeps_resting g start CG AA inputs IO (w_disk w) OTH). }
  inversion M as [i m' n vs out c0 n' st v' c0' AS LK MA FV CI SI CO OK]; subst.
  destruct LK as (n0 & E0 & K0). rewrite NW in E0. injection E0 as <-.
  pose proof (made_scenes g start CG AA inputs IO (w_disk w) fr _ _ MA) as SC.
  rewrite (only_input_list _ _ _ _ OI (IO start)) in SC.
  assert (CN : careful p B n (length vs)).
  { assert (LE : length vs = length (inputs start)) by (rewrite (only_input_list _ _ _ _ OI (IO start)); clear - SC; apply eq_sym; induction SC; cbn; congruence).
    rewrite LE. apply (careful_key p B nw); [apply (key_inj _ _ K0)|apply (key_inj _ _ K0)|]. exact (CG start nw _ NW (IO start)). }
  destruct vs as [|s vs]; [inversion SC|]. inversion SC as [|? ? ? ? S1 S2]; subst. inversion S2; subst.
  destruct (key_inj _ _ K0) as (KT & _). destruct (key_get _ _ K0) as (GI & _).
  rewrite T in KT. rewrite <- GI in EN, EX. cbn [n_compute node_ops] in CO.
  destruct (fine_step _ _ _ _ _ _ _ _ _ _ CN FV SI (proj1 CI) CO) as (F' & H').
  destruct (write_writes p x _ _ _ _ _ _ _ _ _ _ _ KT EN EX CO) as (EQ & path & img & co & WR & WD).
  exists s, path, img, co. split; [exact S1|]. split; [exact (written_key p x _ _ _ _ _ _ _ K0 WR)|].
  split; [now rewrite WD, (proj2 CI)|]. split; [exact H'|exact F'].
Qed.

(** The same nodes up to their status. *)
Lemma scene_nodes d fr (g g1 : graph node stream) : g_graph g1 = g_graph g ->
  (forall i n, nth_error (g_nodes g) i = Some n -> exists n1, nth_error (g_nodes g1) i = Some n1 /\ node_key n1 = node_key n) ->
  forall i v, scene p x d fr g i v -> scene p x d fr g1 i v.
Proof.
  intros EG NTH. fix IH 3. intros i v [i' n l vs v' N O FV DO]. destruct (NTH _ _ N) as (n1 & N1 & K1).
  apply (scene_node p x d fr g1 i' n1 l vs v' N1); [now rewrite EG| |exact (does_key p x d fr n n1 vs v' (eq_sym K1) DO)].
  clear - FV IH. induction FV as [|a b l vs S FV IH']; constructor; auto.
Qed.

(** A range of frames. *)
Lemma write_scenes fuel id start k frames : forall nw (g : graph node stream) w g' w', wf_graph (node_ops p x) g -> careful_graph p B g ->
  fine_stream B (g_output g) -> held w -> find_index g id = Some start ->
  nth_error (g_nodes g) start = Some nw -> nd_type nw = TWrite -> node_get_i32 nw "enable" <> 0 -> node_get_i32 nw "execute" <> 0 ->
  only_input (g_graph g) k start -> all_asked g start ->
  (forall i n, reaches (g_graph g) i start -> i <> start -> nth_error (g_nodes g) i = Some n -> silent n) ->
  execute (node_ops p x) srt fuel g id frames w = Some (Ok (g', w', ExSuccess)) ->
  rendered p x nw (fun d fr => scene p x d fr g k) frames (w_disk w) (w_disk w').
Proof.
  induction frames as [|fr frames IH]; intros nw g w g' w' WF CG FO HW FI NW T EN EX OI AA OTH H.
  { unfold execute in H. rewrite FI in H. destruct (all_upstream _ _ _); [|discriminate]. cbn [execute_frames] in H.
    injection H as _ <-. constructor. }
  assert (S1 : exists g1 w1, execute (node_ops p x) srt fuel g id [fr] w = Some (Ok (g1, w1, ExSuccess))).
  { unfold execute in *. rewrite FI in *. destruct (all_upstream _ _ _); [|discriminate]. cbn [execute_frames] in *.
    destruct (execute_frame _ _ _ _ _ _ _) as [[((g1, c1), [e|])|]|]; try discriminate; [destruct e; discriminate|eauto]. }
  destruct S1 as (g1 & w1 & S1).
  pose proof (execute_split (node_ops p x) srt fuel g id [fr] frames w g1 w1 S1) as S2. cbn [app] in S2. rewrite H in S2.
  destruct (write_scene fuel g id start k nw fr w g1 w1 WF CG FO HW FI NW T EN EX OI AA OTH S1) as (s & path & img & co & SC & WR & WD & HW1 & FO1).
  econstructor; [exact SC|exact WR|]. rewrite <- WD.
  destruct (execute_result (node_ops p x) srt (node_keeps_id p x) _ _ _ _ _ _ _ _ S1) as (G1 & I1 & L1 & D1 & _).
  assert (KY : map node_key (g_nodes g1) = map node_key (g_nodes g)).
  { eapply (execute_keys (node_ops p x) srt node_key); [|exact S1]. intros n1 fr1 mo1 ins1 out1 cc1 n1' st1 out1' cc1' E1. apply node_compute_inv in E1.
    destruct E1 as (h & _ & _ & ->). reflexivity. }
  assert (NTH : forall i n, nth_error (g_nodes g) i = Some n -> exists n1, nth_error (g_nodes g1) i = Some n1 /\ node_key n1 = node_key n).
  { intros i n1 E. apply (map_nth_error node_key) in E. rewrite <- KY, nth_error_map in E.
    destruct (nth_error (g_nodes g1) i) as [n2|]; [|discriminate]. injection E as E1 E2. exists n2. split; [reflexivity|].
    unfold node_key. congruence. }
  assert (NTH' : forall i n, nth_error (g_nodes g1) i = Some n -> exists n1, nth_error (g_nodes g) i = Some n1 /\ node_key n1 = node_key n).
  { intros i n1 E. apply (map_nth_error node_key) in E. rewrite KY, nth_error_map in E.
    destruct (nth_error (g_nodes g) i) as [n2|]; [|discriminate]. injection E as E1 E2. exists n2. split; [reflexivity|].
    unfold node_key. congruence. }
  destruct (NTH _ _ NW) as (nw1 & NW1 & KW). destruct (key_inj _ _ KW) as (KWT & _). destruct (key_get _ _ KW) as (KWI & _).
  assert (RD : rendered p x nw1 (fun d fr => scene p x d fr g1 k) frames (w_disk w1) (w_disk w')).
  { eapply (IH nw1 g1 w1).
    - constructor; [rewrite G1; apply WF|rewrite I1, D1; apply WF|rewrite G1, L1; apply WF].
    - intros i n ms N O. destruct (NTH' _ _ N) as (n0 & N0 & K0). rewrite G1 in O.
      apply (careful_key p B n0); [symmetry; apply (key_inj _ _ K0)|symmetry; apply (key_inj _ _ K0)|]. exact (CG i n0 ms N0 O).
    - exact FO1.
    - exact HW1.
    - unfold find_index. rewrite I1. exact FI.
    - exact NW1.
    - congruence.
    - now rewrite KWI.
    - now rewrite KWI.
    - rewrite G1. exact OI.
    - intros i n l RE N O. rewrite G1 in RE, O. destruct (NTH' _ _ N) as (n0 & N0 & K0). destruct (key_inj _ _ K0) as (<- & <-).
      destruct (key_get _ _ K0) as (GI & _). rewrite <- GI. exact (AA i n0 l RE N0 O).
    - intros i n RE NE N. rewrite G1 in RE. destruct (NTH' _ _ N) as (n0 & N0 & K0). apply (silent_key n0 n K0). exact (OTH i n0 RE NE N0).
    - exact S2. }
  clear - RD KW NTH' G1. induction RD as [|fr frs d s path img co d' IN WR RD IH]; [constructor|].
  econstructor; [|exact (written_key p x _ _ _ _ _ _ _ KW WR)|exact IH].
  apply (scene_nodes d fr g1 g (eq_sym G1) NTH' k s IN).
Qed.
End Write.

Section Cached.
Context {D : Type}.
Variable p : profile.
Variable x : externals D.
Variable E : setting D.
Hypothesis CP : clean_paths (x_expand x).
Hypothesis NC : no_collisions (x_digest x) (SoundSpec.used E).
Hypothesis DU : digest_u64 (x_digest x).
Hypothesis NZ : forall l, In l (SoundSpec.used E) -> x_digest x l <> 0.
Hypothesis KS : keeps_sources x E.
Variable B : bbox.
Variable ok_disk : D -> Prop.
Hypothesis R : roomy B.
Hypothesis SX : sane x B ok_disk.
Variable srt : edge_sort.
Hypothesis HS : sorts srt.

Theorem write_session G w i fuel id start k nw frames g' w' log :
  session p x E srt G w -> ok_disk (w_disk w) -> careful_graph p B (G i) -> fine_stream B (g_output (G i)) ->
  find_index (G i) id = Some start -> all_asked (G i) start -> writes (G i) start nw k ->
  execute (recording (node_ops p x)) srt fuel (G i) id frames (w, []) = Some (Ok (g', (w', log), ExSuccess)) ->
  Forall (tame p x E) log ->
  rendered p x nw (fun d fr => scene p x d fr (G i) k) frames (w_disk w) (w_disk w').
Proof.
  intros S OD CG FO FI AA (NW & TW & WE & WX & OI & OTH) H T.
  destruct (session_sound p x E CP NC DU NZ KS srt G w i fuel id _ g' w' log ExSuccess S H T) as (w0 & H0 & <-).
  exact (write_scenes p x B ok_disk R SX srt HS fuel id start k frames nw (G i) (no_cache (w_disk w)) g' w0
    (session_wf p x E srt G w S i) CG FO (held_none p B ok_disk R _ OD) FI NW TW WE WX OI AA OTH H0).
Qed.

Theorem write_numbered G w i fuel id start k nw ks g' w' log pre width post :
  session p x E srt G w -> ok_disk (w_disk w) -> careful_graph p B (G i) -> fine_stream B (g_output (G i)) ->
  find_index (G i) id = Some start -> all_asked (G i) start -> writes (G i) start nw k ->
  first_run (x_expand x (node_get_str nw "file_path")) pre width post -> 1 <= width <= 9 -> Forall in_i32 ks ->
  execute_whole (recording (node_ops p x)) srt fuel (G i) id ks (w, []) = Some (Ok (g', (w', log), ExSuccess)) ->
  Forall (tame p x E) log ->
  sequence p x nw (fun d fr => scene p x d fr (G i) k) f64_of_Z pre width post ks (w_disk w) (w_disk w').
Proof.
  intros S OD CG FO FI AA WR FR WI IN H T. apply rendered_sequence; try assumption.
  exact (write_session G w i fuel id start k nw _ g' w' log S OD CG FO FI AA WR H T).
Qed.
End Cached.

(* ------------------------------ the same files ------------------------------ *)

Section Alike.
Context {D : Type}.
Variable p : profile.
Variable x : externals D.

Lemma space_once path a b : file_color_space path a -> file_color_space path b -> a = b.
Proof. intros [((e & I1 & H1) & ->)|(H1 & ->)] [((f & I2 & H2) & ->)|(H2 & ->)]; auto; exfalso; [exact (H2 e I1 H1)|exact (H1 f I2 H2)]. Qed.
Lemma type_once k s s' a b : looks_like s s' -> ChainSpec.file_type k s a -> ChainSpec.file_type k s' b -> a = b.
Proof. intros ((L & _) & _). unfold ChainSpec.file_type. destruct (data_type_from k); congruence. Qed.
Lemma cropped_once k path a b : file_cropped k path a -> file_cropped k path b -> a = b.
Proof. unfold file_cropped. destruct (crop_from k); try congruence; [|tauto]. destruct a, b; intuition congruence. Qed.

Lemma written_once n n' fr s s' path img co path' img' co' : node_key n = node_key n' -> looks_like s s' ->
  written p x n fr s path img co -> written p x n' fr s' path' img' co' -> path = path' /\ img = img' /\ co = co'.
Proof.
  intros K L W W'. apply (written_key p x n n' _ _ _ _ _ K) in W. destruct W as [P (sp & ty & r & C & F & E & I) ->], W' as [P' (sp' & ty' & r' & C' & F' & E' & I') ->].
  rewrite P in P'. injection P' as <-. split; [reflexivity|]. split; [|reflexivity].
  rewrite <- (space_once _ _ _ C C') in E'. rewrite <- (type_once _ _ _ _ _ L F F') in E'.
  destruct (process_like p x _ _ _ _ _ _ L E) as (r2 & E2 & B1 & B2 & _). rewrite E' in E2. injection E2 as ->.
  destruct L as ((_ & LD & _) & _). rewrite <- LD, B1, B2 in I'.
  destruct I as [(X & ->)|(X & im & Y & ->)], I' as [(X' & ->)|(X' & im' & Y' & ->)]; pose proof (cropped_once _ _ _ _ X X') as Q; try discriminate Q; [reflexivity|congruence].
Qed.

Lemma rendered_once n n' (I I' : D -> spec_float -> stream -> Prop) frames : node_key n = node_key n' -> forall d d1 d2,
  (forall d' fr s s', after_writes x d d' -> In fr frames -> I d' fr s -> I' d' fr s' -> looks_like s s') ->
  rendered p x n I frames d d1 -> rendered p x n' I' frames d d2 -> d1 = d2.
Proof.
  intros K. induction frames as [|fr frames IH]; intros d d1 d2 L H1 H2; inversion H1 as [|? ? ? s path img co ? S1 W1 R1]; subst; inversion H2 as [|? ? ? s' path' img' co' ? S2 W2 R2]; subst; [reflexivity|].
  destruct (written_once _ _ _ _ _ _ _ _ _ _ _ K (L _ _ _ _ (aw_here _ _) (or_introl eq_refl) S1 S2) W1 W2) as (<- & <- & <-).
  apply (IH _ _ _) with (2 := R1) (3 := R2). intros d' fr' t t' A IN. apply L; [|now right].
  clear - A. induction A as [|d' q i c A IH]; [exact (aw_write _ _ _ _ _ _ (aw_here _ _))|exact (aw_write _ _ _ _ _ _ IH)].
Qed.
End Alike.

Theorem alike_files : forall D p (x : externals D) (E1 E2 : setting D),
  clean_paths (x_expand x) -> digest_u64 (x_digest x) ->
  (forall E, E = E1 \/ E = E2 -> no_collisions (x_digest x) (SoundSpec.used E) /\
     (forall l, In l (SoundSpec.used E) -> x_digest x l <> 0) /\ keeps_sources x E) ->
  forall B1 B2 ok_disk1 ok_disk2, roomy B1 -> roomy B2 -> sane x B1 ok_disk1 -> sane x B2 ok_disk2 ->
  forall srt1 srt2, sorts srt1 -> sorts srt2 ->
  forall G1 G2 w1 w2 i1 i2 fuel1 fuel2 id1 id2 start1 start2 k1 k2 nw1 nw2 frames g1' g2' w1' w2' log1 log2,
  session p x E1 srt1 G1 w1 -> ok_disk1 (w_disk w1) -> careful_graph p B1 (G1 i1) -> fine_stream B1 (g_output (G1 i1)) ->
  session p x E2 srt2 G2 w2 -> ok_disk2 (w_disk w2) -> careful_graph p B2 (G2 i2) -> fine_stream B2 (g_output (G2 i2)) ->
  find_index (G1 i1) id1 = Some start1 -> all_asked (G1 i1) start1 -> writes (G1 i1) start1 nw1 k1 ->
  find_index (G2 i2) id2 = Some start2 -> all_asked (G2 i2) start2 -> writes (G2 i2) start2 nw2 k2 ->
  nd_attrs nw1 = nd_attrs nw2 -> w_disk w1 = w_disk w2 ->
  forall R, (forall fr d, same_composition x fr fr d d (G1 i1) (G2 i2) R) -> R k1 k2 ->
  (forall d fr, after_writes x (w_disk w2) d -> In fr frames -> determined x d fr (G2 i2)) ->
  execute (recording (node_ops p x)) srt1 fuel1 (G1 i1) id1 frames (w1, []) = Some (Ok (g1', (w1', log1), ExSuccess)) ->
  Forall (tame p x E1) log1 ->
  execute (recording (node_ops p x)) srt2 fuel2 (G2 i2) id2 frames (w2, []) = Some (Ok (g2', (w2', log2), ExSuccess)) ->
  Forall (tame p x E2) log2 ->
  w_disk w1' = w_disk w2'.
Proof.
  intros D p x E1 E2 CP DU K B1 B2 ok1 ok2 R1 R2 X1 X2 srt1 srt2 H1 H2 G1 G2 w1 w2 i1 i2 fuel1 fuel2 id1 id2 start1 start2 k1 k2 nw1 nw2 frames g1' g2' w1' w2' log1 log2
    S1 O1 C1 F1 S2 O2 C2 F2 I1 A1 W1 I2 A2 W2 EA ED R SC RS DE Q1 T1 Q2 T2.
  destruct (K E1 (or_introl eq_refl)) as (N1 & Z1 & K1). destruct (K E2 (or_intror eq_refl)) as (N2 & Z2 & K2).
  pose proof (write_session p x E1 CP N1 DU Z1 K1 B1 ok1 R1 X1 srt1 H1 _ _ _ _ _ _ _ _ _ _ _ _ S1 O1 C1 F1 I1 A1 W1 Q1 T1) as V1.
  pose proof (write_session p x E2 CP N2 DU Z2 K2 B2 ok2 R2 X2 srt2 H2 _ _ _ _ _ _ _ _ _ _ _ _ S2 O2 C2 F2 I2 A2 W2 Q2 T2) as V2.
  rewrite ED in V1. assert (KN : node_key nw1 = node_key nw2).
  { unfold node_key. destruct W1 as (_ & T1' & _), W2 as (_ & T2' & _). congruence. }
  apply (rendered_once p x nw1 nw2 _ _ frames KN _ _ _) with (2 := V1) (3 := V2).
  intros d fr s s' AW IN V V'. destruct (scene_alike p x fr fr d d (G1 i1) (G2 i2) R (SC fr d) k1 k2 s RS V) as (v & Sv & L).
  exact (like_trans _ _ _ L (scene_unique p x d fr _ _ _ _ (DE d fr AW IN) Sv V')).
Qed.

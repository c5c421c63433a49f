(** The picture and the files that follow from the calls of a program. *)
From Coq Require String.
Import String.StringSyntax.
From Coq Require Import Sorted Floats.SpecFloat.
From Verif Require Import Machine Loops CacheModel CacheSpec CacheProofs FloatModel BBoxModel BBoxSpec PixelModel PixelSpec MergeSpec AttrModel AttrSpec AttrProofs HashModel HashSpec HashProofs EnumModel StreamModel GraphModel GraphSpec GraphExec GraphHistory GraphHistory2
  GraphFacts GraphSim NodeModel ChainSpec ChainProofs SafeFacts SafeSpec SafeProofs SceneSpec SceneProofs FinishSpec FinishScene EachSpec LutModel LutSpec LutProofs LutHistory SoundSpec TotalSpec TotalProofs
  ClientModel ClientSpec ClientSpec2 ClientProofs ClientProofs2 ClientProofs4 ProgramSpec ProgramProofs.
Local Open Scope string_scope.

Lemma draws_key {D} (x : externals D) p d fr n n0 vs v : node_key n = node_key n0 -> draws x p d fr n vs v -> draws x p d fr n0 vs v.
Proof.
  intros K H. assert (DK : does p x d fr n vs v -> does p x d fr n0 vs v) by (apply does_key; exact K).
  destruct n as [t id st b], n0 as [t0 id0 st0 b0]. unfold node_key in K. cbn [nd_type nd_attrs] in K. injection K as <- <-.
  destruct H; [eapply draws_merge|eapply draws_crop|eapply draws_colours|eapply draws_space|eapply draws_other]; eauto.
Qed.

Lemma Forall_choose {A B} (R : A -> B -> Prop) l : (forall a, In a l -> exists b, R a b) -> exists l', Forall2 R l l'.
Proof.
  induction l as [|a l IH]; intro H; [exists []; constructor|].
  destruct (H a (or_introl eq_refl)) as (b & Hb). destruct IH as (l' & Hl); [intros; apply H; now right|]. exists (b :: l'). now constructor.
Qed.
Lemma Forall2_in_l {A B} (R : A -> B -> Prop) l l' a : Forall2 R l l' -> In a l -> exists b, In b l' /\ R a b.
Proof. induction 1; intros []; [subst; eauto using in_eq|]. destruct IHForall2 as (b & ? & ?); auto. exists b. split; [now right|auto]. Qed.
Lemma Forall2_in_r {A B} (R : A -> B -> Prop) l l' b : Forall2 R l l' -> In b l' -> exists a, In a l /\ R a b.
Proof. induction 1; intros []; [subst; eauto using in_eq|]. destruct IHForall2 as (a & ? & ?); auto. exists a. split; [now right|auto]. Qed.

Section Shape.
Context {D : Type}.
Variable p : profile.
Variable x : externals D.
Variable i : nat.
Variable h : list (ccall * reply).
Variable g : graph node stream.
Hypothesis WG : wf_graph (node_ops p x) g.
Hypothesis T : tidy i h g.

Notation "j '~>' id" := (nth_error (g_ids g) j = Some id) (at level 70).

Lemma same_place j k id : j ~> id -> k ~> id -> j = k.
Proof. intros J K. apply (proj1 (NoDup_nth_error (g_ids g)) (td_ids _ _ _ T)); [apply nth_error_Some; congruence|congruence]. Qed.

Lemma place_of id : described i h id <> None -> exists j, j ~> id.
Proof. intro H. apply (td_all _ _ _ T) in H. apply In_nth_error in H. exact H. Qed.

Lemma link_connected m j a id : m ~> a -> j ~> id -> link (g_graph g) m j <-> exists s, connected i h a id s.
Proof.
  intros M J. split.
  - intros (s & F). exists s. apply (td_link _ _ _ T) in F. destruct F as (ia & ib & A & B & C). congruence.
  - intros (s & C). exists s. apply (td_link _ _ _ T). eauto.
Qed.
Lemma link_ids m j : link (g_graph g) m j -> exists a id, m ~> a /\ j ~> id.
Proof. intros (s & F). apply (td_link _ _ _ T) in F. destruct F as (ia & ib & A & B & C). eauto. Qed.

Lemma inputs_fed j id ms : j ~> id -> inputs_in_slot_order (g_graph g) j ms ->
  exists l, Forall2 (fun m a => m ~> a) ms l /\ fed_by i h id l.
Proof.
  intros J (ND & IN & OR).
  destruct (Forall_choose (fun m (sa : Z * Z) => m ~> snd sa /\ feeds (g_graph g) m j (fst sa)) ms) as (ss & F).
  { intros m Hm. apply IN in Hm. destruct Hm as ((s & F) & _). pose proof F as F'. apply (td_link _ _ _ T) in F'.
    destruct F' as (ia & ib & A & _). exists (s, ia). split; assumption. }
  exists (map snd ss). split; [clear - F; induction F as [|m sa ms ss (H & _) F IH]; constructor; assumption|].
  exists ss. split; [reflexivity|]. split.
  - clear IN. revert ss F ND OR. induction ms as [|m ms IH]; intros ss F ND OR; inversion F as [|? sa ? ss' H F']; subst; cbn [map]; constructor.
    + apply IH; auto; [now inversion ND|]. intros l1 a l2 b l3 E. exact (OR (m :: l1) a l2 b l3 (f_equal (cons m) E)).
    + apply Forall_forall. intros s' Hs. apply in_map_iff in Hs. destruct Hs as (sa' & <- & Hs).
      destruct (Forall2_in_r _ _ _ _ F' Hs) as (m' & Hm & K). destruct H as (H1 & H2), K as (K1 & K2).
      pose proof Hm as Hm0. apply in_split in Hm. destruct Hm as (l2 & l3 & E). pose proof (OR [] m l2 m' l3 (f_equal (cons m) E) _ _ H2 K2) as LE.
      destruct (Z.eq_dec (fst sa) (fst sa')) as [Q|Q]; [|lia]. exfalso.
      apply (td_link _ _ _ T) in H2, K2. destruct H2 as (a1 & b1 & A1 & B1 & C1), K2 as (a2 & b2 & A2 & B2 & C2).
      rewrite Q in C1. assert (b1 = b2) by congruence. subst b2. pose proof (connected_one _ _ _ _ _ _ C1 C2). subst a2.
      pose proof (same_place _ _ _ A1 A2). subst m'. inversion ND. contradiction.
  - intros s src. split.
    + intro I. destruct (Forall2_in_r _ _ _ _ F I) as (m & Hm & K1 & K2). cbn [fst snd] in K1, K2.
      apply (td_link _ _ _ T) in K2. destruct K2 as (a1 & b1 & A1 & B1 & C1). congruence.
    + intro C. destruct (td_known _ _ _ T _ _ _ C) as (KA & _ & NE). destruct (place_of _ KA) as (m & M).
      assert (Hm : In m ms).
      { apply IN. split; [apply (link_connected m j src id M J); eauto|]. intros ->. congruence. }
      destruct (Forall2_in_l _ _ _ _ F Hm) as ((s', a') & I & K1 & K2). cbn [fst snd] in K1, K2.
      apply (td_link _ _ _ T) in K2. destruct K2 as (a1 & b1 & A1 & B1 & C1).
      assert (a1 = src) by congruence. assert (b1 = id) by congruence. assert (a' = src) by congruence. subst.
      now rewrite (td_pair _ _ _ T _ _ _ _ C C1).
Qed.

Lemma reaches_above start id k : start ~> id -> reaches (g_graph g) k start -> exists a, k ~> a /\ above i h id a.
Proof.
  intros S (q & U). induction U as [|q n m U IH L]; [exists id; split; [exact S|constructor]|].
  destruct IH as (b & B & AB). destruct (link_ids _ _ L) as (a & b' & A & B'). exists a. split; [exact A|].
  apply (link_connected m n a b A B) in L. destruct L as (s & C). exact (above_more i h id a b s AB C).
Qed.
Lemma above_reaches start id a : start ~> id -> above i h id a -> exists k, k ~> a /\ reaches (g_graph g) k start.
Proof.
  intros S A. induction A as [|a b s A IH C]; [exists start; split; [exact S|exists 0%nat; constructor]|].
  destruct IH as (n & N & q & U). destruct (td_known _ _ _ T _ _ _ C) as (KA & _). destruct (place_of _ KA) as (m & M).
  exists m. split; [exact M|]. exists (Datatypes.S q). apply up_step with n; [exact U|]. apply (link_connected m n a b M N). eauto.
Qed.

Lemma node_described j m : nth_error (g_nodes g) j = Some m -> j ~> nd_id m /\ exists n, described i h (nd_id m) = Some n /\ node_key m = node_key n.
Proof. intro N. split; [exact (nodes_ids p x _ _ _ WG N)|exact (td_node _ _ _ T _ _ N)]. Qed.

Lemma careful_there B : all_careful p B i h -> careful_graph p B g.
Proof.
  intros AC j m ms N IO. destruct (node_described _ _ N) as (J & n & DN & K). destruct (inputs_fed _ _ _ J IO) as (l & F & FB).
  destruct (key_inj _ _ K) as (K1 & K2). apply (careful_key p B n m); auto.
  replace (length ms) with (length l) by (clear - F; induction F; cbn; congruence). exact (AC _ _ _ DN FB).
Qed.

Lemma asked_there start id : start ~> id -> all_used i h id -> all_asked g start.
Proof.
  intros S AU j m ms R N IO. destruct (node_described _ _ N) as (J & n & DN & K). destruct (inputs_fed _ _ _ J IO) as (l & F & FB).
  destruct (reaches_above _ _ _ S R) as (a & A & AB). assert (a = nd_id m) by congruence. subst a.
  destruct (AU _ _ _ AB DN FB) as (U1 & U2). replace (length ms) with (length l) by (clear - F; induction F; cbn; congruence).
  destruct (key_inj _ _ K) as (K1 & K2). destruct (key_get _ _ K) as (GI & _). rewrite K1, K2, GI. split; assumption.
Qed.

Lemma shaped_there id : ~ gone i h id -> shaped i h id -> well_shaped g id.
Proof.
  intros NG SH start FI. apply position_lt in FI. destruct FI as (S & L). split.
  { destruct (td_live _ _ _ T _ _ S); [assumption|contradiction]. }
  destruct SH as [(S1 & S2)|(level & S1)]; [right|left].
  - split.
    + intros m n n' R1 R2 L1 L2 _ _. destruct (reaches_above _ _ _ S R1) as (b & B1 & A1). destruct (reaches_above _ _ _ S R2) as (b' & B2 & A2).
      destruct (link_ids _ _ L1) as (a & ? & M & _). apply (link_connected m n a b M B1) in L1. apply (link_connected m n' a b' M B2) in L2.
      destruct L1 as (s & C1), L2 as (s' & C2). pose proof (S1 _ _ _ _ _ A1 A2 C1 C2). subst b'. exact (same_place _ _ _ B1 B2).
    + intros n R L1. destruct (reaches_above _ _ _ S R) as (b & B1 & A1). apply (link_connected start n id b S B1) in L1.
      destruct L1 as (s & C). destruct (S2 _ _ A1 C).
  - exists (fun j => level (nth j (g_ids g) 0)). intros m n R L1 _. destruct (reaches_above _ _ _ S R) as (b & B1 & A1).
    destruct (link_ids _ _ L1) as (a & ? & M & _). apply (link_connected m n a b M B1) in L1. destruct L1 as (s & C).
    rewrite (nth_error_nth _ _ _ M), (nth_error_nth _ _ _ B1). exact (S1 _ _ _ A1 C).
Qed.

Lemma composition_drawn d fr : forall j v, composition x p d fr g j v -> forall id, j ~> id -> drawn x p d fr i h id v.
Proof.
  fix IH 3. intros j v [j' n ms vs v' N IO FS DR] id J.
  destruct (node_described _ _ N) as (J' & n0 & DN & K). assert (nd_id n = id) by congruence. subst id. clear J'.
  destruct (inputs_fed _ _ _ J IO) as (l & F & FB). apply (drawn_node x p d fr i h (nd_id n) n0 l vs v' DN FB); [|exact (draws_key x p d fr _ _ _ _ K DR)].
  clear - IH FS F. revert l F. induction FS as [|m v ms vs C FS IHF]; intros l F; inversion F as [|? a ? l' H F']; subst; constructor.
  - exact (IH _ _ C _ H).
  - exact (IHF _ F').
Qed.

Lemma writing_there j id n src : j ~> id -> writing i h id n src -> exists nw k, writer g j nw k /\ k ~> src.
Proof.
  intros J (DN & W1 & W2 & W3 & (ss & E & _ & SS)). destruct (ids_nodes p x _ _ _ WG J) as (m & N & <-).
  destruct (td_node _ _ _ T _ _ N) as (n0 & DN' & K). rewrite DN in DN'. injection DN' as <-.
  destruct ss as [|(s, a) [|? ?]]; try discriminate E. injection E as <-.
  assert (C : connected i h src (nd_id m) s) by (apply SS; now left).
  destruct (td_known _ _ _ T _ _ _ C) as (KA & _ & NE). destruct (place_of _ KA) as (k & KK). exists m, k. split; [|exact KK].
  destruct (key_inj _ _ K) as (K1 & K2). destruct (key_get _ _ K) as (GI & _). unfold writer. rewrite K1, !GI.
  split; [exact N|]. split; [exact W1|]. split; [exact W2|]. split; [exact W3|]. split; [repeat constructor; easy|]. split.
  - intro q. split.
    + intros [<-|[]]. split; [apply (link_connected _ _ _ _ KK J); eauto|]. intros ->. congruence.
    + intros (L & NQ). destruct (link_ids _ _ L) as (b & ? & Q & _). apply (link_connected _ _ _ _ Q J) in L. destruct L as (s' & C').
      apply SS in C'. destruct C' as [C'|[]]. injection C' as <- <-. left. exact (same_place _ _ _ KK Q).
  - intros l1 a l2 b l3 E. exfalso. destruct l1 as [|? [|? ?]]; try discriminate E. injection E as _ E. destruct l2; discriminate E.
Qed.

Lemma of_drawn_outcome d fr j o id : j ~> id -> of_drawn x p d fr g j o -> outcome x p d fr i h id o.
Proof.
  intros J. destruct o as [[path img] co]. intros (nw & k & s & (N & W1 & W2 & W3 & IO) & C & FL).
  destruct (node_described _ _ N) as (J' & n0 & DN & K). assert (nd_id nw = id) by congruence. subst id. clear J'.
  destruct (inputs_fed _ _ _ J IO) as (l & F & FB). inversion F as [|? src ? l' KK F']; subst. inversion F'; subst.
  destruct (key_inj _ _ K) as (K1 & K2). destruct (key_get _ _ K) as (GI & GS & _).
  exists n0, src, s. split; [unfold writing; rewrite <- K1, <- !GI; auto|]. split; [exact (composition_drawn _ _ _ _ C _ KK)|].
  unfold filed in FL |- *. rewrite <- !GI, <- GS. exact FL.
Qed.
End Shape.

(* ------------------------------------------------------------------ *)
(** * The cache stays fine *)

Lemma set_fine p B (c : cache shared) v c' : roomy B -> fine_cache p B c -> 0 <= v < two64 ->
  (p = Debug -> (v = 0 \/ largest B <= v) /\ v + largest B < two64) ->
  set_capacity image_bytes p c v = Ok c' -> fine_cache p B c'.
Proof.
  intros R (A & DB) V HV H. destruct p.
  - destruct (DB eq_refl) as (D1 & D2 & D3 & D4 & D5). destruct (HV eq_refl) as (V1 & V2).
    assert (SN : sizes_nonneg image_bytes (lru c))
      by (apply Forall_forall; intros [k' q] Hq; cbn; apply (image_size B q R), (A k'), Hq).
    assert (Hst : step image_bytes Debug c (SetCapacity v) = Ok (c', OUnit)) by (cbn [step]; rewrite H; reflexivity).
    assert (C0 : 0 <= largest B).
    { destruct R as (X0 & Y0 & X4 & Y4 & _). unfold largest. apply Z.mul_nonneg_nonneg; [apply Z.mul_nonneg_nonneg|]; lia. }
    assert (INV : Inv image_bytes (capacity c) c) by (unfold Inv; repeat split; auto; lia).
    pose proof (step_shape image_bytes Debug _ c (SetCapacity v) c' OUnit INV V ltac:(cbn [inserted_bytes]; lia) Hst) as SH.
    inversion SH; subst.
    match goal with H : lru c = _ ++ _ |- _ => rename H into EL end.
    rewrite EL in SN, D1, D2. apply sizes_app in SN. destruct SN as (SN1 & SN2). rewrite total_app in D2.
    pose proof (total_nonneg _ _ SN1). pose proof (total_nonneg _ _ SN2). rewrite map_app in D1. apply NoDup_suffix in D1.
    split.
    + intros k q Hq. apply (A k). rewrite EL. apply in_or_app. right. exact Hq.
    + intros _. cbn [lru CacheModel.used capacity with_cap after_drop]. repeat split; auto; try lia.
      match goal with H : _ \/ _ |- _ => destruct H as [Hr|Hr] end; subst; cbn [total_bytes] in *; lia.
  - split; [|discriminate]. intros k q Hq. apply (A k). revert H Hq. unfold set_capacity.
    assert (U : forall z, exists u, u64_of Release z = Ok u) by (intro z; unfold u64_of; destruct (in_u64 z); eauto).
    assert (X : forall c1, (if v <? CacheModel.used c then (let* free := sub_u64 Release (CacheModel.used c) v in evict_bytes image_bytes Release c free) else Ok c) = Ok c1 ->
      incl (lru c1) (lru c)).
    { intros c1. destruct (v <? CacheModel.used c); [|intros [= <-]; apply incl_refl]. unfold sub_u64. destruct (U (CacheModel.used c - v)) as (fr & ->). cbn [bind]. unfold evict_bytes.
      destruct (len c =? 0); [intros [= <-]; apply incl_refl|]. destruct (CacheModel.used c =? 0); [intros [= <-]; apply incl_refl|].
      assert (EW : forall goon n, evict_while image_bytes Release goon n c = Ok c1 -> incl (lru c1) (lru c)).
      { intros goon n Q. destruct (evict_while_release goon n c) as (c2 & Q' & I). rewrite Q in Q'. injection Q' as <-. exact I. }
      destruct (capacity c =? 0); [apply EW|].
      destruct (if CacheModel.used c <? fr then Ok 0 else sub_u64 Release (CacheModel.used c) fr); [|discriminate]. cbn [bind]. apply EW. }
    destruct (if v <? CacheModel.used c then _ else _) as [c1|]; [|discriminate]. cbn [bind]. intros [= <-]. cbn [lru]. apply (X c1 eq_refl).
Qed.

Section Program.
Context {D : Type}.
Variable p : profile.
Variable x : externals D.
Variable B : bbox.
Variable ok_disk : D -> Prop.
Hypothesis R : roomy B.
Hypothesis SX : sane x B ok_disk.
Hypothesis RW : resampler_works x B.
Variable srt : edge_sort.
Hypothesis HS : sorts srt.
Variable E : setting D.
Notation ops := (node_ops p x).

Lemma neat_tame h cl : neat_past p x E srt B ok_disk h cl -> tame_past p x E srt h cl.
Proof. induction 1; [constructor; assumption|eapply tp_call; eassumption|constructor; assumption]. Qed.

(** Lookup tables not larger than the area. *)
Lemma table_image n b blk sp : neat_table B n -> (exists h l, b = PB (BS (n * n) h 3) (DF32 l) /\ n <= h <= n + 1 /\ zlen l = 3 * (n * n * h)) ->
  grown blk b -> fine_image B (lut_image (pb_size b) blk sp).
Proof.
  intros (N1 & N2 & N3) (h & l & -> & H & L) (G1 & G2). cbn [pb_size pb_data db_len] in *. destruct R as (X0 & Y0 & _).
  assert (P : 0 < n * n) by nia.
  assert (W : within (BBox 0 0 (n * n) h) B).
  { unfold within, window_in. cbn [min_x min_y max_x max_y]. lia. }
  split; [|exact W]. split; [|split; [|split; [|exact W]]].
  - unfold PixelSpec.wf_block. cbn [sh_block lut_image]. rewrite G1, G2. cbn [bs_w bs_h bs_nc]. nia.
  - unfold placed. cbn [sh_block sh_data lut_image lut_window]. rewrite G1. cbn. lia.
  - cbn [sh_block lut_image]. rewrite G1. now left.
Qed.
Lemma lut_fine key make c img c' : fine_cache p B c -> (forall i, make = Ok i -> fine_image B i) -> get_lut p key make c = Ok (img, c') -> fine_cache p B c' /\ fine_image B img.
Proof.
  intros FC MK G. unfold get_lut in G. destruct (get_fine p B c key FC) as (F1 & F2 & F3). destruct (get c key) as [c1 [i|]]; cbn [fst snd] in *.
  - injection G as <- <-. split; [exact F1|exact (F2 _ eq_refl)].
  - destruct make as [i|]; [|discriminate G]. cbn [bind] in G. destruct (F3 eq_refl) as (EL & NI). rewrite <- EL in NI.
    destruct (insert_fine p B c1 key i R F1 (MK _ eq_refl) NI) as (c2 & E2 & F). rewrite E2 in G. cbn [bind] in G. injection G as <- <-. split; [exact F|exact (MK _ eq_refl)].
Qed.
Lemma transform_fine from to n c img c' : fine_cache p B c -> neat_table B n -> get_transform_lut p x from to n c = Ok (img, c') -> fine_cache p B c' /\ fine_image B img.
Proof.
  intros FC NT G. refine (lut_fine _ _ _ _ _ FC _ G). intros i MK. unfold generate_transform_lut in MK.
  destruct (identity_block_3 p n (proj1 NT)) as (h & out & E' & HB & _ & L & _). rewrite E' in MK. cbn [bind] in MK.
  destruct (colorspace_ok (x_convert x) (sane_convert _ _ _ SX) (PB (BS (n * n) h 3) (DF32 out)) (set_color_space spec_new from) from to) as (b' & sp' & Q & GR & _).
  rewrite Q in MK. cbn [bind] in MK. injection MK as <-. refine (table_image n _ _ _ NT _ GR). eauto 8.
Qed.
Lemma ops_fine s n c img c' : fine_cache p B c -> neat_table B n -> get_ops_lut p x s n 3 c = Ok (img, c') -> fine_cache p B c' /\ fine_image B img.
Proof.
  intros FC NT G. unfold get_ops_lut in G. destruct (ops_lut_bytes p x n 3 (st_ops s)) as [b|]; [|discriminate G]. cbn [bind] in G.
  refine (lut_fine _ _ _ _ _ FC _ G). intros i MK. unfold generate_ops_lut in MK.
  destruct (identity_block_3 p n (proj1 NT)) as (h & out & E' & HB & _ & L & _). rewrite E' in MK. cbn [bind] in MK.
  destruct (colorgrade_ok (x_numerics x) (x_convert x) (sane_convert _ _ _ SX) (PB (BS (n * n) h 3) (DF32 out)) identity4 (st_ops s) (or_introl eq_refl) eq_refl) as (b' & Q & GR & _).
  rewrite Q in MK. cbn [bind] in MK. injection MK as <-. refine (table_image n _ _ _ NT _ GR). eauto 8.
Qed.

Lemma neat_fine h cl : neat_past p x E srt B ok_disk h cl ->
  (forall k, exists c, cl_caches cl k = Some c /\ fine_world p B ok_disk (World c (cl_disk cl))) /\ forall i, fine_stream B (g_output (cl_graphs cl i)).
Proof.
  intro H. induction H as [d DO OD|h cl fuel call cl' r H (FK & FO) TC NC HC|h cl d H (FK & FO) DO OD].
  - split; [|intros j; exact (fine_new B R)]. intros k0. exists (with_capacity 0). split; [reflexivity|]. split; [|exact OD]. split; [intros k j []|]. intros _.
    assert (C0 : largest B < two64 /\ 0 <= largest B).
    { destruct R as (X0 & Y0 & X4 & Y4 & S). unfold largest, two64, two31 in *. split; nia. }
    cbn [with_capacity w_cache lru CacheModel.used capacity total_bytes map]. repeat split; try lia; constructor.
  - pose proof (tame_is_past p x E srt _ _ (neat_tame _ _ H)) as P.
    assert (AT : forall (f : nat -> graph node stream) j g, (forall i, fine_stream B (g_output (f i))) -> fine_stream B (g_output g) -> forall i, fine_stream B (g_output (put f j g i))).
    { intros f j g F1 F2 i. unfold put. destruct (Nat.eqb i j); auto. }
    assert (FD : ok_disk (cl_disk cl)) by (destruct (FK 0%nat) as (c & _ & _ & FD); exact FD).
    assert (PUT : forall k c d, fine_cache p B c -> ok_disk d ->
      forall k', exists c', put (cl_caches cl) k (Some c) k' = Some c' /\ fine_world p B ok_disk (World c' d)).
    { intros k c d F1 F2 k'. unfold put. destruct (Nat.eqb k' k); [exists c; split; [reflexivity|split; assumption]|].
      destruct (FK k') as (c' & C' & F' & _). exists c'. split; [exact C'|split; assumption]. }
    assert (EX : forall i n fs k, only_builds i h /\ all_careful p B i h -> execute_call p x srt fuel cl i n fs k = Some (Ok (cl', r)) ->
      (forall k, exists c', cl_caches cl' k = Some c' /\ fine_world p B ok_disk (World c' (cl_disk cl'))) /\ forall i, fine_stream B (g_output (cl_graphs cl' i))).
    { intros i n fs k (OB & AC) HX. unfold execute_call in HX. destruct (FK k) as (c & C & FC & _). rewrite C in HX.
      destruct (execute ops srt fuel (cl_graphs cl i) (hd_id n) fs (World c (cl_disk cl))) as [[[[g w] st]|]|] eqn:EE; try discriminate HX.
      injection HX as <- _. cbn [cl_caches cl_disk cl_graphs].
      destruct (built p x srt h cl i P OB) as (WG & T).
      assert (K : fine_world p B ok_disk w /\ fine_stream B (g_output g)).
      { destruct (find_index (cl_graphs cl i) (hd_id n)) as [start|] eqn:FI.
        - destruct (stays_fine p x B ok_disk R SX RW srt HS _ _ _ _ _ _ _ _ _ WG FI (careful_there p x i h _ WG T B AC) (FO i) (conj FC FD) EE) as (_ & K1 & K2). now split.
        - unfold execute in EE. rewrite FI in EE. injection EE as <- <- _. split; [split; [exact FC|exact FD]|exact (FO i)]. }
      destruct K as ((K1 & K2) & K3). split; [exact (PUT k _ _ K1 K2)|]. apply AT; [exact FO|exact K3]. }
    assert (SAME : forall g j, g_output g = g_output (cl_graphs cl j) -> forall i, fine_stream B (g_output (put (cl_graphs cl) j g i))).
    { intros g j Q. apply AT; [exact FO|]. rewrite Q. apply FO. }
    assert (EDIT : forall gc w w' g j, wf_graph ops (cl_graphs cl j) -> calls ops srt (cl_graphs cl j) w gc g w' ->
      match gc with GExecute _ _ => False | _ => True end -> g_output g = g_output (cl_graphs cl j)).
    { intros gc w w' g j WG CA NE. pose proof (StateProofs.call_nodes ops srt _ _ _ _ _ WG CA) as K. destruct gc; try contradiction NE; apply K. }
    assert (WFG : forall j, wf_graph ops (cl_graphs cl j)) by (intro j; exact (proj1 (past_graph p x srt h cl j 0 KI32 "" P))).
    assert (W0 : world D) by exact (World (with_capacity 0) (cl_disk cl)).
    destruct call; cbn [client_call tame_call neat_call] in HC, TC, NC;
      try (injection HC as <- _; split; [exact FK|exact FO]; fail);
      try (unfold of_cache in HC; destruct (cl_caches cl k); [|discriminate HC]; injection HC as <- _; split; [exact FK|exact FO]; fail);
      try (exact (EX _ _ _ _ NC HC)).
    all: try unfold table_call in HC.
    all: try (destruct (FK k) as (c & C & FC & _); rewrite C in HC).
    all: apply gives_ok in HC; destruct HC as (a & EA & HC); injection HC as -> _.
    all: try (split; [exact FK|exact FO]).
    all: try (split; [exact FK|]; cbn [with_graph_at cl_graphs]; apply SAME).
    + destruct a as (g & j). refine (EDIT (GAdd (create_node t (creation_id how))) W0 W0 g i (WFG i) (conj eq_refl _) I). exists j. exact EA.
    + injection EA as <-. exact (EDIT (GRemove (hd_id n)) W0 W0 _ i (WFG i) (conj eq_refl eq_refl) I).
    + exact (EDIT (GWrite (hd_id n) w) W0 W0 _ i (WFG i) (conj eq_refl EA) I).
    + exact (EDIT (GConnect (hd_id src) (hd_id dst) slot) W0 W0 _ i (WFG i) (conj eq_refl EA) I).
    + injection EA as <-. exact (EDIT (GDisconnect (hd_id dst) slot) W0 W0 _ i (WFG i) (conj eq_refl eq_refl) I).
    + split; [|exact FO]. exact (PUT k a _ (set_fine p B c value a R FC (proj1 NC) (proj2 NC) EA) FD).
    + split; [|exact FO]. destruct a as (img, c'). cbn [cl_caches cl_disk fst snd]. exact (PUT k c' _ (proj1 (transform_fine _ _ _ _ _ _ FC NC EA)) FD).
    + split; [|exact FO]. destruct a as (img, c'). destruct NC as (NC & ->). cbn [cl_caches cl_disk fst snd]. exact (PUT k c' _ (proj1 (ops_fine _ _ _ _ _ FC NC EA)) FD).
  - split; [|exact FO]. intro k. destruct (FK k) as (c & C & FC & _). exists c. split; [exact C|split; assumption].
Qed.

Hypothesis CP : clean_paths (x_expand x).
Hypothesis NC : no_collisions (x_digest x) (SoundSpec.used E).
Hypothesis DU : digest_u64 (x_digest x).
Hypothesis NZ : forall l, In l (SoundSpec.used E) -> x_digest x l <> 0.
Hypothesis KS : keeps_sources x E.

(** The picture, and the files. *)
Lemma program_runs h cl i n frames fr call : neat_past p x E srt B ok_disk h cl -> only_builds i h -> all_careful p B i h ->
  described i h (hd_id n) <> None -> ~ gone i h (hd_id n) -> shaped i h (hd_id n) -> all_used i h (hd_id n) -> runs call i n (frames ++ [fr]) ->
  exists fuel0 cl', (forall fuel, (fuel0 <= fuel)%nat -> client_call p x srt fuel cl call = Some (Ok (cl', RStatus ExSuccess))) /\
    (tame_call p x E srt cl fuel0 call ->
     (exists v, answers p x srt cl' (COutput i) (RStream v) /\ drawn x p (cl_disk cl) fr i h (hd_id n) v) /\
     forall holds, keeps_files x holds -> apart (fun fr => outcome x p (cl_disk cl) fr i h) (frames ++ [fr]) ->
       forall fr1 id nw src, In fr1 (frames ++ [fr]) -> above i h (hd_id n) id -> writing i h id nw src ->
       exists o, outcome x p (cl_disk cl) fr1 i h id o /\ holds (cl_disk cl') o).
Proof.
  intros H OB AC DE NG SH AU RU. pose proof (neat_tame _ _ H) as TP. pose proof (tame_is_past p x E srt _ _ TP) as P.
  destruct RU as (k & RU). destruct (client_session p x E srt _ _ TP k) as (c & C & S). destruct (neat_fine _ _ H) as (FK & FO).
  destruct (FK k) as (c' & C' & FW). rewrite C in C'. injection C' as <-.
  destruct (built p x srt h cl i P OB) as (WG & T). destruct (place_of i h _ T _ DE) as (start & ST).
  pose proof (position_nodup _ _ _ (td_ids _ _ _ T) ST) as FI.
  pose proof (careful_there p x i h _ WG T B AC) as CG. pose proof (asked_there p x i h _ WG T start _ ST AU) as AA.
  destruct (session_shows p x B ok_disk R SX RW srt HS E CP NC DU NZ KS _ _ i _ start frames fr S FI (shaped_there i h _ T _ NG SH) CG (FO i) FW AA)
    as (fuel0 & g' & w' & log & X & _ & _ & _ & _).
  exists fuel0, (Client (put (cl_graphs cl) i g') (put (cl_caches cl) k (Some (w_cache w'))) (w_disk w')). 
  assert (CALL : forall fuel, client_call p x srt fuel cl call = execute_call p x srt fuel cl i n (frames ++ [fr]) k).
  { intro fuel. destruct RU as [-> |(zs & -> & ->)]; reflexivity. }
  assert (TAME : tame_call p x E srt cl fuel0 call -> Forall (tame p x E) log).
  { assert (TE : tame_execution p x E srt cl fuel0 i n (frames ++ [fr]) k -> Forall (tame p x E) log) by (intro TE; exact (TE c _ _ _ _ C (X fuel0 (Nat.le_refl _)))).
    destruct RU as [-> |(zs & -> & EQ)]; cbn [tame_call]; intros TE'; [exact (TE TE')|]. rewrite EQ in TE. exact (TE TE'). }
  split.
  { intros fuel LE. rewrite CALL. unfold execute_call. rewrite C. rewrite (recording_faithful _ _ _ _ _ _ _ _ _ _ _ _ (X fuel LE)). reflexivity. }
  intro TC. specialize (TAME TC). split.
  - exists (g_output g'). split; [intro fuel; cbn [client_call cl_graphs]; rewrite put_eq; reflexivity|].
    refine (composition_drawn p x i h _ WG T _ _ start _ _ _ ST).
    exact (finish_session p x E CP NC DU NZ KS B ok_disk R SX srt HS _ _ i fuel0 _ start frames fr g' w' log S (proj2 FW) CG (FO i) FI AA (X fuel0 (Nat.le_refl _)) TAME).
  - intros holds KF AP fr1 id nw src IF AB WR. destruct (above_reaches i h _ T _ _ _ ST AB) as (j & J & RE).
    destruct (writing_there p x i h _ WG T j id nw src J WR) as (nw' & k1 & WR' & _).
    destruct (finish_file p x E CP NC DU NZ KS B ok_disk R SX srt HS _ _ i fuel0 _ start (frames ++ [fr]) g' w' log holds S (proj2 FW) CG (FO i) FI AA
      (X fuel0 (Nat.le_refl _)) TAME KF) with (fr := fr1) (j := j) (nw := nw') (k := k1) as (o & OD & HO); auto.
    + intros f1 f2 i1 i2 o1 o2 I1 I2 O1 O2 PL.
      assert (W : forall f j o, of_drawn x p (cl_disk cl) f (cl_graphs cl i) j o -> exists id, nth_error (g_ids (cl_graphs cl i)) j = Some id).
      { intros f j0 [[pa im] co] (nw0 & k0 & s & (N & _) & _). exists (nd_id nw0). exact (nodes_ids p x _ _ _ WG N). }
      destruct (W _ _ _ O1) as (id1 & J1), (W _ _ _ O2) as (id2 & J2).
      destruct (AP f1 f2 id1 id2 o1 o2 I1 I2 (of_drawn_outcome p x i h _ WG T _ _ _ _ _ J1 O1) (of_drawn_outcome p x i h _ WG T _ _ _ _ _ J2 O2) PL) as (-> & <-).
      split; [reflexivity|exact (same_place i h _ T _ _ _ J1 J2)].
    + exists o. split; [exact (of_drawn_outcome p x i h _ WG T _ _ _ _ _ J OD)|exact HO].
Qed.

Theorem program_picture h cl i n frames fr call : neat_past p x E srt B ok_disk h cl -> only_builds i h -> all_careful p B i h ->
  described i h (hd_id n) <> None -> ~ gone i h (hd_id n) -> shaped i h (hd_id n) -> all_used i h (hd_id n) -> runs call i n (frames ++ [fr]) ->
  exists fuel0 cl', (forall fuel, (fuel0 <= fuel)%nat -> client_call p x srt fuel cl call = Some (Ok (cl', RStatus ExSuccess))) /\
    (tame_call p x E srt cl fuel0 call ->
     exists v, answers p x srt cl' (COutput i) (RStream v) /\ drawn x p (cl_disk cl) fr i h (hd_id n) v).
Proof.
  intros H OB AC DE NG SH AU RU. destruct (program_runs h cl i n frames fr call H OB AC DE NG SH AU RU) as (f0 & cl' & X & K).
  exists f0, cl'. split; [exact X|]. intro T. exact (proj1 (K T)).
Qed.

Theorem program_files h cl i n frames fr call fuel cl' r holds : neat_past p x E srt B ok_disk h cl -> only_builds i h -> all_careful p B i h ->
  described i h (hd_id n) <> None -> ~ gone i h (hd_id n) -> shaped i h (hd_id n) -> all_used i h (hd_id n) -> runs call i n (frames ++ [fr]) ->
  tame_call p x E srt cl fuel call -> client_call p x srt fuel cl call = Some (Ok (cl', r)) ->
  keeps_files x holds -> apart (fun fr => outcome x p (cl_disk cl) fr i h) (frames ++ [fr]) ->
  forall fr1 id nw src, In fr1 (frames ++ [fr]) -> above i h (hd_id n) id -> writing i h id nw src ->
  exists o, outcome x p (cl_disk cl) fr1 i h id o /\ holds (cl_disk cl') o.
Proof.
  intros H OB AC DE NG SH AU RU TC HC. destruct (program_runs h cl i n frames fr call H OB AC DE NG SH AU RU) as (f0 & cl1 & X & K).
  destruct RU as (k & RU).
  assert (RUN : forall f, client_call p x srt f cl call = execute_call p x srt f cl i n (frames ++ [fr]) k) by (intro f; destruct RU as [-> |(zs & -> & ->)]; reflexivity).
  assert (Q : cl1 = cl' /\ (tame_execution p x E srt cl fuel i n (frames ++ [fr]) k -> tame_execution p x E srt cl f0 i n (frames ++ [fr]) k)).
  { pose proof (X (Nat.max f0 fuel) (Nat.le_max_l _ _)) as Y. rewrite RUN in HC, Y. unfold execute_call in HC, Y.
    destruct (cl_caches cl k) as [c|] eqn:C; [|discriminate HC].
    destruct (execute ops srt fuel (cl_graphs cl i) (hd_id n) (frames ++ [fr]) (World c (cl_disk cl))) as [[[[g w] st]|]|] eqn:EX; try discriminate HC.
    rewrite (execute_more _ _ _ _ _ _ _ _ _ (Nat.le_max_r f0 fuel) EX) in Y. split; [congruence|].
    intros TE c1 g1 w1 log1 st1 C1 X1. rewrite C in C1. injection C1 as <-.
    destruct (recording_complete _ _ _ _ _ _ _ [] _ _ _ EX) as (log & RE).
    pose proof (execute_more _ _ _ _ _ _ _ _ _ (Nat.le_max_l f0 fuel) X1) as M1. pose proof (execute_more _ _ _ _ _ _ _ _ _ (Nat.le_max_r f0 fuel) RE) as M2.
    rewrite M1 in M2. injection M2 as _ _ -> _. exact (TE c _ _ _ _ C RE). }
  destruct Q as (<- & Q). apply K. destruct RU as [-> |(zs & -> & EQ)]; cbn [tame_call] in TC |- *.
  - exact (Q TC).
  - rewrite <- EQ in TC |- *. exact (Q TC).
Qed.
End Program.

Lemma neat_wider {D} p (x : externals D) srt B ok_disk used1 used2 src d0 dir h cl : (forall l, In l used1 -> In l used2) ->
  neat_past p x (Setting used1 src d0 dir) srt B ok_disk h cl -> neat_past p x (Setting used2 src d0 dir) srt B ok_disk h cl.
Proof.
  intros WI H. induction H as [d DO OD|h cl fuel call cl' r H IH T NC HC|h cl d H IH DO OD]; [now constructor|..|now constructor].
  exact (np_call p x _ srt B ok_disk h cl fuel call cl' r IH (call_wider p x srt _ _ src d0 dir WI _ _ _ T) NC HC).
Qed.

(** Only what has been set up matters. *)
Lemma drawn_same {D} (x : externals D) p d fr i h h' : (forall id, described i h' id = described i h id) ->
  (forall a b s, connected i h' a b s <-> connected i h a b s) -> forall id v, drawn x p d fr i h id v -> drawn x p d fr i h' id v.
Proof.
  intros DE CO. fix IH 3. intros id v [id' n l vs v' DN (ss & E & SO & SS) FS DR].
  apply (drawn_node x p d fr i h' id' n l vs v').
  - rewrite DE. exact DN.
  - exists ss. split; [exact E|]. split; [exact SO|]. intros s src. rewrite CO. apply SS.
  - clear - IH FS. induction FS as [|a w l vs C FS IHF]; constructor; [exact (IH _ _ C)|exact IHF].
  - exact DR.
Qed.

(** A check of histories. *)
Lemma connected_made i h a b s : connected i h a b s -> exists n m r, In (CConnect i n m s, r) h /\ hd_id n = a /\ hd_id m = b.
Proof.
  induction h as [|(call, r) h IH] using rev_ind; [discriminate|]. intro H. apply connected_app in H.
  assert (OLD : connected i h a b s -> exists n m q, In (CConnect i n m s, q) (h ++ [(call, r)]) /\ hd_id n = a /\ hd_id m = b).
  { intro C. destruct (IH C) as (n & m & q & I & K). exists n, m, q. split; [apply in_or_app; now left|exact K]. }
  unfold rewire at 1 in H. cbn [fst] in H. destruct call; try (exact (OLD H)).
  - destruct (_ && _)%bool; [discriminate H|exact (OLD H)].
  - destruct (Nat.eqb_spec i0 i), (Z.eqb_spec (hd_id dst) b), (Z.eqb_spec slot s); cbn [andb] in H; try (exact (OLD H)).
    injection H as <-. subst. eexists _, _, r. split; [apply in_or_app; right; now left|auto].
  - destruct (_ && _)%bool; [discriminate H|exact (OLD H)].
Qed.
Definition feeder (i : nat) (h : list (ccall * reply)) (dst slot : Z) : option Z := fold_left (rewire i dst slot) h None.
Definition other_way (i : nat) (h : list (ccall * reply)) (a b slot : Z) (e : ccall * reply) : bool :=
  match fst e with
  | CConnect j n m q => Nat.eqb j i && (hd_id n =? a) && (hd_id m =? b) && negb (q =? slot) && match feeder i h b q with Some u => u =? a | None => false end
  | _ => false
  end.
Definition looseb (i : nat) (h : list (ccall * reply)) (b slot : Z) : bool :=
  match feeder i h b slot with None => true | Some _ => match last_input i h b with Some s => s =? slot | None => false end end.
Lemma looseb_ok i h b slot : looseb i h b slot = true -> forall src, connected i h src b slot -> loose i h b slot.
Proof.
  unfold looseb, feeder. intros H src C. unfold connected in C. rewrite C in H. right. destruct (last_input i h b); [|discriminate].
  apply Z.eqb_eq in H. now subst.
Qed.
Definition buildsb (i : nat) (h : list (ccall * reply)) (call : ccall) : bool :=
  match call with
  | CCreate j t how => negb (Nat.eqb j i) || match described i h (creation_id how) with None => true | _ => false end
  | CDelete j n => negb (Nat.eqb j i) || match described i h (hd_id n) with None => false | _ => true end
  | CDisconnect j b slot => negb (Nat.eqb j i) || looseb i h (hd_id b) slot
  | CConnect j a b slot => negb (Nat.eqb j i) ||
      (negb (hd_id a =? hd_id b) && match described i h (hd_id a), described i h (hd_id b) with Some _, Some _ => true | _, _ => false end &&
       looseb i h (hd_id b) slot && negb (existsb (other_way i h (hd_id a) (hd_id b) slot) h))
  | _ => true
  end.
Lemma buildsb_ok i h call : buildsb i h call = true -> builds i h call.
Proof.
  destruct call; cbn [buildsb builds]; try (intros; exact I).
  - destruct (Nat.eqb_spec i0 i); [|congruence]. cbn [negb orb]. destruct (described i h (creation_id how)); [discriminate|reflexivity].
  - destruct (Nat.eqb_spec i0 i); [|congruence]. cbn [negb orb]. destruct (described i h (hd_id n)); [discriminate|discriminate].
  - destruct (Nat.eqb_spec i0 i); [|congruence]. cbn [negb orb]. intros H _. apply andb_prop in H. destruct H as (H & H4).
    apply andb_prop in H. destruct H as (H & H3). apply andb_prop in H. destruct H as (H1 & H2).
    apply negb_true_iff in H1, H4. apply Z.eqb_neq in H1. split; [exact H1|].
    destruct (described i h (hd_id src)); [|discriminate]. destruct (described i h (hd_id dst)); [|discriminate].
    split; [discriminate|]. split; [discriminate|]. split; [exact (looseb_ok _ _ _ _ H3)|]. intros s C. destruct (Z.eq_dec s slot) as [E|E]; [exact E|exfalso].
    enough (Q : existsb (other_way i h (hd_id src) (hd_id dst) slot) h = true) by congruence.
    destruct (connected_made _ _ _ _ _ C) as (n' & m & r & IN & A & B). apply existsb_exists. eexists. split; [exact IN|]. unfold other_way, feeder. cbn [fst].
    unfold connected in C. rewrite C, A, B, Nat.eqb_refl, !Z.eqb_refl, (proj2 (Z.eqb_neq _ _) E). reflexivity.
  - destruct (Nat.eqb_spec i0 i); [|congruence]. cbn [negb orb]. intros H _. exact (looseb_ok _ _ _ _ H).
Qed.
Fixpoint only_buildsb (i : nat) (h rest : list (ccall * reply)) : bool :=
  match rest with [] => true | e :: t => buildsb i h (fst e) && only_buildsb i (h ++ [e])%list t end.
Lemma only_buildsb_ok i rest : forall h, only_builds i h -> only_buildsb i h rest = true -> only_builds i (h ++ rest)%list.
Proof.
  induction rest as [|e t IH]; intros h OB H; [now rewrite app_nil_r|]. cbn [only_buildsb] in H. apply andb_prop in H. destruct H as (H1 & H2).
  change (h ++ e :: t)%list with (h ++ [e] ++ t)%list. rewrite app_assoc. apply IH; [|exact H2].
  intros h1 call r h2 E. destruct h2 as [|e' h2'] using rev_ind.
  - apply app_inj_tail in E. destruct E as (-> & ->). apply buildsb_ok, H1.
  - rewrite app_comm_cons, app_assoc in E. apply app_inj_tail in E. destruct E as (E & _). exact (OB _ _ _ _ E).
Qed.
Lemma fed_length i h id l L : fed_by i h id l -> (forall s src, connected i h src id s -> In (s, src) L) -> (length l <= length L)%nat.
Proof.
  intros (ss & -> & SO & SS) H. rewrite map_length. apply NoDup_incl_length.
  - apply (NoDup_map_inv fst). clear - SO. induction SO as [|a l S IH F]; constructor; [|exact IH].
    intro I. rewrite Forall_forall in F. specialize (F _ I). lia.
  - intros (s, src) I. apply H, SS, I.
Qed.
Lemma described_created i h id : described i h id <> None -> exists t how r, In (CCreate i t how, r) h /\ creation_id how = id.
Proof.
  induction h as [|(call, r) h IH] using rev_ind; [intro H; now contradiction H|]. rewrite described_app. intro H. apply describes_none in H.
  destruct H as [H|(j & t & how & -> & -> & E)].
  - destruct (IH H) as (t & how & q & I & E). exists t, how, q. split; [apply in_or_app; now left|exact E].
  - exists t, how, r. split; [apply in_or_app; right; now left|exact E].
Qed.

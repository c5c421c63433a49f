(** Executing the same thing again misses nothing. *)
From Coq Require String.
Import String.StringSyntax.
From Coq Require Import Floats.SpecFloat.
From Verif Require Import Machine Loops CacheModel CacheProofs BBoxModel PixelModel EnumModel MergeModel AttrModel PathModel PathProofs
  HashModel HashSpec StreamModel BakeModel GraphModel NodeModel NodeSpec AgainSpec AgainProofs.
Local Open Scope string_scope.

Definition covers (c c' : cache shared) : Prop := forall k, snd (get c k) <> None -> snd (get c' k) <> None.
Definition grows (c c' : cache shared) : Prop :=
  capacity c' = capacity c /\ evictions c <= evictions c' /\ (evictions c' = evictions c -> covers c c').
Definition quiet (c c' : cache shared) : Prop := only_hits c c' /\ covers c c'.

Lemma covers_trans a b c : covers a b -> covers b c -> covers a c.
Proof. intros H K k X. apply K, H, X. Qed.
Lemma grows_refl c : grows c c.
Proof. split; [reflexivity|]. split; [lia|]. intros _ k X. exact X. Qed.
Lemma grows_trans a b c : grows a b -> grows b c -> grows a c.
Proof.
  intros (H1 & H2 & H3) (K1 & K2 & K3). split; [congruence|]. split; [lia|]. intro E.
  apply (covers_trans a b c); [apply H3; lia|apply K3; lia].
Qed.
Lemma quiet_refl c : quiet c c.
Proof. split; [repeat split|]. intros k X. exact X. Qed.
Lemma quiet_trans a b c : quiet a b -> quiet b c -> quiet a c.
Proof.
  intros ((H1 & H2 & H3) & H4) ((K1 & K2 & K3) & K4). split; [|exact (covers_trans _ _ _ H4 K4)].
  repeat split; congruence.
Qed.

Lemma get_lru (c : cache shared) k : lru (fst (get c k)) = snd (lhm_get_refresh k (lru c)).
Proof. unfold get. destruct (lhm_get_refresh k (lru c)) as [[v|] l]; reflexivity. Qed.

Lemma get_finds (c : cache shared) k k' : snd (get (fst (get c k)) k') = snd (get c k').
Proof.
  rewrite !get_find, get_lru. unfold lhm_get_refresh. destruct (lhm_find k (lru c)) as [v|] eqn:E; [|reflexivity].
  cbn [snd]. destruct (Z.eq_dec k' k) as [->|N].
  - rewrite E. exact (find_insert_same image_bytes k v (lru c)).
  - apply (find_insert_other image_bytes k' k v (lru c)). congruence.
Qed.

Lemma get_covers (c : cache shared) k : covers c (fst (get c k)).
Proof. intros k' X. now rewrite get_finds. Qed.

Lemma get_evictions (c : cache shared) k : evictions (fst (get c k)) = evictions c.
Proof. unfold get. destruct (lhm_get_refresh k (lru c)) as [[v|] l]; reflexivity. Qed.

Lemma get_hit_quiet (c : cache shared) k : snd (get c k) <> None -> quiet c (fst (get c k)).
Proof.
  intro H. split; [|apply get_covers]. unfold only_hits, get in *. destruct (lhm_get_refresh k (lru c)) as [[v|] l]; [|now elim H].
  repeat split.
Qed.

Section Evict.
Variable p : profile.
Definition stays (c c' : cache shared) : Prop :=
  capacity c' = capacity c /\ evictions c <= evictions c' /\ (evictions c' = evictions c -> lru c' = lru c).

Lemma stays_refl c : stays c c.
Proof. split; [reflexivity|]. split; [lia|reflexivity]. Qed.

Lemma evict_stays (c : cache shared) r : evict image_bytes p c = Ok r -> stays c (fst r).
Proof.
  unfold evict. destruct (lru c) as [|[k v] l] eqn:L.
  - intros [= <-]. apply stays_refl.
  - destruct (sub_u64 p (used c) (image_bytes v)) as [u|]; cbn [bind]; [|discriminate]. intros [= <-]. cbn.
    split; [reflexivity|]. split; cbn; [lia|]. intro. lia.
Qed.

Lemma while_stays go n : forall (c : cache shared) c', evict_while image_bytes p go n c = Ok c' -> stays c c'.
Proof.
  induction n as [|n IH]; intros c c' H; cbn [evict_while] in H; [injection H as <-; apply stays_refl|].
  destruct (go (used c)); [|injection H as <-; apply stays_refl].
  destruct (evict image_bytes p c) as [r|] eqn:E; cbn [bind] in H; [|discriminate H].
  destruct (evict_stays _ _ E) as (A1 & A2 & A3). destruct (IH _ _ H) as (B1 & B2 & B3).
  split; [congruence|]. split; [lia|]. intro Q. rewrite B3 by lia. apply A3. lia.
Qed.

Lemma bytes_stays (c : cache shared) n c' : evict_bytes image_bytes p c n = Ok c' -> stays c c'.
Proof.
  unfold evict_bytes, evict_all. destruct (len c =? 0); [intros [= <-]; apply stays_refl|].
  destruct (used c =? 0); [intros [= <-]; apply stays_refl|]. destruct (capacity c =? 0); [apply while_stays|].
  destruct (if used c <? n then _ else _) as [r|]; cbn [bind]; [|discriminate]. apply while_stays.
Qed.

Lemma insert_grows (c : cache shared) k v c' : insert image_bytes p c k v = Ok c' -> grows c c'.
Proof.
  unfold insert. destruct (capacity c =? 0); [intros [= <-]; apply grows_refl|].
  destruct (add_u64 p (used c) (image_bytes v)) as [e|]; cbn [bind]; [|discriminate].
  intro H.
  assert (X : exists c1, stays c c1 /\ (let* u := add_u64 p (used c1) (image_bytes v) in
     Ok (mkCache (lhm_insert k v (lru c1)) (capacity c1) u (hits c1) (CacheModel.misses c1) (inserts c1 + 1) (evictions c1))) = Ok c').
  { destruct (capacity c <=? e).
    - destruct (sub_u64 p (capacity c) (image_bytes v)) as [r|]; cbn [bind] in H; [|discriminate H].
      destruct (sub_u64 p (used c) r) as [f|]; cbn [bind] in H; [|discriminate H].
      destruct (evict_bytes image_bytes p c f) as [c1|] eqn:E; cbn [bind] in H; [|discriminate H].
      exists c1. split; [exact (bytes_stays _ _ _ E)|exact H].
    - exists c. split; [apply stays_refl|exact H]. }
  destruct X as (c1 & (S1 & S2 & S3) & X). destruct (add_u64 p (used c1) (image_bytes v)); cbn [bind] in X; [|discriminate X].
  injection X as <-. split; [exact S1|]. split; [exact S2|]. cbn [evictions]. intros Q k' N. rewrite get_find in *. cbn [lru].
  rewrite (S3 Q). destruct (Z.eq_dec k' k) as [->|Nk].
  - rewrite (find_insert_same image_bytes). discriminate.
  - rewrite (find_insert_other image_bytes) by congruence. exact N.
Qed.
End Evict.

Section Twice.
Context {D : Type}.
Variable p : profile.
Variable x : externals D.

Lemma cached_grows {E} use h (w : world D) (hit : E) make img e w' :
  cached p use h w hit make = Ok (img, e, w') -> grows (w_cache w) (w_cache w') /\ w_disk w' = w_disk w.
Proof.
  unfold cached. destruct use.
  - destruct (get (w_cache w) h) as [c r] eqn:G.
    assert (GR : grows (w_cache w) c).
    { pose proof (get_capacity (w_cache w) h) as A. pose proof (get_evictions (w_cache w) h) as B.
      pose proof (get_covers (w_cache w) h) as C. rewrite G in A, B, C. cbn [fst] in A, B, C.
      split; [exact A|]. split; [lia|]. intros _. exact C. }
    destruct r as [i|]; [intros [= <- <- <-]; split; [exact GR|reflexivity]|].
    destruct make as [[i e']|]; cbn [bind]; [|discriminate]. destruct (insert image_bytes p c h i) as [c1|] eqn:I; cbn [bind]; [|discriminate].
    intros [= <- <- <-]. cbn [w_cache w_disk]. split; [|reflexivity]. exact (grows_trans _ _ _ GR (insert_grows p _ _ _ _ I)).
  - destruct make as [[i e']|]; cbn [bind]; [|discriminate]. intros [= <- <- <-]. split; [apply grows_refl|reflexivity].
Qed.

Lemma cached_rel {E1 E2} use h (wl : world D) (hit1 : E1) make1 img1 e1 wl' (wr : world D) (hit2 : E2) make2 img2 e2 wr' :
  capacity (w_cache wl) <> 0 -> covers (w_cache wl') (w_cache wr) ->
  cached p use h wl hit1 make1 = Ok (img1, e1, wl') -> cached p use h wr hit2 make2 = Ok (img2, e2, wr') ->
  quiet (w_cache wr) (w_cache wr') /\ w_disk wr' = w_disk wr.
Proof.
  intros C V L R. split; [|exact (proj2 (cached_grows _ _ _ _ _ _ _ _ R))]. destruct use.
  - pose proof (cached_keeps p h wl hit1 make1 img1 e1 wl' C L) as HI.
    assert (X : snd (get (w_cache wr) h) <> None) by (apply V; unfold holds in HI; rewrite HI; discriminate).
    destruct (snd (get (w_cache wr) h)) as [i|] eqn:G; [|now elim X].
    rewrite (cached_hit p h wr hit2 make2 i G) in R. injection R as _ _ <-. cbn [w_cache]. apply get_hit_quiet. rewrite G. discriminate.
  - unfold cached in R. destruct make2 as [[i e']|]; cbn [bind] in R; [|discriminate R]. injection R as _ _ <-. apply quiet_refl.
Qed.

Lemma compute_grows t b fr h mode ins out w st s w' :
  compute_op p x t b fr h mode ins out w = Ok (st, s, w') -> grows (w_cache w) (w_cache w').
Proof.
  intro H. destruct t; cbn [compute_op] in H.
  - unfold null_compute in H. destruct ins; injection H as _ _ <-; apply grows_refl.
  - unfold read_compute in H. destruct (_ =? 0); [injection H as _ _ <-; apply grows_refl|].
    destruct (_ =? 0); [injection H as _ _ <-; apply grows_refl|].
    destruct (expand_string _ _ _) as [path|]; [|discriminate H]. cbn [bind] in H. destruct (x_kind _ _ _).
    + injection H as _ _ <-; apply grows_refl.
    + destruct (cached _ _ _ _ _ _) as [[[img e] w1]|] eqn:E; [|discriminate H]. cbn [bind] in H. injection H as _ _ <-.
      exact (proj1 (cached_grows _ _ _ _ _ _ _ _ E)).
    + destruct (_ =? 1); injection H as _ _ <-; apply grows_refl.
  - unfold write_compute in H. destruct (_ =? 0); [injection H as _ _ <-; apply grows_refl|].
    destruct ins; [injection H as _ _ <-; apply grows_refl|].
    destruct (_ =? 0); [injection H as _ _ <-; apply grows_refl|].
    destruct (write_process p x b fr s0 (w_disk w)) as [[d ok]|]; [|discriminate H].
    cbn [bind] in H. injection H as _ _ <-. apply grows_refl.
  - unfold grade_compute in H. destruct (first_input ins). destruct (negb _); injection H as _ _ <-; apply grows_refl.
  - unfold lens_compute in H. destruct (first_input ins).
    destruct (_ =? 1); [destruct (x_lens_ok _ _); [|discriminate H]|]; injection H as _ _ <-; apply grows_refl.
  - unfold transform_compute in H. destruct (first_input ins). injection H as _ _ <-; apply grows_refl.
  - unfold merge_compute in H. destruct (negb (_ =? 1)); [injection H as _ _ <-; apply grows_refl|].
    destruct ins as [|sa rest]; [injection H as _ _ <-; apply grows_refl|].
    destruct (match rest with [] => _ | _ => _ end) as [sb st0].
    destruct (cached _ _ _ _ _ _) as [[[img e] w1]|] eqn:E; [|discriminate H]. cbn [bind] in H. injection H as _ _ <-.
    exact (proj1 (cached_grows _ _ _ _ _ _ _ _ E)).
  - unfold crop_compute in H. destruct ins as [|sa rest]; [injection H as _ _ <-; apply grows_refl|].
    destruct (negb (_ =? 1)); [injection H as _ _ <-; apply grows_refl|].
    destruct (cached _ _ _ _ _ _) as [[[img [s' st']] w1]|] eqn:E; [|discriminate H]. cbn [bind] in H. injection H as _ _ <-.
    exact (proj1 (cached_grows _ _ _ _ _ _ _ _ E)).
  - unfold viewer_compute in H. destruct (negb (_ =? 1)); [injection H as _ _ <-; apply grows_refl|]. destruct (first_input ins) as [s0 st0].
    destruct (bake_from _); try (injection H as _ _ <-; apply grows_refl);
    (destruct (cached _ _ _ _ _ _) as [[[img s'] w1]|] eqn:E; [|discriminate H]; cbn [bind] in H; injection H as _ _ <-;
     exact (proj1 (cached_grows _ _ _ _ _ _ _ _ E))).
  - unfold resample_compute in H. destruct ins as [|sa rest]; [injection H as _ _ <-; apply grows_refl|].
    destruct (negb (_ =? 1)); [injection H as _ _ <-; apply grows_refl|].
    destruct (match p with Debug => _ | Release => _ end); [discriminate H|]. destruct (_ =? 0); [injection H as _ _ <-; apply grows_refl|].
    destruct (cached _ _ _ _ _ _) as [[[img e] w1]|] eqn:E; [|discriminate H]. cbn [bind] in H. injection H as _ _ <-.
    exact (proj1 (cached_grows _ _ _ _ _ _ _ _ E)).
Qed.

(** Streams that were given the same key. *)
Definition same_hash (s s' : stream) : Prop := st_hash s = st_hash s'.

Lemma first_same ins ins' : map st_hash ins = map st_hash ins' -> same_hash (fst (first_input ins)) (fst (first_input ins')).
Proof. destruct ins, ins'; cbn; try discriminate; [reflexivity|]. now intros [= H _]. Qed.

Hypothesis KK : writes_keep_kinds x.
Variable d0 : D.

Lemma compute_rel t b fr h mode ins ins' out out' wl wl' wr wr' st st' s s' :
  (t = TRead -> b_i32 b "enable" <> 0 -> forall path,
     expand_string (x_expand x) (b_str b "file_path") (frame_number fr) = Ok path -> x_kind x d0 path <> NoEntry) ->
  map st_hash ins = map st_hash ins' -> same_hash out out' ->
  still_there x d0 (w_disk wl) -> still_there x d0 (w_disk wr) ->
  capacity (w_cache wl) <> 0 -> covers (w_cache wl') (w_cache wr) ->
  compute_op p x t b fr h mode ins out wl = Ok (st, s, wl') ->
  compute_op p x t b fr h mode ins' out' wr = Ok (st', s', wr') ->
  same_hash s s' /\ quiet (w_cache wr) (w_cache wr') /\ still_there x d0 (w_disk wl') /\ still_there x d0 (w_disk wr').
Proof.
  intros RD HI HO DL DR C V L R.
  destruct t; cbn [compute_op] in L, R.
  - unfold null_compute in L, R. destruct ins, ins'; try discriminate HI; injection L as _ <- <-; injection R as _ <- <-.
    + split; [reflexivity|]. split; [apply quiet_refl|]. auto.
    + injection HI as HI _. split; [exact HI|]. split; [apply quiet_refl|]. auto.
  - unfold read_compute in L, R. destruct (_ =? 0); [injection L as _ <- <-; injection R as _ <- <-; split; [exact HO|]; split; [apply quiet_refl|]; auto|].
    change (gi TRead b "enable") with (b_i32 b "enable") in L, R. change (gs TRead b "file_path") with (b_str b "file_path") in L, R.
    destruct (b_i32 b "enable" =? 0) eqn:EN; [injection L as _ <- <-; injection R as _ <- <-; split; [reflexivity|]; split; [apply quiet_refl|]; auto|].
    destruct (expand_string _ _ _) as [path|] eqn:EP; [|discriminate L]. cbn [bind] in L, R.
    apply Z.eqb_neq in EN. pose proof (RD eq_refl EN path eq_refl) as NE. rewrite (DL path NE) in L. rewrite (DR path NE) in R.
    destruct (x_kind x d0 path); [now elim NE| |].
    + destruct (cached _ _ _ wl _ _) as [[[img e] w1]|] eqn:E; [|discriminate L]. cbn [bind] in L. injection L as _ <- <-.
      destruct (cached _ _ _ wr _ _) as [[[img2 e2] w2]|] eqn:E2; [|discriminate R]. cbn [bind] in R. injection R as _ <- <-.
      destruct (cached_rel _ _ _ _ _ _ _ _ _ _ _ _ _ _ C V E E2) as (Q & DQ). pose proof (proj2 (cached_grows _ _ _ _ _ _ _ _ E)) as DQ1.
      split; [reflexivity|]. split; [exact Q|]. rewrite DQ, DQ1. auto.
    + destruct (_ =? 1); injection L as _ <- <-; injection R as _ <- <-; (split; [first [exact HO|reflexivity]|]; split; [apply quiet_refl|]; auto).
  - unfold write_compute in L, R. destruct (_ =? 0); [injection L as _ <- <-; injection R as _ <- <-; split; [reflexivity|]; split; [apply quiet_refl|]; auto|].
    destruct ins as [|s1 ins], ins' as [|s2 ins']; try discriminate HI; [injection L as _ <- <-; injection R as _ <- <-; split; [reflexivity|]; split; [apply quiet_refl|]; auto|].
    injection HI as HI _.
    destruct (_ =? 0); [injection L as _ <- <-; injection R as _ <- <-; split; [exact HI|]; split; [apply quiet_refl|]; auto|].
    destruct (write_process p x b fr s1 (w_disk wl)) as [[d ok]|] eqn:WL; [|discriminate L].
    destruct (write_process p x b fr s2 (w_disk wr)) as [[d' ok']|] eqn:WR; [|discriminate R].
    cbn [bind] in L, R. injection L as _ <- <-. injection R as _ <- <-. cbn [w_cache w_disk].
    split; [exact HI|]. split; [apply quiet_refl|].
    assert (G : forall s d d1 ok, write_process p x b fr s d = Ok (d1, ok) -> still_there x d0 d -> still_there x d0 d1).
    { clear - KK. intros s d d1 ok H T. unfold write_process in H.
      destruct (expand_string _ _ _) as [path|]; [|discriminate H]. cbn [bind] in H.
      destruct (do_process _ _ _ _ _ _ _ _ _ _ _ _) as [r|]; [|discriminate H]. cbn [bind] in H.
      destruct (match crop_from _ with CropDisable => _ | _ => _ end) as [cr|]; [|discriminate H]. cbn [bind] in H.
      unfold write_image in H. destruct (if cr then _ else _) as [im|]; [|discriminate H]. cbn [bind] in H.
      match type of H with Ok (x_write x d ?a ?b ?c) = _ => pose proof (fun q => KK d a b c q) as K end.
      injection H as H. rewrite H in K. cbn [fst] in K. intros q N. rewrite K; [exact (T q N)|]. now rewrite (T q N). }
    split; [exact (G _ _ _ _ WL DL)|exact (G _ _ _ _ WR DR)].
  - unfold grade_compute in L, R. pose proof (first_same _ _ HI) as FS. destruct (first_input ins) as [a1 b1], (first_input ins') as [a2 b2]. cbn [fst] in FS.
    destruct (negb _); injection L as _ <- <-; injection R as _ <- <-; (split; [first [exact FS|reflexivity]|]; split; [apply quiet_refl|]; auto).
  - unfold lens_compute in L, R. pose proof (first_same _ _ HI) as FS. destruct (first_input ins) as [a1 b1], (first_input ins') as [a2 b2]. cbn [fst] in FS.
    destruct (_ =? 1); [destruct (x_lens_ok _ _); [|discriminate L]|]; injection L as _ <- <-; injection R as _ <- <-;
    (split; [reflexivity|]; split; [apply quiet_refl|]; auto).
  - unfold transform_compute in L, R. destruct (first_input ins) as [a1 b1], (first_input ins') as [a2 b2].
    injection L as _ <- <-; injection R as _ <- <-. split; [reflexivity|]. split; [apply quiet_refl|]. auto.
  - unfold merge_compute in L, R. destruct (negb (_ =? 1)); [injection L as _ <- <-; injection R as _ <- <-; split; [reflexivity|]; split; [apply quiet_refl|]; auto|].
    destruct ins as [|s1 ins], ins' as [|s2 ins']; try discriminate HI; [injection L as _ <- <-; injection R as _ <- <-; split; [reflexivity|]; split; [apply quiet_refl|]; auto|].
    destruct (match ins with [] => _ | _ => _ end) as [sb st0]. destruct (match ins' with [] => _ | _ => _ end) as [sb' st0'].
    destruct (cached _ _ _ wl _ _) as [[[img e] w1]|] eqn:E; [|discriminate L]. cbn [bind] in L. injection L as _ <- <-.
    destruct (cached _ _ _ wr _ _) as [[[img2 e2] w2]|] eqn:E2; [|discriminate R]. cbn [bind] in R. injection R as _ <- <-.
    destruct (cached_rel _ _ _ _ _ _ _ _ _ _ _ _ _ _ C V E E2) as (Q & DQ). pose proof (proj2 (cached_grows _ _ _ _ _ _ _ _ E)) as DQ1.
    split; [reflexivity|]. split; [exact Q|]. rewrite DQ, DQ1. auto.
  - unfold crop_compute in L, R.
    destruct ins as [|s1 ins], ins' as [|s2 ins']; try discriminate HI; [injection L as _ <- <-; injection R as _ <- <-; split; [reflexivity|]; split; [apply quiet_refl|]; auto|].
    injection HI as HI _.
    destruct (negb (_ =? 1)); [injection L as _ <- <-; injection R as _ <- <-; split; [exact HI|]; split; [apply quiet_refl|]; auto|].
    destruct (cached _ _ _ wl _ _) as [[[img [e f]] w1]|] eqn:E; [|discriminate L]. cbn [bind] in L. injection L as _ <- <-.
    destruct (cached _ _ _ wr _ _) as [[[img2 [e2 f2]] w2]|] eqn:E2; [|discriminate R]. cbn [bind] in R. injection R as _ <- <-.
    destruct (cached_rel _ _ _ _ _ _ _ _ _ _ _ _ _ _ C V E E2) as (Q & DQ). pose proof (proj2 (cached_grows _ _ _ _ _ _ _ _ E)) as DQ1.
    split; [reflexivity|]. split; [exact Q|]. rewrite DQ, DQ1. auto.
  - unfold viewer_compute in L, R. destruct (negb (_ =? 1)); [injection L as _ <- <-; injection R as _ <- <-; split; [exact HO|]; split; [apply quiet_refl|]; auto|].
    pose proof (first_same _ _ HI) as FS. destruct (first_input ins) as [a1 b1], (first_input ins') as [a2 b2]. cbn [fst] in FS.
    destruct (bake_from _); try (injection L as _ <- <-; injection R as _ <- <-; split; [exact FS|]; split; [apply quiet_refl|]; now auto);
    (destruct (cached _ _ _ wl _ _) as [[[img e] w1]|] eqn:E; [|discriminate L]; cbn [bind] in L; injection L as _ <- <-;
     destruct (cached _ _ _ wr _ _) as [[[img2 e2] w2]|] eqn:E2; [|discriminate R]; cbn [bind] in R; injection R as _ <- <-;
     destruct (cached_rel _ _ _ _ _ _ _ _ _ _ _ _ _ _ C V E E2) as (Q & DQ); pose proof (proj2 (cached_grows _ _ _ _ _ _ _ _ E)) as DQ1;
     split; [reflexivity|]; split; [exact Q|]; rewrite DQ, DQ1; now auto).
  - unfold resample_compute in L, R.
    destruct ins as [|s1 ins], ins' as [|s2 ins']; try discriminate HI; [injection L as _ <- <-; injection R as _ <- <-; split; [reflexivity|]; split; [apply quiet_refl|]; auto|].
    injection HI as HI _.
    destruct (negb (_ =? 1)); [injection L as _ <- <-; injection R as _ <- <-; split; [exact HI|]; split; [apply quiet_refl|]; auto|].
    destruct (match p with Debug => _ | Release => _ end); [discriminate L|]. destruct (match p with Debug => _ | Release => _ end); [discriminate R|].
    destruct (_ =? 0); [injection L as _ <- <-; injection R as _ <- <-; split; [exact HI|]; split; [apply quiet_refl|]; auto|].
    destruct (cached _ _ _ wl _ _) as [[[img e] w1]|] eqn:E; [|discriminate L]. cbn [bind] in L. injection L as _ <- <-.
    destruct (cached _ _ _ wr _ _) as [[[img2 e2] w2]|] eqn:E2; [|discriminate R]. cbn [bind] in R. injection R as _ <- <-.
    destruct (cached_rel _ _ _ _ _ _ _ _ _ _ _ _ _ _ C V E E2) as (Q & DQ). pose proof (proj2 (cached_grows _ _ _ _ _ _ _ _ E)) as DQ1.
    split; [reflexivity|]. split; [exact Q|]. rewrite DQ, DQ1. auto.
Qed.
End Twice.

(** Executions with a cache and executions without one give the same streams. *)
From Coq Require String.
Import String.StringSyntax.
From Coq Require Import Floats.SpecFloat.
From Verif Require Import Machine Loops CacheModel CacheProofs CacheEntries FloatModel BBoxModel PixelModel MergeModel PathModel
  EnumModel AttrModel HashModel HashSpec HashProofs StreamModel GradeModel DeformModel BakeModel GraphModel GraphSpec GraphSim
  NodeModel NodeSpec NodeProofs LutModel LutSpec LutHistory LutProofs2 SoundSpec SoundProofs1 SoundProofs2.

Section Sound.
Context {D : Type}.
Variable p : profile.
Variable x : externals D.
Variable E : setting D.
Hypothesis CP : clean_paths (x_expand x).
Hypothesis NC : no_collisions (x_digest x) (used E).
Hypothesis DU : digest_u64 (x_digest x).
Hypothesis NZ : forall l, In l (used E) -> x_digest x l <> 0.
Hypothesis KS : keeps_sources x E.

Notation bytes t b fr hs := (cache_hash_bytes p (x_expand x) t b fr hs).

(** Streams that come from a new one by computations. *)
Inductive made : stream -> Prop :=
| made_new : made stream_new
| made_node t b fr ins l d s : wf_block b -> expressible x E t b fr -> Forall made ins -> disk_ok x E d ->
    bytes t b fr (map st_hash ins) = Ok l -> In l (used E) ->
    fresh p x t b fr (x_digest x l) ins d = Ok s -> made s.

Lemma made_induction (P : stream -> Prop) : P stream_new ->
  (forall t b fr ins l d s, wf_block b -> expressible x E t b fr -> Forall made ins -> Forall P ins -> disk_ok x E d ->
    bytes t b fr (map st_hash ins) = Ok l -> In l (used E) ->
    fresh p x t b fr (x_digest x l) ins d = Ok s -> P s) ->
  forall s, made s -> P s.
Proof.
  intros HN HS. fix IH 2. intros s M. destruct M as [|t b fr ins l d s W X MI DO B U F]; [exact HN|].
  refine (HS t b fr ins l d s W X MI _ DO B U F).
  clear - IH MI. revert ins MI. fix IHl 2. intros ins MI. destruct MI as [|s1 l1 M1 M2].
  - constructor.
  - constructor; [apply IH, M1|apply IHl, M2].
Qed.

Lemma fresh_hash t b fr h ins d s : fresh p x t b fr h ins d = Ok s -> st_hash s = h.
Proof.
  unfold fresh. destruct (plan_of p x t b fr h ins d) as [|r|st s0|use hit make fin] eqn:PL; try discriminate; intro H.
  - apply Ok_inj in H. subst s0. exact (mark_hash _ _ _ _ _ _ _ _ _ _ PL).
  - apply bind_ok in H. destruct H as ([img [s0 st]] & _ & H). apply Ok_inj in H. subst s.
    apply (fin_hash _ _ _ _ _ _ _ _ _ _ _ _ PL).
Qed.
Lemma fresh_marks t b fr h ins d s : fresh p x t b fr h ins d = Ok s -> marks (plan_of p x t b fr h ins d).
Proof. unfold fresh. destruct (plan_of p x t b fr h ins d); try discriminate; intros _; exact I. Qed.

Lemma made_u64 s : made s -> u64_value (st_hash s).
Proof.
  intros [|t b fr ins l d s0 W X MI DO B U F].
  - split; cbn; lia.
  - rewrite (fresh_hash _ _ _ _ _ _ _ F). apply DU.
Qed.
Lemma made_hashes ins : Forall made ins -> Forall u64_value (map st_hash ins).
Proof. induction 1; cbn [map]; constructor; [now apply made_u64|assumption]. Qed.

(** A stream's hash identifies it. *)
Lemma made_unique s : made s -> forall s', made s' -> st_hash s = st_hash s' -> s = s'.
Proof.
  induction 1 as [|t b fr ins l d s W X MI IH DO B U F] using made_induction; intros s' M' HH.
  - destruct M' as [|t' b' fr' ins' l' d' s' W' X' MI' DO' B' U' F']; [reflexivity|].
    exfalso. apply (NZ l' U'). rewrite <- (fresh_hash _ _ _ _ _ _ _ F'), <- HH. reflexivity.
  - destruct M' as [|t' b' fr' ins' l' d' s' W' X' MI' DO' B' U' F'].
    + exfalso. apply (NZ l U). rewrite <- (fresh_hash _ _ _ _ _ _ _ F), HH. reflexivity.
    + rewrite (fresh_hash _ _ _ _ _ _ _ F), (fresh_hash _ _ _ _ _ _ _ F') in HH.
      apply NC in HH; [|exact U|exact U']. subst l'.
      assert (t = t') as <- by exact (key_type p (x_expand x) _ _ _ _ _ _ _ _ _ B B').
      pose proof (marks_keyed p x E t b fr _ _ _ X (fresh_marks _ _ _ _ _ _ _ F)) as K.
      pose proof (marks_keyed p x E t b' fr' _ _ _ X' (fresh_marks _ _ _ _ _ _ _ F')) as K'.
      destruct (key_facts p x CP t b b' fr fr' _ _ l K K' W W' (made_hashes _ MI) (made_hashes _ MI') B B') as (_ & HS & _).
      assert (ins = ins') as <-.
      { clear - IH MI' HS. revert ins' MI' HS. induction IH as [|s0 ins H IH' IHl]; intros [|s1 ins'] MI' HS; try discriminate; [reflexivity|].
        cbn [map] in HS. injection HS as H1 H2. inversion MI' as [|? ? M1 M2]; subst. f_equal; [now apply H|now apply IHl]. }
      pose proof (key_plan p x E CP t b b' fr fr' ins _ _ l (x_digest x l) d d' W W' X X' (made_hashes _ MI) (made_hashes _ MI)
        DO DO' B B' K (fresh_marks _ _ _ _ _ _ _ F')) as SP.
      unfold fresh in F, F'. destruct (plan_of p x t b fr _ ins d), (plan_of p x t b' fr' _ ins d'); try contradiction; cbn [same_plan] in SP.
      * destruct SP as [_ ->]. congruence.
      * destruct SP as (-> & -> & ->). congruence.
Qed.
Lemma made_list ins : Forall made ins -> forall ins', Forall made ins' -> map st_hash ins = map st_hash ins' -> ins = ins'.
Proof.
  induction 1 as [|s ins M MI IH]; intros [|s' ins'] MI' H; try discriminate; [reflexivity|].
  cbn [map] in H. injection H as H1 H2. inversion MI'; subst. f_equal; [now apply made_unique|now apply IH].
Qed.

(** The images in the cache are the ones that would be made. *)
Definition entry_ok (k : Z) (img : shared) : Prop :=
  forall t b fr ins l d use hit make fin, wf_block b -> expressible x E t b fr -> Forall made ins -> disk_ok x E d ->
    bytes t b fr (map st_hash ins) = Ok l -> In l (used E) -> x_digest x l = k ->
    plan_of p x t b fr k ins d = PImage use hit make fin -> exists e, make = Ok (img, e).
Definition cache_ok (c : cache shared) : Prop := forall k img, In (k, img) (lru c) -> entry_ok k img.

Lemma entry_made t b fr ins l d use hit make fin img e : wf_block b -> expressible x E t b fr -> Forall made ins -> disk_ok x E d ->
  bytes t b fr (map st_hash ins) = Ok l -> In l (used E) ->
  plan_of p x t b fr (x_digest x l) ins d = PImage use hit make fin -> make = Ok (img, e) ->
  entry_ok (x_digest x l) img.
Proof.
  intros W X MI DO B U PL MK t' b' fr' ins' l' d' use' hit' make' fin' W' X' MI' DO' B' U' HH PL'.
  apply NC in HH; [|exact U'|exact U]. subst l'.
  assert (t' = t) as -> by exact (key_type p (x_expand x) _ _ _ _ _ _ _ _ _ B' B).
  assert (M : marks (plan_of p x t b fr (x_digest x l) ins d)) by (rewrite PL; exact I).
  assert (M' : marks (plan_of p x t b' fr' (x_digest x l) ins' d')) by (rewrite PL'; exact I).
  pose proof (marks_keyed p x E t b fr _ _ _ X M) as K. pose proof (marks_keyed p x E t b' fr' _ _ _ X' M') as K'.
  destruct (key_facts p x CP t b b' fr fr' _ _ l K K' W W' (made_hashes _ MI) (made_hashes _ MI') B B') as (_ & HS & _).
  assert (ins' = ins) as -> by (apply made_list; [exact MI'|exact MI|now symmetry]).
  pose proof (key_plan p x E CP t b b' fr fr' ins _ _ l (x_digest x l) d d' W W' X X' (made_hashes _ MI) (made_hashes _ MI)
    DO DO' B B' K M') as SP.
  rewrite PL, PL' in SP. cbn [same_plan] in SP. destruct SP as (_ & <- & _). eauto.
Qed.

Lemma pass_disk t b fr h ins d st s d' : expressible x E t b fr -> disk_ok x E d ->
  plan_of p x t b fr h ins d = PPass (Ok (st, s, d')) -> disk_ok x E d'.
Proof.
  intros X DO H. assert (Q : t <> TWrite -> d' = d).
  { intro N. revert H. clear - N. destruct t; cbn [plan_of]; intro H; try discriminate; try easy.
    - destruct ins; now injection H as _ _ <-.
    - destruct (gi TRead b _ =? 0); [now injection H as _ _ <-|]. destruct (node_path _ _ _); [|discriminate].
      destruct (x_kind _ _ _); try discriminate; [now injection H as _ _ <-|]. destruct (gi TRead b _ =? 1); discriminate.
    - destruct (first_input ins). destruct (negb _); [|discriminate]. now injection H as _ _ <-.
    - destruct (first_input ins). destruct (gi TLens b _ =? 1); [destruct (x_lens_ok _ _)|]; discriminate.
    - destruct (first_input ins). discriminate.
    - destruct (negb _); [now injection H as _ _ <-|]. destruct ins as [|sa rest]; [now injection H as _ _ <-|].
      destruct (match rest with [] => _ | _ => _ end). discriminate.
    - destruct ins; [now injection H as _ _ <-|]. destruct (negb _); [|discriminate]. now injection H as _ _ <-.
    - destruct (negb _); [discriminate|]. destruct (first_input ins).
      destruct (bake_from _); try discriminate. now injection H as _ _ <-.
    - destruct ins as [|s0 rest]; [now injection H as _ _ <-|]. destruct (negb _); [now injection H as _ _ <-|].
      destruct (match p with Debug => _ | Release => _ end); [discriminate|].
      destruct (gi TResample b _ =? 0); [|discriminate]. now injection H as _ _ <-. }
  destruct (ltac:(destruct t; (left; reflexivity) || (right; discriminate)) : {t = TWrite} + {t <> TWrite}) as [->|N]; [|now rewrite Q].
  cbn [plan_of expressible] in *.
  change (gi TWrite b "enable"%string) with (b_i32 b "enable"%string) in H.
  change (gi TWrite b "execute"%string) with (b_i32 b "execute"%string) in H.
  destruct (Z.eqb_spec (b_i32 b "enable"%string) 0) as [Z1|Z1]; [now injection H as _ _ <-|].
  destruct ins as [|s0 r]; [now injection H as _ _ <-|].
  destruct (Z.eqb_spec (b_i32 b "execute"%string) 0) as [Z2|Z2]; [now injection H as _ _ <-|]. specialize (X Z1 Z2).
  injection H as H. apply bind_ok in H. destruct H as ([d1 ok] & WP & H). injection H as _ _ <-.
  unfold write_process in WP. change (gs TWrite b "file_path"%string) with (b_str b "file_path"%string) in WP.
  fold (node_path x b fr) in WP. destruct (node_path x b fr) as [path|]; [|discriminate]. cbn [bind] in WP.
  specialize (X path eq_refl). apply bind_ok in WP. destruct WP as (r0 & _ & WP). apply bind_ok in WP. destruct WP as (crop & _ & WP).
  unfold write_image in WP. apply bind_ok in WP. destruct WP as (im & _ & WP). apply Ok_inj in WP.
  match type of WP with x_write x d path ?i ?c = _ => pose proof (KS d path i c X DO) as Q2; rewrite WP in Q2 end. exact Q2.
Qed.

(** One computation. *)
Definition cold (w w0 : world D) : Prop :=
  capacity (w_cache w0) = 0 /\ lru (w_cache w0) = [] /\ w_disk w0 = w_disk w.
Definition world_ok (w : world D) : Prop := cache_ok (w_cache w) /\ disk_ok x E (w_disk w).

Lemma cold_cached {A} use h (w0 : world D) (hit : A) make img e : capacity (w_cache w0) = 0 -> lru (w_cache w0) = [] ->
  make = Ok (img, e) ->
  exists w0', cached p use h w0 hit make = Ok (img, e, w0') /\ capacity (w_cache w0') = 0 /\ lru (w_cache w0') = [] /\
    w_disk w0' = w_disk w0.
Proof.
  intros C L ->. unfold cached. destruct use; [|cbn [bind]; eauto].
  unfold get, lhm_get_refresh. rewrite L. cbn [lhm_find find bind]. unfold insert. cbn [capacity]. rewrite C. cbn [Z.eqb bind].
  eexists. split; [reflexivity|]. cbn [w_cache w_disk capacity lru]. auto.
Qed.

Lemma compute_step n fr mode ins out l w st s w' w0 : tame p x E (n, fr, ins) ->
  bytes (nd_type n) (nd_attrs n) fr (map st_hash ins) = Ok l ->
  compute_op p x (nd_type n) (nd_attrs n) fr (x_digest x l) mode ins out w = Ok (st, s, w') ->
  world_ok w -> Forall made ins -> made out -> cold w w0 ->
  exists w0', compute_op p x (nd_type n) (nd_attrs n) fr (x_digest x l) mode ins out w0 = Ok (st, s, w0') /\
    world_ok w' /\ made s /\ cold w' w0'.
Proof.
  intros (W & (l' & B' & U) & SE & X) B C WO MI MO CO.
  assert (l' = l) as -> by congruence. clear B'.
  set (t := nd_type n) in *. set (b := nd_attrs n) in *. set (h := x_digest x l) in *.
  rewrite compute_plan in C |- *. destruct (skips t mode).
  { injection C as <- <- <-. eauto. }
  destruct CO as (C1 & C2 & C3). rewrite C3. destruct WO as [CK DK].
  destruct (plan_of p x t b fr h ins (w_disk w)) as [|r|st0 s0|use hit make fin] eqn:PL; cbn [run_plan] in C |- *.
  - injection C as <- <- <-. exists w0. unfold world_ok, cold. auto 7.
  - apply bind_ok in C. destruct C as ([[st0 s0] d0] & -> & C). injection C as <- <- <-.
    cbn [bind]. eexists. split; [reflexivity|]. unfold world_ok, cold. cbn [w_cache w_disk].
    split; [split; [exact CK|exact (pass_disk _ _ _ _ _ _ _ _ _ X DK PL)]|]. split; [|auto].
    destruct (pass_known _ _ _ _ _ _ _ _ _ _ _ PL) as [->|J]; [apply made_new|]. rewrite Forall_forall in MI. now apply MI.
  - injection C as <- <- <-. exists w0. unfold world_ok, cold. split; [reflexivity|]. split; [now split|]. split; [|auto].
    apply (made_node t b fr ins l (w_disk w)); auto. fold h. unfold fresh. now rewrite PL.
  - apply bind_ok in C. destruct C as ([[img [s1 st1]] w1] & EC & C). injection C as <- <- <-.
    assert (KEY : exists e, make = Ok (img, e) /\ fin img (fst e) = fin img s1 /\ snd e = st1 /\
                    cache_ok (w_cache w1) /\ w_disk w1 = w_disk w).
    { unfold cached in EC. destruct use.
      - destruct (get (w_cache w) h) as [c [i|]] eqn:G.
        + injection EC as <- -> <-. destruct (get_some image_bytes _ _ _ _ G) as (IN & WI).
          destruct (CK _ _ IN t b fr ins l (w_disk w) _ _ _ _ W X MI DK B U eq_refl PL) as [e MK].
          destruct (image_active p x t b fr h ins (w_disk w) _ _ _ _ PL) as [AC UC].
          { intro T. rewrite T in X. cbn [expressible] in X. tauto. }
          assert (SET : settled x t b ins).
          { apply SE; [exact AC|]. symmetry in UC. apply negb_true_iff in UC. now apply Z.eqb_neq. }
          destruct (settled_hit p x t b fr h ins _ _ _ _ _ _ _ SET PL MK) as [F1 F2].
          exists e. cbn [fst snd] in F1, F2. split; [exact MK|]. split; [exact F1|]. split; [exact F2|]. cbn [w_cache w_disk].
          split; [|reflexivity]. intros k i0 J. apply CK. now apply WI.
        + apply bind_ok in EC. destruct EC as ([i e] & MK & EC). apply bind_ok in EC. destruct EC as (c1 & IC & EC).
          injection EC as <- -> <-. apply (get_none image_bytes) in G.
          exists (s1, st1). cbn [fst snd w_cache w_disk]. split; [exact MK|]. split; [reflexivity|]. split; [reflexivity|].
          split; [|reflexivity]. intros k i0 J. destruct (insert_entries _ _ _ _ _ _ IC _ J) as [Q|J'].
          * injection Q as -> ->. exact (entry_made t b fr ins l _ _ _ _ _ _ _ W X MI DK B U PL MK).
          * apply CK. now apply G.
      - apply bind_ok in EC. destruct EC as ([i e] & MK & EC). injection EC as <- -> <-.
        exists (s1, st1). cbn [fst snd]. auto 6. }
    destruct KEY as ([s2 st2] & MK & F1 & F2 & CK' & DK'). cbn [fst snd] in F1, F2. subst st2.
    destruct (cold_cached use h w0 hit make img (s2, st1) C1 C2 MK) as (w0' & -> & Q1 & Q2 & Q3).
    cbn [bind]. rewrite F1. exists w0'. split; [reflexivity|]. unfold world_ok, cold. rewrite DK'.
    split; [now split|]. split; [|split; [exact Q1|split; [exact Q2|congruence]]].
    apply (made_node t b fr ins l (w_disk w)); auto. fold h. unfold fresh. rewrite PL, MK. cbn [bind]. now rewrite F1.
Qed.

Lemma sound_simulates :
  simulates (recording (node_ops p x)) (node_ops p x)
    (fun a w0 => world_ok (fst a) /\ cold (fst a) w0) made (fun a => Forall (tame p x E) (snd a)).
Proof.
  constructor; [reflexivity|reflexivity| |].
  - intros n fr m ins out c n' st out' c' H G. unfold recording in H. cbn [n_compute] in H.
    apply bind_ok in H. destruct H as ([[[n1 s1] o1] c1] & _ & H). injection H as _ _ _ <-. cbn [snd] in G.
    now apply Forall_app in G.
  - intros n fr m ins out c n' st out' c' w0 H G [WO CO] MI MO. unfold recording in H. cbn [n_compute] in H.
    apply bind_ok in H. destruct H as ([[[n1 s1] o1] c1] & H & K). injection K as -> -> -> <-. cbn [fst snd] in *.
    apply Forall_app in G. destruct G as [_ G]. inversion G as [|? ? T _]; subst.
    cbn [node_ops n_compute] in *. unfold node_compute in *.
    apply bind_ok in H. destruct H as (h & EH & H). rewrite EH. cbn [bind].
    unfold cache_hash in EH. apply bind_ok in EH. destruct EH as (l & B & EH). apply Ok_inj in EH. subst h.
    apply bind_ok in H. destruct H as ([[st1 s1] w1] & H & K). injection K as <- <- <- <-.
    destruct (compute_step n fr m ins out l (fst c) st1 s1 w1 w0 T B H WO MI MO CO) as (w0' & -> & WO' & M' & CO').
    cbn [bind]. eauto 6.
Qed.

(* ------------------------------ sessions ------------------------------ *)

Variable srt : edge_sort.

Lemma remove_edges_output (g : graph node stream) l : g_output (remove_edges g l) = g_output g.
Proof.
  unfold remove_edges. revert g. induction l as [|e l IH]; intro g; cbn [fold_left]; [reflexivity|]. rewrite IH.
  destruct (if sg_live (g_graph g) (e_src e) then _ else _); reflexivity.
Qed.
Lemma disconnect_output (g : graph node stream) d k : g_output (disconnect_input g d k) = g_output g.
Proof. unfold disconnect_input. destruct (find_index g d); [|reflexivity]. apply remove_edges_output. Qed.

Theorem execute_sound fuel (g : graph node stream) id fs w w0 g' w' log st :
  world_ok w -> cold w w0 -> made (g_output g) ->
  execute (recording (node_ops p x)) srt fuel g id fs (w, []) = Some (Ok (g', (w', log), st)) -> Forall (tame p x E) log ->
  exists w0', execute (node_ops p x) srt fuel g id fs w0 = Some (Ok (g', w0', st)) /\
    world_ok w' /\ cold w' w0' /\ made (g_output g').
Proof.
  intros WO CO MO H T.
  destruct (sim_execute _ _ srt _ _ _ sound_simulates fuel g id fs (w, []) g' (w', log) st w0 H) as (w0' & H0 & (WO' & CO') & M');
    cbn [fst snd] in *; eauto 6.
Qed.

Lemma request_entry r l img : request_bytes p x r = Ok l -> In l (used E) -> entry_ok (x_digest x l) img.
Proof.
  intros R U t b fr ins l' d use hit make fin W X MI DO B U' HH PL. exfalso.
  apply NC in HH; [|exact U'|exact U]. subst l'. exact (node_bytes p x _ _ _ _ _ _ B R).
Qed.

Theorem session_ok G w : session p x E srt G w -> world_ok w /\ forall i, made (g_output (G i)).
Proof.
  induction 1 as [cap d DO|G w i call g' w' log G' _ [WO MO] C T Gi Gj|G c d r img c' _ [WO MO] HU RC|G c d o c' r _ [WO MO] NI ST|G c d d' _ [WO MO] DO|G c d G0 c0 d0 _ [WO MO] _ [WO0 _]].
  - split; [|intro; apply made_new]. split; [intros k img []|exact DO].
  - assert (Q : world_ok w' /\ made (g_output g')).
    { destruct call as [n|id|s k sl|d k|id a|id fs]; cbn [calls] in C.
      - destruct C as (C & j & A). injection C as -> ->. split; [exact WO|].
        unfold add_node in A. destruct (sg_add_node _) as [sg j0]. destruct (Nat.eqb _ _); [|discriminate].
        injection A as <- <-. apply MO.
      - destruct C as (C & ->). injection C as -> ->. split; [exact WO|].
        unfold remove_node. destruct (find_index _ _); [|apply MO]. destruct (sg_remove_node _ _) as [sg b]. destruct b; apply MO.
      - destruct C as (C & A). injection C as -> ->. split; [exact WO|]. unfold connect in A.
        destruct (find_index _ s) as [a|]; [|injection A as <-; apply MO].
        destruct (find_index _ k) as [b|]; [|injection A as <-; apply MO].
        apply bind_ok in A. destruct A as (sg & _ & A). injection A as <-. cbn [with_state with_graph g_output].
        rewrite disconnect_output. apply MO.
      - destruct C as (C & ->). injection C as -> ->. split; [exact WO|]. rewrite disconnect_output. apply MO.
      - destruct C as (C & A). injection C as -> ->. split; [exact WO|]. unfold write_node in A.
        destruct (find_index _ _) as [j|]; [|injection A as <-; apply MO].
        destruct (nth_error _ _); [|discriminate]. injection A as <-. apply MO.
      - destruct C as (fuel & st & C).
        destruct (execute_sound fuel (G i) id fs w (no_cache (w_disk w)) g' w' log st WO) as (w0' & _ & WO' & _ & M'); auto.
        unfold cold, no_cache. auto. }
    destruct Q as [WO' M']. split; [exact WO'|]. intro j. destruct (Nat.eq_dec j i) as [->|NE]; [now rewrite Gi|].
    rewrite Gj by exact NE. apply MO.
  - split; [|exact MO]. destruct WO as [CK DK]. split; [|exact DK]. cbn [w_cache] in *.
    apply call_lut in RC. destruct RC as (l & RB & RC). pose proof (HU l (request_bytes_hashed _ _ _ _ RB)) as U.
    unfold get_lut in RC. destruct (get c (x_digest x l)) as [c1 [i|]] eqn:GE.
    + injection RC as <- <-. destruct (get_some image_bytes _ _ _ _ GE) as (_ & WI). intros k i0 J. apply CK. now apply WI.
    + apply (get_none image_bytes) in GE. apply bind_ok in RC. destruct RC as (i & _ & RC).
      apply bind_ok in RC. destruct RC as (c2 & IC & RC). injection RC as -> ->.
      intros k i0 J. destruct (insert_entries _ _ _ _ _ _ IC _ J) as [Q|J'].
      * injection Q as -> ->. now apply (request_entry r).
      * apply CK. now apply GE.
  - split; [|exact MO]. destruct WO as [CK DK]. split; [|exact DK]. cbn [w_cache] in *.
    intros k i0 J. apply CK. destruct (step_entries _ _ _ _ _ _ ST _ J) as [J'|(k1 & v & -> & _)]; [exact J'|]. now elim (NI k1 v).
  - split; [|exact MO]. destruct WO as [CK DK]. split; [exact CK|exact DO].
  - split; [|exact MO]. split; [exact (proj1 WO0)|exact (proj2 WO)].
Qed.

Theorem session_sound G w i fuel id fs g' w' log st : session p x E srt G w ->
  execute (recording (node_ops p x)) srt fuel (G i) id fs (w, []) = Some (Ok (g', (w', log), st)) -> Forall (tame p x E) log ->
  exists w0', execute (node_ops p x) srt fuel (G i) id fs (no_cache (w_disk w)) = Some (Ok (g', w0', st)) /\
    w_disk w0' = w_disk w'.
Proof.
  intros S H T. destruct (session_ok G w S) as [WO MO].
  destruct (execute_sound fuel (G i) id fs w (no_cache (w_disk w)) g' w' log st WO) as (w0' & H0 & _ & (_ & _ & CO) & _); auto.
  - unfold cold, no_cache. auto.
  - eauto.
Qed.
End Sound.

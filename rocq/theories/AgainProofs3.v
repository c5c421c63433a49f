(** Executing the same thing again misses nothing: whole executions. *)
From Coq Require String.
Import String.StringSyntax.
From Coq Require Import Floats.SpecFloat.
From Verif Require Import Machine Loops CacheModel AttrModel PathModel
  HashModel HashSpec StreamModel GraphModel NodeModel NodeSpec AgainSpec AgainProofs AgainProofs2.
Local Open Scope string_scope.

Definition same_node (n n' : node) : Prop :=
  nd_type n = nd_type n' /\ nd_id n = nd_id n' /\ nd_attrs n = nd_attrs n'.
Definition same_graph (g g' : graph node stream) : Prop :=
  g_graph g = g_graph g' /\ g_ids g = g_ids g' /\ Forall2 same_node (g_nodes g) (g_nodes g') /\
  same_hash (g_output g) (g_output g').
Definition same_known (sc sc' : list (nat * stream)) : Prop :=
  Forall2 (fun a a' => fst a = fst a' /\ same_hash (snd a) (snd a')) sc sc'.

Lemma forall2_nth {A} (P : A -> A -> Prop) l l' : Forall2 P l l' -> forall i a, nth_error l i = Some a ->
  exists a', nth_error l' i = Some a' /\ P a a'.
Proof.
  induction 1 as [|a b l l' H _ IH]; intros i c E; destruct i; cbn in E; try discriminate E.
  - injection E as <-. exists b. split; [reflexivity|exact H].
  - exact (IH i c E).
Qed.
Lemma forall2_none {A} (P : A -> A -> Prop) l l' : Forall2 P l l' -> forall i, nth_error l i = None -> nth_error l' i = None.
Proof. induction 1 as [|a b l l' H _ IH]; intros [|i] E; cbn in *; try reflexivity; try discriminate E. exact (IH i E). Qed.

Section Twice.
Context {D : Type}.
Variable p : profile.
Variable x : externals D.
Variable srt : edge_sort.
Notation ops := (node_ops p x).
Hypothesis KK : writes_keep_kinds x.
Variable d0 : D.

Lemma get_node_rel g g' i n n' : same_graph g g' -> get_node g i = Ok n -> get_node g' i = Ok n' -> same_node n n'.
Proof.
  intros (_ & _ & S & _) H H'. unfold get_node in *. destruct (nth_error (g_nodes g) i) as [m|] eqn:E; [|discriminate H].
  destruct (forall2_nth _ _ _ S i m E) as (m' & E' & SN). rewrite E' in H'. injection H as <-. injection H' as <-. exact SN.
Qed.
Lemma get_node_panic g g' i : same_graph g g' -> get_node g i = Panic -> get_node g' i = Panic.
Proof.
  intros (_ & _ & S & _) H. unfold get_node in *. destruct (nth_error (g_nodes g) i) as [m|] eqn:E; [discriminate H|].
  now rewrite (forall2_none _ _ _ S i E).
Qed.

Lemma get_node_cases g g' i : same_graph g g' ->
  (get_node g i = Panic /\ get_node g' i = Panic) \/
  exists n n', get_node g i = Ok n /\ get_node g' i = Ok n' /\ same_node n n'.
Proof.
  intro S. destruct (get_node g i) as [n|] eqn:E; [right|left; split; [reflexivity|exact (get_node_panic _ _ _ S E)]].
  pose proof S as (_ & _ & S2 & _). unfold get_node in *. destruct (nth_error (g_nodes g) i) as [m|] eqn:EM; [|discriminate E].
  destruct (forall2_nth _ _ _ S2 i m EM) as (m' & E' & SN). rewrite E'. injection E as <-. eauto.
Qed.

Lemma hash_rel n n' fr hs : same_node n n' -> n_hash ops n fr hs = n_hash ops n' fr hs.
Proof. intros (T & _ & A). cbn [n_hash node_ops]. unfold node_hash. now rewrite T, A. Qed.

Lemma hash_phase_rel g g' fr : same_graph g g' -> forall order hc, hash_phase ops srt g fr order hc = hash_phase ops srt g' fr order hc.
Proof.
  intros S order. induction order as [|i t IH]; intro hc; cbn [hash_phase]; [reflexivity|].
  unfold input_hashes. rewrite (proj1 S).
  destruct (get_node_cases g g' i S) as [(-> & ->)|(n & n' & -> & -> & SN)]; cbn [bind]; [reflexivity|].
  destruct (let* ms := direct_upstream srt (g_graph g') i in lookup_all ms hc) as [hs|]; cbn [bind]; [|reflexivity].
  rewrite (hash_rel n n' fr hs SN). apply IH.
Qed.

Lemma get_nodes_length (g : graph node stream) l r : get_nodes g l = Ok r -> length r = length l.
Proof.
  revert r. induction l as [|i l IH]; intros r H; cbn [get_nodes] in H; [now injection H as <-|].
  destruct (get_node g i); cbn [bind] in H; [|discriminate H]. destruct (get_nodes g l) as [r0|]; cbn [bind] in H; [|discriminate H].
  injection H as <-. cbn. now rewrite (IH r0 eq_refl).
Qed.
Lemma get_nodes_cases g g' l : same_graph g g' ->
  (get_nodes g l = Panic /\ get_nodes g' l = Panic) \/
  exists r r', get_nodes g l = Ok r /\ get_nodes g' l = Ok r' /\ length r = length r'.
Proof.
  intro S. induction l as [|i l IH]; cbn [get_nodes]; [right; exists [], []; repeat split|].
  destruct (get_node_cases g g' i S) as [(-> & ->)|(n & n' & -> & -> & SN)]; cbn [bind]; [left; auto|].
  destruct IH as [(-> & ->)|(r & r' & -> & -> & L)]; cbn [bind]; [left; auto|]. right. exists (n :: r), (n' :: r'). cbn. auto.
Qed.

Lemma validate_rel g g' hc : same_graph g g' -> forall fuel stack acc,
  validate_loop ops srt fuel g hc stack acc = validate_loop ops srt fuel g' hc stack acc.
Proof.
  intros S fuel. induction fuel as [|fuel IH]; intros stack acc; cbn [validate_loop]; [reflexivity|].
  destruct stack as [|[i m] rest]; [reflexivity|]. rewrite (proj1 S).
  destruct (direct_upstream srt (g_graph g') i) as [ms|]; cbn [bind]; [|reflexivity].
  destruct (get_nodes_cases g g' ms S) as [(-> & ->)|(r & r' & -> & -> & L)]; cbn [bind]; [reflexivity|].
  destruct (get_node_cases g g' i S) as [(-> & ->)|(n & n' & -> & -> & SN)]; cbn [bind]; [reflexivity|].
  destruct (lookup i hc) as [h|]; [|reflexivity]. cbn [n_validate node_ops]. unfold node_validate.
  destruct SN as (T & _ & A). rewrite T, A, L.
  destruct (validate_op (nd_type n') (nd_attrs n') m (length r')); cbn [bind]; [|reflexivity]. apply IH.
Qed.

Lemma lookup_rel sc sc' i s s' : same_known sc sc' -> lookup i sc = Some s -> lookup i sc' = Some s' -> same_hash s s'.
Proof.
  induction 1 as [|[j a] [j' a'] l l' (E & H) _ IH]; cbn [lookup]; [discriminate|]. cbn in E. subst j'.
  destruct (Nat.eqb i j); [intros [= <-] [= <-]; exact H|exact IH].
Qed.
Lemma lookup_all_rel sc sc' : same_known sc sc' -> forall ms v v', lookup_all ms sc = Ok v -> lookup_all ms sc' = Ok v' ->
  map st_hash v = map st_hash v'.
Proof.
  intros S ms. induction ms as [|i ms IH]; intros v v' H H'; cbn [lookup_all] in *; [injection H as <-; now injection H' as <-|].
  destruct (lookup i sc) as [s|] eqn:E; [|discriminate H]. destruct (lookup i sc') as [s'|] eqn:E'; [|discriminate H'].
  destruct (lookup_all ms sc) as [r|]; cbn [bind] in H; [|discriminate H].
  destruct (lookup_all ms sc') as [r'|]; cbn [bind] in H'; [|discriminate H'].
  injection H as <-. injection H' as <-. cbn [map]. rewrite (IH r r' eq_refl eq_refl). f_equal. exact (lookup_rel _ _ _ _ _ S E E').
Qed.

Lemma set_nth_rel {A} (P : A -> A -> Prop) l l' i a a' : Forall2 P l l' -> P a a' -> Forall2 P (set_nth l i a) (set_nth l' i a').
Proof.
  intros H K. revert i. induction H as [|b b' l l' H0 H IH]; intro i; destruct i; cbn [set_nth]; constructor; auto.
Qed.

(** Read nodes keep finding their files. *)
Definition files_of (g : graph node stream) (fr : spec_float) : Prop := files_exist x g [fr] d0.

Lemma files_rel g g' fr : (forall n', In n' (g_nodes g') -> exists n, In n (g_nodes g) /\ same_node n n') -> files_of g fr -> files_of g' fr.
Proof.
  intros S F n fr' path I T E J P. destruct (S n I) as (m & Im & (T' & _ & A)). rewrite <- A in *. apply (F m fr' path Im); congruence.
Qed.

Definition ok_pair (c : world D) (c2 : world D) : Prop := still_there x d0 (w_disk c) /\ still_there x d0 (w_disk c2) /\ capacity (w_cache c) <> 0.

Lemma node_rel n n2 fr mode ins ins2 out out2 (c c' c2 c2' : world D) n' st o n2' st2 o2 :
  same_node n n2 ->
  (nd_type n = TRead -> b_i32 (nd_attrs n) "enable" <> 0 -> forall path,
     expand_string (x_expand x) (b_str (nd_attrs n) "file_path") (frame_number fr) = Ok path -> x_kind x d0 path <> NoEntry) ->
  map st_hash ins = map st_hash ins2 -> same_hash out out2 -> ok_pair c c2 -> covers (w_cache c') (w_cache c2) ->
  node_compute p x n fr mode ins out c = Ok (n', st, o, c') ->
  node_compute p x n2 fr mode ins2 out2 c2 = Ok (n2', st2, o2, c2') ->
  same_node n' n2' /\ same_node n n' /\ same_hash o o2 /\ quiet (w_cache c2) (w_cache c2') /\ ok_pair c' c2' /\ grows (w_cache c) (w_cache c').
Proof.
  intros (T & ID & A) RD HI HO (DL & DR & C) V L R. unfold node_compute in *. rewrite <- T, <- A, <- HI in R.
  destruct (cache_hash p (x_expand x) (x_digest x) (nd_type n) (nd_attrs n) fr (map st_hash ins)) as [h|]; cbn [bind] in *; [|discriminate L].
  destruct (compute_op p x (nd_type n) (nd_attrs n) fr h mode ins out c) as [[[sl ol] cl]|] eqn:EL; cbn [bind] in L; [|discriminate L].
  destruct (compute_op p x (nd_type n) (nd_attrs n) fr h mode ins2 out2 c2) as [[[sr or] cr]|] eqn:ER; cbn [bind] in R; [|discriminate R].
  injection L as <- <- <- <-. injection R as <- <- <- <-.
  destruct (compute_rel p x KK d0 _ _ _ _ _ _ _ _ _ _ _ _ _ _ _ _ _ RD HI HO DL DR C V EL ER) as (H1 & H2 & H3 & H4).
  pose proof (compute_grows p x _ _ _ _ _ _ _ _ _ _ _ EL) as G.
  split; [unfold same_node; cbn; auto|]. split; [unfold same_node; cbn; auto|]. split; [exact H1|]. split; [exact H2|]. split; [|exact G].
  split; [exact H3|]. split; [exact H4|]. destruct G as (G1 & _). congruence.
Qed.

Lemma node_grows n fr mode ins out (c c' : world D) n' st o :
  node_compute p x n fr mode ins out c = Ok (n', st, o, c') -> grows (w_cache c) (w_cache c') /\ same_node n n'.
Proof.
  unfold node_compute. destruct (cache_hash p (x_expand x) (x_digest x) (nd_type n) (nd_attrs n) fr (map st_hash ins)) as [h|]; cbn [bind]; [|discriminate].
  destruct (compute_op p x (nd_type n) (nd_attrs n) fr h mode ins out c) as [[[sl ol] cl]|] eqn:EL; cbn [bind]; [|discriminate].
  intros [= <- <- <- <-]. split; [exact (compute_grows p x _ _ _ _ _ _ _ _ _ _ _ EL)|]. unfold same_node. cbn. auto.
Qed.

Lemma output_inv (g : graph node stream) ins i fr m (c : world D) sc g' c' sc' e :
  compute_node_output ops g ins i fr m c sc = Ok (g', c', sc', e) ->
  exists n n' st o, get_node g i = Ok n /\ node_compute p x n fr m ins (g_output g) c = Ok (n', st, o, c') /\
    g' = with_output (with_nodes g (set_nth (g_nodes g) i n')) o /\
    (e = None -> sc' = (i, o) :: sc).
Proof.
  unfold compute_node_output. destruct (get_node g i) as [n|]; cbn [bind]; [|discriminate].
  change (n_compute ops n fr m ins (g_output g) c) with (node_compute p x n fr m ins (g_output g) c).
  destruct (node_compute p x n fr m ins (g_output g) c) as [[[[n' st] o] c1]|] eqn:E; cbn [bind]; [|discriminate].
  intro H. exists n, n', st, o. destruct st; injection H as <- <- <- <-; (split; [reflexivity|]; split; [exact E|]; split; [reflexivity|]);
    intro Q; try discriminate Q; reflexivity.
Qed.

Lemma phase_grows fr t : forall (g : graph node stream) (c : world D) sc g' c' e,
  compute_phase ops srt g fr t c sc = Ok (g', c', e) -> grows (w_cache c) (w_cache c').
Proof.
  induction t as [|[i m] t IH]; intros g c sc g' c' e H; cbn [compute_phase] in H; [injection H as _ <- _; apply grows_refl|].
  destruct (input_streams srt g i sc) as [ins|]; cbn [bind] in H; [|discriminate H].
  destruct (compute_node_output ops g ins i fr m c sc) as [[[[g1 c1] sc1] e1]|] eqn:E; cbn [bind] in H; [|discriminate H].
  destruct (output_inv _ _ _ _ _ _ _ _ _ _ _ E) as (n & n' & st & o & _ & EN & _ & _).
  pose proof (proj1 (node_grows _ _ _ _ _ _ _ _ _ _ EN)) as G.
  destruct e1; [injection H as _ <- _; exact G|]. exact (grows_trans _ _ _ G (IH _ _ _ _ _ _ H)).
Qed.

Lemma get_node_in (g : graph node stream) i n : get_node g i = Ok n -> In n (g_nodes g).
Proof. unfold get_node. destruct (nth_error (g_nodes g) i) eqn:E; [|discriminate]. intros [= <-]. exact (nth_error_In _ _ E). Qed.

Lemma set_nth_in {A} (l : list A) i a y : In y (set_nth l i a) -> y = a \/ In y l.
Proof.
  revert i. induction l as [|b l IH]; intros [|i] H; cbn [set_nth] in H; try (now right).
  - destruct H as [<-|H]; [now left|right; now right].
  - destruct H as [<-|H]; [right; now left|]. destruct (IH i H); [now left|right; now right].
Qed.

Lemma phase_rel fr t : forall (g g2 : graph node stream) (c c2 : world D) sc sc2 g' c' g2' c2' e2,
  same_graph g g2 -> same_known sc sc2 -> files_of g fr -> ok_pair c c2 ->
  evictions (w_cache c') = evictions (w_cache c) -> covers (w_cache c') (w_cache c2) ->
  compute_phase ops srt g fr t c sc = Ok (g', c', None) ->
  compute_phase ops srt g2 fr t c2 sc2 = Ok (g2', c2', e2) ->
  quiet (w_cache c2) (w_cache c2') /\ (e2 = None -> same_graph g' g2' /\ ok_pair c' c2' /\
    (forall n', In n' (g_nodes g') -> exists n, In n (g_nodes g) /\ same_node n n')).
Proof.
  induction t as [|[i m] t IH]; intros g g2 c c2 sc sc2 g' c' g2' c2' e2 S K F OK EV CV L R; cbn [compute_phase] in L, R.
  - injection L as <- <-. injection R as <- <- <-. split; [apply quiet_refl|]. intros _. split; [exact S|]. split; [exact OK|].
    intros n I. exists n. split; [exact I|]. repeat split.
  - unfold input_streams in L, R. rewrite <- (proj1 S) in R.
    destruct (direct_upstream srt (g_graph g) i) as [ms|]; cbn [bind] in L, R; [|discriminate L].
    destruct (lookup_all ms sc) as [ins|] eqn:EI; cbn [bind] in L; [|discriminate L].
    destruct (lookup_all ms sc2) as [ins2|] eqn:EI2; cbn [bind] in R; [|discriminate R].
    pose proof (lookup_all_rel _ _ K ms ins ins2 EI EI2) as HI.
    destruct (compute_node_output ops g ins i fr m c sc) as [[[[g1 c1] sc1] e1]|] eqn:E; cbn [bind] in L; [|discriminate L].
    destruct (compute_node_output ops g2 ins2 i fr m c2 sc2) as [[[[h1 k1] sk1] f1]|] eqn:E2; cbn [bind] in R; [|discriminate R].
    destruct e1; [discriminate L|].
    destruct (output_inv _ _ _ _ _ _ _ _ _ _ _ E) as (n & n' & st & o & GN & EN & G1 & S1).
    destruct (output_inv _ _ _ _ _ _ _ _ _ _ _ E2) as (n2 & n2' & st2 & o2 & GN2 & EN2 & G2 & S2).
    pose proof (get_node_rel g g2 i n n2 S GN GN2) as SN.
    pose proof (phase_grows _ _ _ _ _ _ _ _ L) as GR. pose proof (proj1 (node_grows _ _ _ _ _ _ _ _ _ _ EN)) as GR0.
    assert (EV1 : evictions (w_cache c') = evictions (w_cache c1)) by (destruct GR as (_ & ? & _), GR0 as (_ & ? & _); lia).
    assert (CV1 : covers (w_cache c1) (w_cache c2)).
    { apply (covers_trans _ (w_cache c') _); [exact (proj2 (proj2 GR) EV1)|exact CV]. }
    destruct (node_rel n n2 fr m ins ins2 (g_output g) (g_output g2) c c1 c2 k1 n' st o n2' st2 o2 SN) as (SN' & SNN & HO & Q & OK1 & _);
      [|exact HI|exact (proj2 (proj2 (proj2 S)))|exact OK|exact CV1|exact EN|exact EN2|].
    { intros T EB path P. apply (F n fr path (get_node_in _ _ _ GN) T EB); [now left|exact P]. }
    assert (SG : same_graph g1 h1).
    { subst g1 h1. destruct S as (A1 & A2 & A3 & A4). split; [exact A1|]. split; [exact A2|]. split; [|exact HO].
      cbn [g_nodes with_output with_nodes]. apply set_nth_rel; assumption. }
    assert (BACK : forall y, In y (g_nodes g1) -> exists z, In z (g_nodes g) /\ same_node z y).
    { subst g1. cbn [g_nodes with_output with_nodes]. intros y I. apply set_nth_in in I. destruct I as [->|I].
      - exists n. split; [exact (get_node_in _ _ _ GN)|exact SNN].
      - exists y. split; [exact I|]. repeat split. }
    destruct f1 as [f1|].
    + injection R as <- <- <-. split; [exact Q|]. discriminate.
    + assert (SK : same_known sc1 sk1) by (rewrite (S1 eq_refl), (S2 eq_refl); constructor; [split; [reflexivity|exact HO]|exact K]).
      destruct (IH g1 h1 c1 k1 sc1 sk1 g' c' g2' c2' e2 SG SK) as (Q2 & REST); [|exact OK1|exact EV1| |exact L|exact R|].
      * exact (files_rel g g1 fr BACK F).
      * exact (covers_trans _ _ _ CV (proj2 Q)).
      * split; [exact (quiet_trans _ _ _ Q Q2)|]. intro N. destruct (REST N) as (R1 & R2 & R3). split; [exact R1|]. split; [exact R2|].
        intros y I. destruct (R3 y I) as (z & Iz & Sz). destruct (BACK z Iz) as (z0 & I0 & S0). exists z0. split; [exact I0|].
        destruct Sz as (? & ? & ?), S0 as (? & ? & ?). repeat split; congruence.
Qed.

Lemma frame_rel fuel fr order (g g2 : graph node stream) (c c2 : world D) g' c' g2' c2' e2 :
  same_graph g g2 -> files_of g fr -> ok_pair c c2 ->
  evictions (w_cache c') = evictions (w_cache c) -> covers (w_cache c') (w_cache c2) ->
  execute_frame ops srt fuel g order fr c = Some (Ok (g', c', None)) ->
  execute_frame ops srt fuel g2 order fr c2 = Some (Ok (g2', c2', e2)) ->
  quiet (w_cache c2) (w_cache c2') /\ (e2 = None -> same_graph g' g2' /\ ok_pair c' c2' /\
    (forall n', In n' (g_nodes g') -> exists n, In n (g_nodes g) /\ same_node n n')).
Proof.
  intros S F OK EV CV L R. unfold execute_frame in *. rewrite <- (hash_phase_rel g g2 fr S) in R.
  destruct (hash_phase ops srt g fr (rev order) []) as [hc|]; [|discriminate L].
  destruct order as [|start t]; [discriminate L|]. rewrite <- (validate_rel g g2 hc S) in R.
  destruct (validate_loop ops srt fuel g hc _ _) as [[v|]|]; try discriminate L.
  apply (f_equal (fun o => match o with Some r => r | None => Panic end)) in L.
  apply (f_equal (fun o => match o with Some r => r | None => Panic end)) in R.
  exact (phase_rel fr _ g g2 c c2 [] [] g' c' g2' c2' e2 S (Forall2_nil _) F OK EV CV L R).
Qed.

Lemma frame_grows fuel fr order (g : graph node stream) (c : world D) g' c' e :
  execute_frame ops srt fuel g order fr c = Some (Ok (g', c', e)) -> grows (w_cache c) (w_cache c').
Proof.
  unfold execute_frame. destruct (hash_phase ops srt g fr (rev order) []) as [hc|]; [|discriminate].
  destruct order as [|start t]; [discriminate|].
  destruct (validate_loop ops srt fuel g hc _ _) as [[v|]|]; try discriminate.
  intro H. apply (f_equal (fun o => match o with Some r => r | None => Panic end)) in H. exact (phase_grows _ _ _ _ _ _ _ _ H).
Qed.
Lemma frames_grow fuel order frames : forall (g : graph node stream) (c : world D) g' c' e,
  execute_frames ops srt fuel g order frames c = Some (Ok (g', c', e)) -> grows (w_cache c) (w_cache c').
Proof.
  induction frames as [|fr t IH]; intros g c g' c' e H; cbn [execute_frames] in H; [injection H as _ <- _; apply grows_refl|].
  destruct (execute_frame ops srt fuel g order fr c) as [[[[g1 c1] [e1|]]|]|] eqn:E; try discriminate H.
  - injection H as _ <- _. exact (frame_grows _ _ _ _ _ _ _ _ E).
  - exact (grows_trans _ _ _ (frame_grows _ _ _ _ _ _ _ _ E) (IH _ _ _ _ _ H)).
Qed.

Lemma frames_rel fuel order frames : forall (g g2 : graph node stream) (c c2 : world D) g' c' g2' c2' e2,
  same_graph g g2 -> (forall fr, In fr frames -> files_of g fr) -> ok_pair c c2 ->
  evictions (w_cache c') = evictions (w_cache c) -> covers (w_cache c') (w_cache c2) ->
  execute_frames ops srt fuel g order frames c = Some (Ok (g', c', None)) ->
  execute_frames ops srt fuel g2 order frames c2 = Some (Ok (g2', c2', e2)) ->
  quiet (w_cache c2) (w_cache c2') /\ (e2 = None -> same_hash (g_output g') (g_output g2')).
Proof.
  induction frames as [|fr t IH]; intros g g2 c c2 g' c' g2' c2' e2 S F OK EV CV L R; cbn [execute_frames] in L, R.
  - injection L as <- <-. injection R as <- <- <-. split; [apply quiet_refl|]. intros _. exact (proj2 (proj2 (proj2 S))).
  - destruct (execute_frame ops srt fuel g order fr c) as [[[[g1 c1] [e1|]]|]|] eqn:E; try discriminate L.
    destruct (execute_frame ops srt fuel g2 order fr c2) as [[[[h1 k1] f1]|]|] eqn:E2; try discriminate R.
    pose proof (frame_grows _ _ _ _ _ _ _ _ E) as G1. pose proof (frames_grow _ _ _ _ _ _ _ _ L) as G2.
    assert (EV1 : evictions (w_cache c') = evictions (w_cache c1)) by (destruct G1 as (_ & ? & _), G2 as (_ & ? & _); lia).
    assert (CV1 : covers (w_cache c1) (w_cache c2)).
    { apply (covers_trans _ (w_cache c') _); [exact (proj2 (proj2 G2) EV1)|exact CV]. }
    destruct (frame_rel fuel fr order g g2 c c2 g1 c1 h1 k1 f1 S (F fr (or_introl eq_refl)) OK ltac:(congruence) CV1 E E2) as (Q & REST).
    destruct f1 as [f1|].
    + injection R as <- <- <-. split; [exact Q|discriminate].
    + destruct (REST eq_refl) as (R1 & R2 & R3).
      destruct (IH g1 h1 c1 k1 g' c' g2' c2' e2 R1) as (Q2 & X); [|exact R2|exact EV1| |exact L|exact R|].
      * intros fr' I. exact (files_rel g g1 fr' R3 (F fr' (or_intror I))).
      * exact (covers_trans _ _ _ CV (proj2 Q)).
      * split; [exact (quiet_trans _ _ _ Q Q2)|exact X].
Qed.
End Twice.

Section Final.
Context {D : Type}.
Variable p : profile.
Variable x : externals D.
Variable srt : edge_sort.
Notation ops := (node_ops p x).

Lemma only_nodes (g g' : graph node stream) fuel id frames (w w' : world D) st :
  execute ops srt fuel g id frames w = Some (Ok (g', w', st)) ->
  g_graph g' = g_graph g /\ g_ids g' = g_ids g /\ Forall2 same_node (g_nodes g) (g_nodes g').
Proof.
  assert (REFL : forall l : list node, Forall2 same_node l l).
  { induction l; constructor; [repeat split|assumption]. }
  assert (TR : forall a b c, Forall2 same_node a b -> Forall2 same_node b c -> Forall2 same_node a c).
  { intros a b c H. revert c. induction H as [|n m l l' (A & B & C) _ IH]; intros c K; inversion K as [|? k ? l2 (A' & B' & C') K']; subst; constructor.
    - repeat split; congruence.
    - now apply IH. }
  assert (PH : forall fr t (g : graph node stream) (c : world D) sc g' c' e, compute_phase ops srt g fr t c sc = Ok (g', c', e) ->
     g_graph g' = g_graph g /\ g_ids g' = g_ids g /\ Forall2 same_node (g_nodes g) (g_nodes g')).
  { intros fr t. induction t as [|[i m] t IH]; intros g0 c sc g0' c' e H; cbn [compute_phase] in H; [injection H as <- _ _; auto|].
    destruct (input_streams srt g0 i sc) as [ins|]; cbn [bind] in H; [|discriminate H].
    destruct (compute_node_output ops g0 ins i fr m c sc) as [[[[g1 c1] sc1] e1]|] eqn:E; cbn [bind] in H; [|discriminate H].
    destruct (output_inv _ _ _ _ _ _ _ _ _ _ _ _ _ E) as (n & n' & st0 & o & GN & EN & G1 & _).
    pose proof (proj2 (node_grows _ _ _ _ _ _ _ _ _ _ _ _ EN)) as SN.
    assert (X : g_graph g1 = g_graph g0 /\ g_ids g1 = g_ids g0 /\ Forall2 same_node (g_nodes g0) (g_nodes g1)).
    { subst g1. cbn [g_graph g_ids g_nodes with_output with_nodes]. split; [reflexivity|]. split; [reflexivity|].
      unfold get_node in GN. destruct (nth_error (g_nodes g0) i) eqn:NE; [|discriminate GN]. injection GN as ->.
      revert NE SN. clear - REFL. revert i. induction (g_nodes g0) as [|a l IH]; intros [|i] NE SN; cbn in NE |- *; try discriminate NE.
      - injection NE as ->. constructor; [exact SN|apply REFL].
      - constructor; [repeat split|]. exact (IH i NE SN). }
    destruct X as (X1 & X2 & X3). destruct e1; [injection H as <- _ _; auto|].
    destruct (IH _ _ _ _ _ _ H) as (Y1 & Y2 & Y3). repeat split; try congruence. exact (TR _ _ _ X3 Y3). }
  assert (FR : forall order frames (g : graph node stream) (c : world D) g' c' e, execute_frames ops srt fuel g order frames c = Some (Ok (g', c', e)) ->
     g_graph g' = g_graph g /\ g_ids g' = g_ids g /\ Forall2 same_node (g_nodes g) (g_nodes g')).
  { intros order fs. induction fs as [|fr t IH]; intros g0 c g0' c' e H; cbn [execute_frames] in H; [injection H as <- _ _; auto|].
    destruct (execute_frame ops srt fuel g0 order fr c) as [[[[g1 c1] f1]|]|] eqn:E; try discriminate H.
    assert (X : g_graph g1 = g_graph g0 /\ g_ids g1 = g_ids g0 /\ Forall2 same_node (g_nodes g0) (g_nodes g1)).
    { unfold execute_frame in E. destruct (hash_phase ops srt g0 fr (rev order) []) as [hc|]; [|discriminate E].
      destruct order as [|start o]; [discriminate E|].
      destruct (validate_loop ops srt fuel g0 hc _ _) as [[v|]|]; try discriminate E.
      apply (f_equal (fun o => match o with Some r => r | None => Panic end)) in E. exact (PH _ _ _ _ _ _ _ _ E). }
    destruct X as (X1 & X2 & X3). destruct f1 as [f1|]; [injection H as <- _ _; auto|].
    destruct (IH _ _ _ _ _ H) as (Y1 & Y2 & Y3). repeat split; try congruence. exact (TR _ _ _ X3 Y3). }
  unfold execute. destruct (find_index g id) as [start|]; [|intros [= <- _ _]; cbn; auto].
  destruct (all_upstream srt (g_graph g) start) as [nds|]; [|discriminate].
  destruct (execute_frames ops srt fuel g (map fst nds) frames w) as [[[[g1 c1] [e|]]|]|] eqn:E; try discriminate;
    intros [= <- _ _]; destruct (FR _ _ _ _ _ _ _ E) as (Y1 & Y2 & Y3); cbn; auto.
Qed.

Lemma again : writes_keep_kinds x ->
  forall fuel g id frames w g1 w1 d g2 w2 st,
  execute ops srt fuel g id frames w = Some (Ok (g1, w1, ExSuccess)) ->
  capacity (w_cache w) <> 0 -> evictions (w_cache w1) = evictions (w_cache w) ->
  st_hash (g_output g1) = st_hash (g_output g) ->
  files_exist x g frames (w_disk w) -> still_there x (w_disk w) d ->
  execute ops srt fuel g1 id frames (World (w_cache w1) d) = Some (Ok (g2, w2, st)) ->
  only_hits (w_cache w1) (w_cache w2) /\ (st = ExSuccess -> st_hash (g_output g2) = st_hash (g_output g1)).
Proof.
  intros KK fuel g id frames w g1 w1 d g2 w2 st L CAP EV HO F SD R.
  destruct (only_nodes _ _ _ _ _ _ _ _ L) as (N1 & N2 & N3).
  unfold execute in L, R. unfold find_index in *. rewrite N1, N2 in R.
  destruct (position id (g_ids g)) as [start|]; [|discriminate L].
  destruct (all_upstream srt (g_graph g) start) as [nds|]; [|discriminate L].
  destruct (execute_frames ops srt fuel g (map fst nds) frames w) as [[[[ga ca] [e|]]|]|] eqn:E; try discriminate L.
  { injection L as _ _ X. destruct e; discriminate X. }
  injection L as L1 L2. subst ca.
  assert (OUT : g_output g1 = g_output ga) by (rewrite <- L1; reflexivity).
  destruct (execute_frames ops srt fuel g1 (map fst nds) frames (World (w_cache w1) d)) as [[[[gb cb] e2]|]|] eqn:E2; try discriminate R.
  assert (CB : cb = w2) by (destruct e2; injection R as _ <- _; reflexivity). subst cb.
  destruct (frames_rel p x srt KK (w_disk w) fuel (map fst nds) frames g g1 w (World (w_cache w1) d) ga w1 gb w2 e2) as (Q & X);
    [ | | | | |exact E|exact E2|].
  - split; [congruence|]. split; [congruence|]. split; [exact N3|]. unfold same_hash. congruence.
  - intros fr I n fr' path In0 T EN J P. apply (F n fr' path In0 T EN); [|exact P]. destruct J as [<-|[]]. exact I.
  - split; [intros q N; reflexivity|]. split; [exact SD|exact CAP].
  - exact EV.
  - intros k N. exact N.
  - split; [exact (proj1 Q)|]. intros ->. destruct e2 as [e2|]; [injection R as _ X2; destruct e2; discriminate X2|].
    injection R as R1. specialize (X eq_refl). unfold same_hash in X. rewrite <- R1, OUT. cbn. congruence.
Qed.

Lemma again_anew : writes_keep_kinds x ->
  forall fuel g id frames w g1 w1 d g2 w2 st,
  (forall o, execute ops srt fuel (with_output g o) id frames w = Some (Ok (g1, w1, ExSuccess))) ->
  capacity (w_cache w) <> 0 -> evictions (w_cache w1) = evictions (w_cache w) ->
  files_exist x g frames (w_disk w) -> still_there x (w_disk w) d ->
  execute ops srt fuel g1 id frames (World (w_cache w1) d) = Some (Ok (g2, w2, st)) ->
  only_hits (w_cache w1) (w_cache w2) /\ (st = ExSuccess -> st_hash (g_output g2) = st_hash (g_output g1)).
Proof.
  intros KK fuel g id frames w g1 w1 d g2 w2 st L CAP EV F SD R.
  exact (again KK fuel (with_output g (g_output g1)) id frames w g1 w1 d g2 w2 st (L _) CAP EV eq_refl F SD R).
Qed.
End Final.

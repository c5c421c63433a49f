(** Proofs about the caches and reports of clients. *)
From Coq Require Import String Floats.SpecFloat.
From Verif Require Import Machine CacheModel CacheSpec CacheProofs AttrModel AttrSpec StreamModel AttrProofs StateProofs GraphModel GraphSpec GraphExec GraphWalk GraphHistory GraphHistory2 EnumModel HashModel PathModel NodeModel LutModel FrameModel
  ClientModel ClientSpec ClientSpec3 ClientProofs.

(* ------------------------- runs of the cache ------------------------- *)

Section Runs.
Context {V : Type}.
Variable size : V -> Z.
Variable p : profile.

Lemma run_app a : forall c b, run size p c (a ++ b) =
  match run size p c a with
  | Ok (c1, o1) => match run size p c1 b with Ok (c2, o2) => Ok (c2, (o1 ++ o2)%list) | Panic => Panic end
  | Panic => Panic
  end.
Proof.
  induction a as [|o a IH]; intros c b; cbn [run app].
  - destruct (run size p c b) as [[c2 o2]|]; reflexivity.
  - destruct (step size p c o) as [r|]; cbn [bind]; [|reflexivity]. rewrite IH.
    destruct (run size p (fst r) a) as [[c1 o1]|]; cbn [bind fst snd]; [|reflexivity].
    destruct (run size p c1 b) as [[c2 o2]|]; reflexivity.
Qed.
Lemma lookups_app (a : list (op V)) b oa ob : lookups a oa -> lookups b ob -> lookups (a ++ b) (oa ++ ob).
Proof. intros A B. induction A; cbn [app]; [exact B|constructor; assumption..]. Qed.

(** A missed key is still missing. *)
Lemma missed_again (c : cache V) k : snd (get c k) = None -> snd (get (fst (get c k)) k) = None.
Proof.
  unfold get, lhm_get_refresh. destruct (lhm_find k (lru c)) as [v|] eqn:F; cbn [snd fst]; [discriminate|]. cbn [lru]. rewrite F. reflexivity.
Qed.

Lemma miss_app a : forall c b, insert_after_miss size p c a ->
  (forall c1 o1, run size p c a = Ok (c1, o1) -> insert_after_miss size p c1 b) -> insert_after_miss size p c (a ++ b).
Proof.
  induction a as [|o a IH]; intros c b A B; cbn [app insert_after_miss] in *; [exact (B c [] eq_refl)|].
  destruct A as (A1 & A2). split; [exact A1|]. cbn [run] in B.
  destruct (step size p c o) as [[c' r]|] eqn:S; [|exact I]. apply IH; [exact A2|]. intros c1 o1 R. apply (B c1 (r :: o1)).
  cbn [bind fst snd]. rewrite R. reflexivity.
Qed.
Lemma lookups_miss ops : forall outs c c' , lookups ops outs -> run size p c ops = Ok (c', outs) -> insert_after_miss size p c ops.
Proof.
  intros outs c c' L. revert c. induction L as [|k v ops outs L IH|k v ops outs L IH]; intros c R; cbn [run step] in R.
  - exact I.
  - cbn [insert_after_miss step]. split; [exact I|]. destruct (get c k) as (c1, r) eqn:G. cbn [bind fst snd] in R.
    destruct (run size p c1 ops) as [[c2 o2]|] eqn:R2; cbn [bind fst snd] in R; [|discriminate R]. injection R as <- _ <-. exact (IH c1 R2).
  - cbn [insert_after_miss step]. split; [exact I|]. destruct (get c k) as (c1, r) eqn:G. cbn [bind fst snd] in R.
    destruct (insert size p c1 k v) as [c3|] eqn:E; cbn [bind fst snd] in R; [|discriminate R].
    destruct (run size p c3 ops) as [[c2 o2]|] eqn:R2; cbn [bind fst snd] in R; [|discriminate R]. injection R as <- -> <-.
    split; [|exact (IH c3 R2)]. replace c1 with (fst (get c k)) by (rewrite G; reflexivity). apply missed_again. rewrite G. reflexivity.
Qed.

Lemma get_cap (c : cache V) k : capacity (fst (get c k)) = capacity c.
Proof. unfold get. destruct (lhm_get_refresh k (lru c)) as [[v|] l]; reflexivity. Qed.
(** Only setting it changes the capacity. *)
Lemma while_capacity goon n : forall c c' : cache V, evict_while size p goon n c = Ok c' -> capacity c' = capacity c.
Proof.
  induction n as [|n IH]; intros c c' H; cbn [evict_while] in H; [now injection H as <-|].
  destruct (goon (CacheModel.used c)); [|now injection H as <-].
  unfold evict in H. destruct (lru c) as [|(k, v) rest]; cbn [bind fst] in H; [exact (IH _ _ H)|].
  destruct (sub_u64 _ _ _); cbn [bind fst] in H; [|discriminate H]. rewrite (IH _ _ H). reflexivity.
Qed.
Lemma evict_capacity n (c c' : cache V) : evict_bytes size p c n = Ok c' -> capacity c' = capacity c.
Proof.
  unfold evict_bytes. destruct (_ =? 0); [now intros [= <-]|]. destruct (_ =? 0); [now intros [= <-]|].
  destruct (_ =? 0); [apply while_capacity|]. destruct (if CacheModel.used c <? n then _ else _); cbn [bind]; [apply while_capacity|discriminate].
Qed.
Lemma insert_capacity (c c' : cache V) k v : insert size p c k v = Ok c' -> capacity c' = capacity c.
Proof.
  unfold insert. destruct (_ =? 0); [now intros [= <-]|]. destruct (add_u64 _ _ _); cbn [bind]; [|discriminate].
  destruct (capacity c <=? a).
  - destruct (sub_u64 _ _ _); cbn [bind]; [|discriminate]. destruct (sub_u64 _ _ _); cbn [bind]; [|discriminate].
    destruct (evict_bytes _ _ _ _) as [c1|] eqn:E; cbn [bind]; [|discriminate]. destruct (add_u64 _ _ _); cbn [bind]; [|discriminate].
    intros [= <-]. cbn [capacity]. exact (evict_capacity _ _ _ E).
  - cbn [bind]. destruct (add_u64 _ _ _); cbn [bind]; [|discriminate]. intros [= <-]. reflexivity.
Qed.
Lemma set_capacity_sets (c c' : cache V) n : set_capacity size p c n = Ok c' -> capacity c' = n.
Proof. unfold set_capacity. destruct (if n <? CacheModel.used c then _ else _); cbn [bind]; [|discriminate]. now intros [= <-]. Qed.
Lemma lookups_capacity l outs : lookups l outs -> forall c c', run size p c l = Ok (c', outs) -> capacity c' = capacity c.
Proof.
  intro L. induction L as [|k v l outs L IH|k v l outs L IH]; intros c c' R; cbn [run step] in R.
  - now injection R as <-.
  - pose proof (get_cap c k) as G. destruct (get c k) as (c1, r). cbn [bind fst snd] in R, G.
    destruct (run size p c1 l) as [[c2 o2]|] eqn:R2; cbn [bind fst snd] in R; [|discriminate R]. injection R as <- _ <-. rewrite (IH _ _ R2). exact G.
  - pose proof (get_cap c k) as G. destruct (get c k) as (c1, r). cbn [bind fst snd] in R, G.
    destruct (insert size p c1 k v) as [c3|] eqn:E; cbn [bind fst snd] in R; [|discriminate R].
    destruct (run size p c3 l) as [[c2 o2]|] eqn:R2; cbn [bind fst snd] in R; [|discriminate R]. injection R as <- _ <-.
    rewrite (IH _ _ R2), (insert_capacity _ _ _ _ E). exact G.
Qed.
End Runs.

(* ------------------------- what executing does to the cache ------------------------- *)

Section Walk.
Context {N St Ca F W : Type}.
Variable ops : nodeops N St Ca F W.
Variable srt : edge_sort.
Variable R : Ca -> Ca -> Prop.
Hypothesis Rrefl : forall c, R c c.
Hypothesis Rtrans : forall a b c, R a b -> R b c -> R a c.
Hypothesis Rstep : forall n fr mode ins o c n' st s c', n_compute ops n fr mode ins o c = Ok (n', st, s, c') -> R c c'.

Lemma phase_related fr : forall t (g : graph N St) c sc g' c' e, compute_phase ops srt g fr t c sc = Ok (g', c', e) -> R c c'.
Proof.
  induction t as [|(i, mode) t IH]; intros g c sc g' c' e H; cbn [compute_phase] in H; [injection H as _ <- _; apply Rrefl|].
  destruct (input_streams srt g i sc) as [vs|]; [|discriminate]. cbn [bind] in H. unfold compute_node_output in H.
  destruct (get_node g i) as [n|]; [|discriminate]. cbn [bind] in H.
  destruct (n_compute ops n fr mode vs (g_output g) c) as [(((n', st), v), c2)|] eqn:C; [|discriminate]. cbn [bind] in H.
  pose proof (Rstep _ _ _ _ _ _ _ _ _ _ C) as X.
  destruct st; cbn [bind] in H; try (injection H as _ <- _; exact X); exact (Rtrans _ _ _ X (IH _ _ _ _ _ _ H)).
Qed.
Lemma execute_related fuel (g : graph N St) id frames c g' c' st : execute ops srt fuel g id frames c = Some (Ok (g', c', st)) -> R c c'.
Proof.
  intro H. unfold execute in H. destruct (find_index g id) as [start|]; [|injection H as _ <- _; apply Rrefl].
  destruct (all_upstream srt (g_graph g) start) as [nds|]; [|discriminate].
  assert (K : forall fs (g : graph N St) c g' c' e, execute_frames ops srt fuel g (map fst nds) fs c = Some (Ok (g', c', e)) -> R c c').
  { clear H. intros fs. induction fs as [|fr fs IH]; intros h k h' k' e X; cbn [execute_frames] in X; [injection X as _ <- _; apply Rrefl|].
    destruct (execute_frame ops srt fuel h (map fst nds) fr k) as [[((h1, k1), e1)|]|] eqn:XF; try discriminate.
    assert (O1 : R k k1).
    { unfold execute_frame in XF. destruct (hash_phase _ _ _ _ _ _) as [hc|]; [|discriminate]. destruct (map fst nds) as [|i0 r]; [discriminate|].
      destruct (validate_loop _ _ _ _ _ _ _) as [[l|]|]; try discriminate. injection XF as XF. exact (phase_related _ _ _ _ _ _ _ _ XF). }
    destruct e1; [injection X as _ <- _; exact O1|exact (Rtrans _ _ _ O1 (IH _ _ _ _ _ X))]. }
  destruct (execute_frames _ _ _ _ _ _ _) as [[((g1, c1), e)|]|] eqn:E; try discriminate.
  pose proof (K _ _ _ _ _ _ E) as X. destruct e; injection H as _ <- _; exact X.
Qed.
End Walk.

Lemma find_in {V} (l : list (Z * V)) k v : NoDup (map fst l) -> In (k, v) l -> lhm_find k l = Some v.
Proof.
  induction l as [|(k', v') l IH]; intros ND I; [destruct I|]. inversion ND as [|? ? NI ND']; subst. cbn [lhm_find].
  destruct I as [[= -> ->]|I]; [now rewrite Z.eqb_refl|]. destruct (k' =? k) eqn:E; [|exact (IH ND' I)]. apply Z.eqb_eq in E. subst k'.
  exfalso. apply NI. exact (in_map fst _ _ I).
Qed.

Section Nodes.
Context {D : Type}.
Variable p : profile.
Variable x : externals D.
Variable srt : edge_sort.
Notation ops := (node_ops p x).

Definition looked (w w' : world D) : Prop :=
  exists l outs, lookups l outs /\ run image_bytes p (w_cache w) l = Ok (w_cache w', outs).
Lemma looked_same w d : looked w (World (w_cache w) d).
Proof. exists [], []. split; [constructor|reflexivity]. Qed.
Lemma looked_refl w : looked w w.
Proof. exists [], []. split; [constructor|reflexivity]. Qed.
Lemma looked_trans a b c : looked a b -> looked b c -> looked a c.
Proof.
  intros (l1 & o1 & L1 & R1) (l2 & o2 & L2 & R2). exists (l1 ++ l2)%list, (o1 ++ o2)%list. split; [now apply lookups_app|].
  rewrite run_app, R1, R2. reflexivity.
Qed.
(** What one computation does to the cache: nothing, or a lookup of its key and
    then perhaps an insertion under it. *)
Definition touched (h : Z) (w w' : world D) : Prop :=
  w_cache w' = w_cache w \/ (exists v, get (w_cache w) h = (w_cache w', Some v)) \/
  exists c img, get (w_cache w) h = (c, None) /\ insert image_bytes p c h img = Ok (w_cache w').
Lemma touched_looked h w w' : touched h w w' -> looked w w'.
Proof.
  intros [Q|[(v & G)|(c & img & G & I)]].
  - exists [], []. split; [constructor|]. now rewrite Q.
  - exists [Get h], [OGet (Some v)]. split; [repeat constructor|]. cbn [run step]. rewrite G. reflexivity.
  - exists [Get h; Insert h img], [OGet None; OUnit]. split; [repeat constructor|]. cbn [run step]. rewrite G. cbn [bind fst]. rewrite I. reflexivity.
Qed.
Lemma cached_touched {E} u h w (hit : E) make img e w' : cached p u h w hit make = Ok (img, e, w') -> touched h w w'.
Proof.
  unfold cached. destruct u.
  - destruct (get (w_cache w) h) as (c, r) eqn:G. destruct r as [v|].
    + intros [= <- <- <-]. right. left. exists v. exact G.
    + destruct make as [(i0, e0)|]; cbn [bind]; [|discriminate]. destruct (insert image_bytes p c h i0) as [c1|] eqn:I; cbn [bind]; [|discriminate].
      intros [= <- <- <-]. right. right. exists c, i0. split; [exact G|exact I].
  - destruct make as [(i0, e0)|]; cbn [bind]; [|discriminate]. intros [= <- <- <-]. now left.
Qed.
Lemma op_touched t b fr h mode ins o w st s w' : compute_op p x t b fr h mode ins o w = Ok (st, s, w') -> touched h w w'.
Proof.
  assert (SAME : forall (a : node_status) (b : stream) (w0 : world D), Ok (a, b, w0) = Ok (st, s, w') -> touched h w0 w').
  { intros a b0 w0 [= _ _ <-]. now left. }
  destruct t; cbn [compute_op]; intro H.
  - unfold null_compute in H. destruct ins; exact (SAME _ _ _ H).
  - unfold read_compute in H. destruct (_ =? 0); [exact (SAME _ _ _ H)|]. destruct (_ =? 0); [exact (SAME _ _ _ H)|].
    destruct (expand_string _ _ _) as [path|]; [|discriminate H]. cbn [bind] in H.
    destruct (x_kind x (w_disk w) path); [exact (SAME _ _ _ H)| |destruct (_ =? 1); exact (SAME _ _ _ H)].
    destruct (cached _ _ _ _ _ _) as [[[img e] w1]|] eqn:C; [|discriminate H]. cbn [bind] in H.
    injection H as _ _ <-. exact (cached_touched _ _ _ _ _ _ _ _ C).
  - unfold write_compute in H. destruct (_ =? 0); [exact (SAME _ _ _ H)|]. destruct ins; [exact (SAME _ _ _ H)|].
    destruct (_ =? 0); [exact (SAME _ _ _ H)|]. destruct (write_process _ _ _ _ _ _) as [[d ok]|]; [|discriminate H]. cbn [bind] in H.
    injection H as _ _ <-. now left.
  - unfold grade_compute in H. destruct (first_input ins). destruct (negb _); exact (SAME _ _ _ H).
  - unfold lens_compute in H. destruct (first_input ins). destruct (_ =? 1); [|exact (SAME _ _ _ H)]. destruct (x_lens_ok _ _); [exact (SAME _ _ _ H)|discriminate H].
  - unfold transform_compute in H. destruct (first_input ins). exact (SAME _ _ _ H).
  - unfold merge_compute in H. destruct (negb _); [exact (SAME _ _ _ H)|]. destruct ins as [|sa rest]; [exact (SAME _ _ _ H)|].
    destruct (match rest with [] => _ | _ => _ end) as (sb, st0).
    destruct (cached _ _ _ _ _ _) as [[[img e] w1]|] eqn:C; [|discriminate H]. cbn [bind] in H.
    injection H as _ _ <-. exact (cached_touched _ _ _ _ _ _ _ _ C).
  - unfold crop_compute in H. destruct ins as [|sa rest]; [exact (SAME _ _ _ H)|]. destruct (negb _); [exact (SAME _ _ _ H)|].
    destruct (cached _ _ _ _ _ _) as [[[img [e e2]] w1]|] eqn:C; [|discriminate H]. cbn [bind] in H.
    injection H as _ _ <-. exact (cached_touched _ _ _ _ _ _ _ _ C).
  - unfold viewer_compute in H. destruct (negb _); [exact (SAME _ _ _ H)|]. destruct (first_input ins) as (s0, st0).
    destruct (bake_from _); [exact (SAME _ _ _ H)|..];
      (destruct (cached _ _ _ _ _ _) as [[[img e] w1]|] eqn:C; [|discriminate H]; cbn [bind] in H;
       injection H as _ _ <-; exact (cached_touched _ _ _ _ _ _ _ _ C)).
  - unfold resample_compute in H. destruct ins as [|sa rest]; [exact (SAME _ _ _ H)|]. destruct (negb _); [exact (SAME _ _ _ H)|].
    destruct (match p with Debug => _ | Release => _ end); [discriminate H|]. destruct (_ =? 0); [exact (SAME _ _ _ H)|].
    destruct (cached _ _ _ _ _ _) as [[[img e] w1]|] eqn:C; [|discriminate H]. cbn [bind] in H.
    injection H as _ _ <-. exact (cached_touched _ _ _ _ _ _ _ _ C).
Qed.
Lemma execute_looked fuel g id frames w g' w' st : execute ops srt fuel g id frames w = Some (Ok (g', w', st)) -> looked w w'.
Proof.
  apply execute_related; [exact looked_refl|exact looked_trans|].
  intros n fr mode ins o c n' st0 s c' H. cbn [n_compute node_ops] in H. unfold node_compute in H.
  destruct (cache_hash _ _ _ _ _ _ _) as [h|]; [|discriminate H]. cbn [bind] in H.
  destruct (compute_op _ _ _ _ _ _ _ _ _ _) as [[[st1 s1] w1]|] eqn:C; [|discriminate H]. cbn [bind] in H.
  injection H as _ _ _ <-. exact (touched_looked _ _ _ (op_touched _ _ _ _ _ _ _ _ _ _ _ C)).
Qed.

Lemma lut_lookups key make c img c' : get_lut p key make c = Ok (img, c') ->
  exists l outs, lookups l outs /\ run image_bytes p c l = Ok (c', outs).
Proof.
  unfold get_lut. destruct (get c key) as (c0, r) eqn:G. destruct r as [v|].
  - intros [= <- <-]. exists [Get key], [OGet (Some v)]. split; [repeat constructor|]. cbn [run step]. rewrite G. reflexivity.
  - destruct make as [i0|]; cbn [bind]; [|discriminate]. destruct (insert image_bytes p c0 key i0) as [c1|] eqn:I; cbn [bind]; [|discriminate].
    intros [= <- <-]. exists [Get key; Insert key i0], [OGet None; OUnit]. split; [repeat constructor|]. cbn [run step]. rewrite G. cbn [bind fst].
    rewrite I. reflexivity.
Qed.

(* ------------------------- clients ------------------------- *)

Notation ccalls := (client_call p x srt).

(** What a call does to cache [k]. *)
Lemma call_cache fuel cl call cl' r k c' : ccalls fuel cl call = Some (Ok (cl', r)) -> cl_caches cl' k = Some c' ->
  (~ touches_cache k call /\ cl_caches cl k = Some c') \/
  (exists n c, call = CSetCapacity k n /\ r = RVoid /\ cl_caches cl k = Some c /\ set_capacity image_bytes p c n = Ok c') \/
  (touches_cache k call /\ (forall j n, call <> CSetCapacity j n) /\
   exists c l outs, cl_caches cl k = Some c /\ lookups l outs /\ run image_bytes p c l = Ok (c', outs)).
Proof.
  intros H C'.
  assert (EX : forall i n fs j, execute_call p x srt fuel cl i n fs j = Some (Ok (cl', r)) ->
    (j <> k /\ cl_caches cl k = Some c') \/
    (j = k /\ exists c l outs, cl_caches cl k = Some c /\ lookups l outs /\ run image_bytes p c l = Ok (c', outs))).
  { intros i n fs j X. unfold execute_call in X. destruct (cl_caches cl j) as [c|] eqn:CJ; [|discriminate X].
    destruct (execute _ _ _ _ _ _ _) as [[[[g w] st]|]|] eqn:E; try discriminate X. injection X as <- _. cbn [cl_caches] in C'.
    destruct (Nat.eq_dec j k) as [->|NE]; [right|left].
    - split; [reflexivity|]. rewrite put_eq in C'. injection C' as <-.
      destruct (execute_looked _ _ _ _ _ _ _ _ E) as (l & outs & L & RR). exists c, l, outs. cbn [w_cache] in RR. now rewrite CJ.
    - split; [exact NE|]. rewrite put_other in C' by congruence. exact C'. }
  assert (TB : forall j key make, table_call cl j (fun c => get_lut p key make c) = Some (Ok (cl', r)) ->
    (j <> k /\ cl_caches cl k = Some c') \/
    (j = k /\ exists c l outs, cl_caches cl k = Some c /\ lookups l outs /\ run image_bytes p c l = Ok (c', outs))).
  { intros j key make X. apply table_ok in X. destruct X as (c & (img, c1) & CJ & F & X). injection X as -> _. cbn [cl_caches snd] in C'.
    destruct (Nat.eq_dec j k) as [->|NE]; [right|left].
    - split; [reflexivity|]. rewrite put_eq in C'. injection C' as <-. destruct (lut_lookups _ _ _ _ _ F) as (l & outs & L & RR). eauto 8.
    - split; [exact NE|]. rewrite put_other in C' by congruence. exact C'. }
  destruct call; cbn [client_call touches_cache] in H |- *.
  all: try (left; split; [tauto|]; try (injection H as <- _; exact C');
            try (apply gives_ok in H; destruct H as (a & _ & H); injection H as -> _; exact C');
            try (unfold of_cache in H; destruct (cl_caches cl k0) as [c|]; [|discriminate H]; injection H as <- _; exact C'); fail).
  - destruct (EX _ _ _ _ H) as [(NE & Q)|(-> & Q)]; [left; now split|right; right]. repeat split; [discriminate|exact Q].
  - destruct (EX _ _ _ _ H) as [(NE & Q)|(-> & Q)]; [left; now split|right; right]. repeat split; [discriminate|exact Q].
  - destruct (cl_caches cl k0) as [c|] eqn:CJ; [|discriminate H]. apply gives_ok in H. destruct H as (c1 & S & H). injection H as -> ->.
    cbn [cl_caches] in C'. destruct (Nat.eq_dec k0 k) as [->|NE].
    + right. left. rewrite put_eq in C'. injection C' as <-. exists value, c. repeat split; assumption.
    + left. split; [exact NE|]. rewrite put_other in C' by congruence. exact C'.
  - destruct (TB _ _ _ H) as [(NE & Q)|(-> & Q)]; [left; now split|right; right]. repeat split; [discriminate|exact Q].
  - unfold get_ops_lut in H. destruct (ops_lut_bytes p x n nc (st_ops s)) as [b|].
    + cbn [bind] in H. destruct (TB _ _ _ H) as [(NE & Q)|(-> & Q)]; [left; now split|right; right]. repeat split; [discriminate|exact Q].
    + apply table_ok in H. destruct H as (c & a & _ & F & _). discriminate F.
Qed.

(** Every cache of a client has gone through what the calls say. *)
Lemma past_cache_past h cl k c : past p x srt h cl -> cl_caches cl k = Some c ->
  exists l outs, cache_past k h l outs /\ run image_bytes p (with_capacity 0) l = Ok (c, outs) /\
    insert_after_miss image_bytes p (with_capacity 0) l.
Proof.
  intro H. revert c. induction H as [d|h cl fuel call cl' r H IH HC|h cl d H IH]; intros c C.
  - injection C as <-. exists [], []. split; [constructor|]. split; [reflexivity|exact I].
  - destruct (call_cache _ _ _ _ _ _ _ HC C) as [(NT & C0)|[(n & c0 & -> & -> & C0 & S)|(T & NS & c0 & l & o & C0 & L & RR)]].
    + destruct (IH _ C0) as (l & outs & CP & R & M). exists l, outs. repeat split; try assumption. apply cp_other; [exact CP|].
      destruct call; try exact I; exact NT.
    + destruct (IH _ C0) as (l & outs & CP & R & M). exists (l ++ [SetCapacity n])%list, (outs ++ [OUnit])%list. split; [now constructor|]. split.
      * rewrite run_app, R. cbn [run step]. rewrite S. reflexivity.
      * apply miss_app; [exact M|]. intros c1 o1 R1. rewrite R in R1. injection R1 as <- <-. cbn [insert_after_miss step]. rewrite S. now split.
    + destruct (IH _ C0) as (l0 & outs & CP & R & M). exists (l0 ++ l)%list, (outs ++ o)%list. split.
      * apply (cp_lent k h call r l0 outs l o CP L). destruct call; try contradiction T; try exact T. exfalso. exact (NS _ _ eq_refl).
      * split; [rewrite run_app, R, RR; reflexivity|]. apply miss_app; [exact M|]. intros c1 o1 R1. rewrite R in R1. injection R1 as <- <-.
        exact (lookups_miss image_bytes p _ _ _ _ L RR).
  - apply IH. exact C.
Qed.

Lemma past_capacity h cl k c : past p x srt h cl -> cl_caches cl k = Some c -> capacity c = last_capacity k h.
Proof.
  intro H. revert c. induction H as [d|h cl fuel call cl' r H IH HC|h cl d H IH]; intros c C.
  - injection C as <-. reflexivity.
  - unfold last_capacity. rewrite fold_left_app. fold (last_capacity k h). cbn [fold_left fst].
    destruct (call_cache _ _ _ _ _ _ _ HC C) as [(NT & C0)|[(n & c0 & -> & -> & C0 & S)|(T & NS & c0 & l & o & C0 & L & RR)]].
    + rewrite (IH _ C0). destruct call; try reflexivity. cbn in NT. apply Nat.eqb_neq in NT. now rewrite NT.
    + rewrite Nat.eqb_refl. exact (set_capacity_sets _ _ _ _ _ S).
    + rewrite (lookups_capacity _ _ _ _ L _ _ RR), (IH _ C0). destruct call; try reflexivity. exfalso. exact (NS _ _ eq_refl).
  - apply IH. exact C.
Qed.

Theorem answers_capacity h cl k : past p x srt h cl -> answers p x srt cl (CCapacity k) (RNumber (last_capacity k h)).
Proof.
  intros H fuel. destruct (past_caches _ _ _ _ _ k H) as (c & C). cbn [client_call]. unfold of_cache. rewrite C.
  now rewrite (past_capacity _ _ _ _ H C).
Qed.
Theorem cache_went h cl k : past p x srt h cl -> exists c l outs, cl_caches cl k = Some c /\ cache_past k h l outs /\
  run image_bytes p (with_capacity 0) l = Ok (c, outs).
Proof.
  intros H. destruct (past_caches _ _ _ _ _ k H) as (c & C). destruct (past_cache_past _ _ _ _ H C) as (l & outs & CP & R & _). eauto 8.
Qed.
Theorem answers_content h cl k : past p x srt h cl ->
  exists l outs, cache_past k h l outs /\
    (CacheSpec.history_wf image_bytes l ->
     exists pics, NoDup (map fst pics) /\ (forall key v, In (key, v) pics -> last_accepted 0 key None l = Some v) /\
       (exists older, recency 0 [] l outs = (older ++ map fst pics)%list) /\
       answers p x srt cl (CCount k) (RNumber (Z.of_nat (length pics))) /\
       answers p x srt cl (CUsed k) (RNumber (total_bytes image_bytes pics)) /\
       (no_oversized image_bytes 0 l -> total_bytes image_bytes pics <= last_capacity k h)).
Proof.
  intros H. destruct (past_caches _ _ _ _ _ k H) as (c & C). destruct (past_cache_past _ _ _ _ H C) as (l & outs & CP & R & M).
  exists l, outs. split; [exact CP|]. intro WF. assert (Z0 : 0 <= 0 < two64) by (split; reflexivity).
  destruct (recency_final image_bytes p 0 l c outs Z0 WF R) as (ND & RE). exists (lru c). split; [exact ND|]. split.
  { intros key v I. apply (lookup_final image_bytes p 0 l c outs key v Z0 WF R). rewrite get_find. apply find_in; assumption. }
  split; [exact RE|]. split; [|split].
  - intro fuel. cbn [client_call]. unfold of_cache. rewrite C. reflexivity.
  - intro fuel. cbn [client_call]. unfold of_cache. rewrite C. now rewrite (exact_final image_bytes p 0 l c outs Z0 WF R M).
  - intro NO. destruct (budget_final image_bytes p 0 l Z0 WF NO) as (c1 & o1 & R1 & _ & B). rewrite R in R1. injection R1 as <- <-.
    now rewrite <- (past_capacity _ _ _ _ H C).
Qed.

(** Executions and statuses. *)
Lemma past_wf h cl i : past p x srt h cl -> wf_graph ops (cl_graphs cl i).
Proof. intro H. exact (proj1 (past_graph _ _ _ _ _ i 0 KI32 EmptyString H)). Qed.
Lemma not_executing fuel cl call cl' r i : ccalls fuel cl call = Some (Ok (cl', r)) -> wf_graph ops (cl_graphs cl i) -> ~ executes i call ->
  g_status (cl_graphs cl' i) = g_status (cl_graphs cl i).
Proof.
  intros HC WG NE. destruct (call_graph _ _ _ _ _ _ _ _ i HC) as [(_ & ->)|(gc & w & w' & OG & HG)]; [reflexivity|].
  destruct (state_step ops srt _ _ _ _ _ WG HG) as (_ & _ & S3). apply S3. intros id fs ->.
  destruct call; cbn [on_graph] in OG; try discriminate OG; destruct (Nat.eqb _ i) eqn:Q; try discriminate OG;
    apply NE; apply Nat.eqb_eq in Q; exact Q.
Qed.
Lemma executing fuel cl call cl' r i : ccalls fuel cl call = Some (Ok (cl', r)) -> executes i call -> exists st, r = RStatus st /\
  g_status (cl_graphs cl' i) = st /\ g_state (cl_graphs cl' i) = match st with ExSuccess => GsClean | _ => g_state (cl_graphs cl i) end.
Proof.
  intros H E.
  assert (EX : forall j n fs k, execute_call p x srt fuel cl j n fs k = Some (Ok (cl', r)) -> j = i -> exists st, r = RStatus st /\
    g_status (cl_graphs cl' i) = st /\ g_state (cl_graphs cl' i) = match st with ExSuccess => GsClean | _ => g_state (cl_graphs cl i) end).
  { intros j n fs k X ->. unfold execute_call in X. destruct (cl_caches cl k) as [c|]; [|discriminate X].
    destruct (execute _ _ _ _ _ _ _) as [[[[g w] st]|]|] eqn:EE; try discriminate X. injection X as <- <-. exists st. split; [reflexivity|].
    cbn [cl_graphs]. rewrite put_eq.
    destruct (execute_result ops srt (node_keeps_id p x) _ _ _ _ _ _ _ _ EE) as (_ & _ & _ & _ & E4 & E5). now split. }
  destruct call; try contradiction E; cbn [client_call executes] in H, E; exact (EX _ _ _ _ H E).
Qed.
Lemma executes_dec i call : {executes i call} + {~ executes i call}.
Proof. destruct call; cbn [executes]; try (right; tauto); apply Nat.eq_dec. Qed.

Theorem answers_status h cl i : past p x srt h cl -> answers p x srt cl (CExecStatus i) (RStatus (last_status i h)).
Proof.
  intros H fuel. cbn [client_call]. do 3 f_equal. f_equal. induction H as [d|h cl fuel0 call cl' r H IH HC|h cl d H IH]; [reflexivity| |exact IH].
  unfold last_status. rewrite fold_left_app. fold (last_status i h). cbn [fold_left].
  destruct (executes_dec i call) as [E|E].
  - destruct (executing _ _ _ _ _ _ HC E) as (st & -> & -> & _). destruct call; try contradiction E; cbn [executes] in E; subst i0; now rewrite Nat.eqb_refl.
  - rewrite (not_executing _ _ _ _ _ _ HC (past_wf _ _ i H) E), IH.
    destruct call; try reflexivity; cbn [executes] in E; apply Nat.eqb_neq in E; rewrite E; destruct r; reflexivity.
Qed.

Lemma in_ids h cl i id : past p x srt h cl -> (In id (g_ids (cl_graphs cl i)) <-> first_created i id h <> None).
Proof.
  intro H. destruct (first_created i id h) as [t|] eqn:F.
  - split; [discriminate|]. intros _. destruct (found _ _ _ _ _ _ _ _ H F) as (j & n & FI & _). apply position_lt in FI. eapply nth_error_In. apply FI.
  - split; [|congruence]. intro I. pose proof (not_found _ _ _ _ _ _ _ H F) as N. unfold find_index in N.
    apply position_none in N. contradiction.
Qed.
Lemma state_next h cl fuel call cl' r i : past p x srt h cl -> ccalls fuel cl call = Some (Ok (cl', r)) ->
  next_state i h call r (g_state (cl_graphs cl i)) (g_state (cl_graphs cl' i)).
Proof.
  intros H HC. pose proof (past_wf _ _ i H) as WG.
  destruct (executes_dec i call) as [E|E].
  { destruct (executing _ _ _ _ _ _ HC E) as (st & -> & _ & S). destruct call; try contradiction E; cbn [executes] in E; subst i0; cbn [next_state];
      rewrite Nat.eqb_refl; destruct st; exact S. }
  destruct (call_graph _ _ _ _ _ _ _ _ i HC) as [(OG & Q)|(gc & w & w' & OG & HG)].
  - rewrite Q. destruct call; cbn [on_graph next_state] in *; try reflexivity; destruct (Nat.eqb _ i); try discriminate OG;
      repeat match goal with |- context [first_created ?a ?b ?c] => destruct (first_created a b c) end; reflexivity.
  - destruct (state_step ops srt _ _ _ _ _ WG HG) as (S1 & S2 & _).
    destruct call; cbn [on_graph next_state] in *; try discriminate OG; destruct (Nat.eqb _ i) eqn:J; try discriminate OG; injection OG as <-;
      apply Nat.eqb_eq in J; subst i0.
    + exact (S1 I).
    + cbn [client_call] in HC. apply gives_ok in HC. destruct HC as (a & RN & HC). injection RN as <-. injection HC as _ ->.
      destruct (snd (remove_node (cl_graphs cl i) (hd_id n))) eqn:SR; cbn [andb]; [exact (S1 SR)|].
      apply S2; [|discriminate]. cbn [effective]. rewrite SR. discriminate.
    + pose proof (in_ids h cl i (hd_id n) H) as II. destruct (first_created i (hd_id n) h).
      * apply S1. apply II. discriminate.
      * apply S2; [|discriminate]. cbn [effective]. intro X. exact (proj1 II X eq_refl).
    + pose proof (in_ids h cl i (hd_id src) H) as IA. pose proof (in_ids h cl i (hd_id dst) H) as IB.
      destruct (first_created i (hd_id src) h); [destruct (first_created i (hd_id dst) h)|].
      * apply S1. split; [apply IA|apply IB]; discriminate.
      * apply S2; [|discriminate]. intros (_ & X). exact (proj1 IB X eq_refl).
      * apply S2; [|discriminate]. intros (X & _). exact (proj1 IA X eq_refl).
    + destruct (first_created i (hd_id dst) h) as [t|] eqn:F.
      * destruct (edges_dec (sg_edges (g_graph (cl_graphs cl' i))) (sg_edges (g_graph (cl_graphs cl i)))) as [Q|Q].
        -- right. apply S2; [|discriminate]. intro X. exact (X Q).
        -- left. exact (S1 Q).
      * destruct HG as (_ & ->). unfold disconnect_input. now rewrite (not_found _ _ _ _ _ _ _ H F).
    + exfalso. apply E. reflexivity.
    + exfalso. apply E. reflexivity.
Qed.
Theorem answers_state h cl fuel call cl' r i : past p x srt h cl -> ccalls fuel cl call = Some (Ok (cl', r)) ->
  exists s s', answers p x srt cl (CState i) (RState s) /\ answers p x srt cl' (CState i) (RState s') /\ next_state i h call r s s'.
Proof.
  intros H HC. exists (g_state (cl_graphs cl i)), (g_state (cl_graphs cl' i)). split; [|split]; [intro f; reflexivity..|].
  exact (state_next _ _ _ _ _ _ i H HC).
Qed.
Lemma says_state cl i s : answers p x srt cl (CState i) (RState s) <-> g_state (cl_graphs cl i) = s.
Proof. split; [intro H; specialize (H 0%nat); now injection H as H|]. intros <- f. reflexivity. Qed.

Lemma none_created i h : (forall t how r, ~ In (CCreate i t how, r) h) -> forall id, first_created i id h = None.
Proof.
  intros N id. destruct (first_created i id h) as [t|] eqn:F; [|reflexivity]. exfalso.
  destruct (first_split _ _ _ _ F) as (h1 & how & r & h2 & -> & _). exact (N t how r (in_elt _ _ _)).
Qed.
Theorem state_uninitialized h cl i : past p x srt h cl ->
  (answers p x srt cl (CState i) (RState GsUninitialized) <-> forall t how r, ~ In (CCreate i t how, r) h).
Proof.
  intro H. rewrite says_state. induction H as [d|h cl fuel call cl' r H IH HC|h cl d H IH]; [|..|exact IH].
  - split; [intros _ t how r []|reflexivity].
  - pose proof (state_next _ _ _ _ _ _ i H HC) as NS. split.
    + intros U t how r' I. apply in_app_iff in I. destruct I as [I|[I|[]]].
      * assert (NU : g_state (cl_graphs cl i) <> GsUninitialized) by (intro X; exact (proj1 IH X _ _ _ I)). rewrite U in NS. apply NU.
        destruct call; cbn [next_state] in NS;
          repeat match type of NS with
          | context [first_created ?a ?b ?c] => destruct (first_created a b c)
          | context [Nat.eqb ?a ?b] => destruct (Nat.eqb a b)
          | context [match ?q with RNode _ => _ | _ => _ end] => destruct q as [?|[]|?|?|[]|?|?|?|]
          end; cbn [andb] in NS; try discriminate NS; try (symmetry; exact NS); destruct NS as [NS|NS]; [discriminate NS|symmetry; exact NS].
      * injection I as -> ->. cbn [next_state] in NS. rewrite Nat.eqb_refl in NS. rewrite U in NS. discriminate NS.
    + intro N. assert (N0 : forall t how r, ~ In (CCreate i t how, r) h).
      { intros t how r' I. apply (N t how r'). apply in_app_iff. now left. }
      pose proof (none_created _ _ N0) as F. rewrite (proj2 IH N0) in NS.
      destruct (executes_dec i call) as [E|E].
      * destruct (executing _ _ _ _ _ _ HC E) as (st & -> & _ & S). rewrite S, (proj2 IH N0). destruct st; try reflexivity. exfalso.
        assert (NF : forall id, find_index (cl_graphs cl i) id = None) by (intro id; exact (not_found _ _ _ _ _ _ _ H (F id))).
        assert (EX : forall n fs k, execute_call p x srt fuel cl i n fs k <> Some (Ok (cl', RStatus ExSuccess))).
        { intros n fs k X. unfold execute_call in X. destruct (cl_caches cl k); [|discriminate X]. unfold execute in X. rewrite NF in X. discriminate X. }
        destruct call; try contradiction E; cbn [executes client_call] in E, HC; subst i0; exact (EX _ _ _ HC).
      * destruct call; cbn [next_state] in NS; rewrite ?F in NS; try exact NS.
        -- destruct (Nat.eqb i0 i) eqn:J; [|exact NS]. apply Nat.eqb_eq in J. subst i0. exfalso. apply (N t how r). apply in_elt.
        -- cbn [client_call] in HC. destruct (Nat.eqb i0 i) eqn:J; [|exact NS]. apply Nat.eqb_eq in J. subst i0.
           apply gives_ok in HC. destruct HC as (a & RN & HC). injection RN as <-. injection HC as _ ->. unfold remove_node in NS.
           rewrite (not_found _ _ _ _ _ _ _ H (F (hd_id n))) in NS. exact NS.
        -- cbn [executes] in E. apply Nat.eqb_neq in E. rewrite E in NS. exact NS.
        -- cbn [executes] in E. apply Nat.eqb_neq in E. rewrite E in NS. exact NS.
Qed.

Theorem state_clean h cl i : past p x srt h cl -> answers p x srt cl (CState i) (RState GsClean) ->
  exists h1 call h2, h = (h1 ++ (call, RStatus ExSuccess) :: h2)%list /\ executes i call /\
    forall h3 e h4, h2 = (h3 ++ e :: h4)%list -> leaves_clean i (h1 ++ (call, RStatus ExSuccess) :: h3)%list e.
Proof.
  intro H. rewrite says_state. induction H as [d|h cl fuel call cl' r H IH HC|h cl d H IH]; [discriminate|..|exact IH].
  intro C. pose proof (state_next _ _ _ _ _ _ i H HC) as NS. rewrite C in NS.
  assert (CASE : (executes i call /\ r = RStatus ExSuccess) \/ (g_state (cl_graphs cl i) = GsClean /\ leaves_clean i h (call, r))).
  { destruct (executes_dec i call) as [E|E].
    - destruct (executing _ _ _ _ _ _ HC E) as (st & -> & _ & S). destruct st; [right|left; now split|right]; rewrite C in S; split; try (symmetry; exact S);
        destruct call; try contradiction E; exact I.
    - right. destruct call; cbn [next_state leaves_clean] in *; try (split; [symmetry; exact NS|exact I]).
      + destruct (Nat.eqb i0 i) eqn:J; [discriminate NS|]. apply Nat.eqb_neq in J. split; [symmetry; exact NS|exact J].
      + cbn [client_call] in HC. apply gives_ok in HC. destruct HC as (a & RN & HC). injection RN as <-. injection HC as _ ->.
        destruct (Nat.eqb i0 i) eqn:J.
        * destruct (snd (remove_node _ _)); cbn [andb] in NS; [discriminate NS|]. split; [symmetry; exact NS|reflexivity].
        * apply Nat.eqb_neq in J. split; [symmetry; exact NS|]. intro X. contradiction.
      + destruct (first_created i (hd_id n) h); [|split; [symmetry; exact NS|reflexivity]].
        destruct (Nat.eqb i0 i) eqn:J; [discriminate NS|]. apply Nat.eqb_neq in J. split; [symmetry; exact NS|]. intro X. contradiction.
      + destruct (first_created i (hd_id src) h); [|split; [symmetry; exact NS|intros _; now left]].
        destruct (first_created i (hd_id dst) h); [|split; [symmetry; exact NS|intros _; now right]].
        destruct (Nat.eqb i0 i) eqn:J; [discriminate NS|]. apply Nat.eqb_neq in J. split; [symmetry; exact NS|]. intro X. contradiction.
      + split; [|exact I]. destruct (first_created i (hd_id dst) h); [|symmetry; exact NS]. destruct (Nat.eqb i0 i); [|symmetry; exact NS].
        destruct NS as [NS|NS]; [discriminate NS|symmetry; exact NS].
      + cbn [executes] in E. apply Nat.eqb_neq in E. rewrite E in NS. split; [symmetry; exact NS|exact I].
      + cbn [executes] in E. apply Nat.eqb_neq in E. rewrite E in NS. split; [symmetry; exact NS|exact I]. }
  destruct CASE as [(E & ->)|(C0 & L)].
  - exists h, call, []. split; [reflexivity|]. split; [exact E|]. intros h3 e h4 Q. destruct h3; discriminate Q.
  - destruct (IH C0) as (h1 & c1 & h2 & -> & E & LL). exists h1, c1, (h2 ++ [(call, r)])%list. split; [now rewrite <- app_assoc|]. split; [exact E|].
    intros h3 e h4 Q. destruct h4 as [|e4 h4] using rev_ind.
    + apply app_inj_tail in Q. destruct Q as (-> & <-). exact L.
    + clear IHh4. change (h3 ++ e :: h4 ++ [e4])%list with (h3 ++ (e :: h4) ++ [e4])%list in Q. rewrite app_assoc in Q.
      apply app_inj_tail in Q. destruct Q as (Q & _). exact (LL _ _ _ Q).
Qed.

(** Apart. *)
Theorem asking_only fuel cl q cl' r i k : about_graph i q \/ about_cache k q -> ccalls fuel cl q = Some (Ok (cl', r)) -> cl' = cl.
Proof.
  intros A H. destruct q; cbn [about_graph about_cache] in A; try tauto; cbn [client_call] in H;
    try (apply gives_ok in H; destruct H as (a & _ & H); injection H as -> _; reflexivity);
    try (injection H as <- _; reflexivity);
    (unfold of_cache in H; destruct (cl_caches cl k0); [injection H as <- _; reflexivity|discriminate H]).
Qed.
Lemma other_graph fuel cl call cl' r i : ccalls fuel cl call = Some (Ok (cl', r)) -> ~ touches_graph i call -> cl_graphs cl' i = cl_graphs cl i.
Proof.
  intros HC NT. destruct (call_graph _ _ _ _ _ _ _ _ i HC) as [(_ & Q)|(gc & w & w' & OG & _)]; [exact Q|]. exfalso.
  destruct call; cbn [on_graph touches_graph] in *; try discriminate OG; destruct (Nat.eqb _ i) eqn:J; try discriminate OG;
    apply Nat.eqb_eq in J; exact (NT J).
Qed.
Theorem graph_apart fuel cl call cl' r i : ccalls fuel cl call = Some (Ok (cl', r)) -> ~ touches_graph i call ->
  forall q a, about_graph i q -> (answers p x srt cl' q a <-> answers p x srt cl q a).
Proof.
  intros HC NT q a A. pose proof (other_graph _ _ _ _ _ _ HC NT) as G. unfold answers.
  split; intros Q f; specialize (Q f); revert Q; destruct q; cbn [about_graph] in A; try contradiction A; subst i0; cbn [client_call]; unfold gives;
    rewrite G; try (destruct (read_node _ _ _ _)); congruence.
Qed.
Theorem output_apart h fuel cl call cl' r i : past p x srt h cl -> ccalls fuel cl call = Some (Ok (cl', r)) -> ~ executes i call ->
  forall a, answers p x srt cl' (COutput i) a <-> answers p x srt cl (COutput i) a.
Proof.
  intros H HC NE a.
  assert (Q : g_output (cl_graphs cl' i) = g_output (cl_graphs cl i)).
  { destruct (call_graph _ _ _ _ _ _ _ _ i HC) as [(_ & ->)|(gc & w & w' & OG & HG)]; [reflexivity|].
    pose proof (call_nodes ops srt _ _ _ _ _ (past_wf _ _ i H) HG) as CN.
    destruct call; cbn [on_graph] in OG; try discriminate OG; destruct (Nat.eqb _ i) eqn:J; try discriminate OG; injection OG as <-;
      try (exfalso; apply NE; apply Nat.eqb_eq in J; exact J); first [exact (proj2 CN)|exact (proj1 CN)]. }
  unfold answers. cbn [client_call]. rewrite Q. split; intros X f; specialize (X f); congruence.
Qed.
Theorem output_first d i : answers p x srt (client_new d) (COutput i) (RStream stream_new).
Proof. intro f. reflexivity. Qed.
Theorem output_executed fuel cl i n fs k call cl' r : call = CExecute i n fs k \/ (exists ns, call = CExecuteWhole i n ns k /\ fs = map f64_of_Z ns) ->
  ccalls fuel cl call = Some (Ok (cl', r)) ->
  exists c g w st, cl_caches cl k = Some c /\ execute ops srt fuel (cl_graphs cl i) (hd_id n) fs (World c (cl_disk cl)) = Some (Ok (g, w, st)) /\
    r = RStatus st /\ answers p x srt cl' (COutput i) (RStream (g_output g)) /\ cl_caches cl' k = Some (w_cache w) /\ cl_disk cl' = w_disk w.
Proof.
  intros W H.
  assert (X : execute_call p x srt fuel cl i n fs k = Some (Ok (cl', r))) by (destruct W as [->|(ns & -> & ->)]; exact H).
  unfold execute_call in X. destruct (cl_caches cl k) as [c|]; [|discriminate X].
  destruct (execute _ _ _ _ _ _ _) as [[[[g w] st]|]|] eqn:E; try discriminate X. injection X as <- <-. exists c, g, w, st.
  repeat split; cbn [cl_caches cl_graphs]; try apply put_eq; try exact E. intro f. cbn [client_call cl_graphs]. now rewrite put_eq.
Qed.
Lemma other_cache fuel cl call cl' r k : ccalls fuel cl call = Some (Ok (cl', r)) -> ~ touches_cache k call -> cl_caches cl' k = cl_caches cl k.
Proof.
  intros H NT.
  assert (EX : forall i n fs j, execute_call p x srt fuel cl i n fs j = Some (Ok (cl', r)) -> j <> k -> cl_caches cl' k = cl_caches cl k).
  { intros i n fs j X NE. unfold execute_call in X. destruct (cl_caches cl j) as [c|] eqn:CJ; [|discriminate X].
    destruct (execute _ _ _ _ _ _ _) as [[[[g w] st]|]|] eqn:E; try discriminate X. injection X as <- _. cbn [cl_caches].
    now rewrite put_other by congruence. }
  destruct call; cbn [client_call touches_cache] in H, NT;
    try (injection H as <- _; reflexivity);
    try (apply gives_ok in H; destruct H as (a & _ & H); injection H as -> _; reflexivity);
    try (unfold of_cache in H; destruct (cl_caches cl k0) as [c|]; [|discriminate H]; injection H as <- _; reflexivity).
  - exact (EX _ _ _ _ H NT).
  - exact (EX _ _ _ _ H NT).
  - destruct (cl_caches cl k0) as [c|] eqn:CJ; [|discriminate H]. apply gives_ok in H. destruct H as (c1 & S & H). injection H as -> ->.
    cbn [cl_caches]. now rewrite put_other by congruence.
  - apply table_ok in H. destruct H as (c & a & _ & _ & H). injection H as -> _. cbn [cl_caches]. now rewrite put_other by congruence.
  - apply table_ok in H. destruct H as (c & a & _ & _ & H). injection H as -> _. cbn [cl_caches]. now rewrite put_other by congruence.
Qed.
Theorem cache_apart fuel cl call cl' r k : ccalls fuel cl call = Some (Ok (cl', r)) -> ~ touches_cache k call ->
  forall q a, about_cache k q -> (answers p x srt cl' q a <-> answers p x srt cl q a).
Proof.
  intros HC NT q a A. pose proof (other_cache _ _ _ _ _ _ HC NT) as G. unfold answers.
  split; intros Q f; specialize (Q f); revert Q; destruct q; cbn [about_cache] in A; try contradiction A; subst k0; cbn [client_call]; unfold of_cache;
    rewrite G; destruct (cl_caches cl k); congruence.
Qed.
End Nodes.

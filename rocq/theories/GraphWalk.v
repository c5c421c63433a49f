(** Proofs about the upstream walker (graphiter.rs). *)
From Coq Require Import Permutation Sorted.
From Verif Require Import Machine GraphModel GraphSpec.

(* ------------------------------ basics ------------------------------ *)

Lemma memn_in : forall x l, memn x l = true <-> In x l.
Proof.
  intros x l. unfold memn. rewrite existsb_exists. split.
  - intros (y & H & E). apply Nat.eqb_eq in E. subst. exact H.
  - intros H. exists x. split; [exact H|apply Nat.eqb_refl].
Qed.

Lemma memn_false : forall x l, memn x l = false <-> ~ In x l.
Proof. intros. rewrite <- memn_in. destruct (memn x l); split; congruence. Qed.

Lemma node_bound_from_ge : forall l i j,
  nth j l false = true -> (S (i + j) <= node_bound_from i l)%nat.
Proof.
  induction l as [|b l IH]; intros i j H.
  - destruct j; discriminate.
  - destruct j; cbn [nth node_bound_from] in *.
    + subst b. lia.
    + pose proof (IH (S i) j H). destruct b; lia.
Qed.

Lemma live_lt_bound : forall g i, sg_live g i = true -> (i < node_bound g)%nat.
Proof. intros g i H. apply (node_bound_from_ge (sg_nodes g) 0 i) in H. unfold node_bound. lia. Qed.

Lemma node_bound_from_le : forall l i, (node_bound_from i l <= i + length l)%nat.
Proof.
  induction l as [|b l IH]; intros i; cbn [node_bound_from length]; [lia|].
  pose proof (IH (S i)). destruct b; lia.
Qed.

Lemma bound_le_length : forall g, (node_bound g <= length (sg_nodes g))%nat.
Proof. intros. apply (node_bound_from_le (sg_nodes g) 0). Qed.

Lemma live_lt_length : forall g i, sg_live g i = true -> (i < length (sg_nodes g))%nat.
Proof. intros g i H. apply live_lt_bound in H. pose proof (bound_le_length g). lia. Qed.

Lemma nodup_bounded : forall (l : list nat) n,
  NoDup l -> (forall x, In x l -> (x < n)%nat) -> (length l <= n)%nat.
Proof.
  intros l n ND H. rewrite <- (seq_length n 0). apply NoDup_incl_length; [exact ND|].
  intros x Hx. apply in_seq. specialize (H x Hx). lia.
Qed.

Lemma nodup_app_intro : forall {A} (l1 l2 : list A),
  NoDup l1 -> NoDup l2 -> (forall x, In x l1 -> ~ In x l2) -> NoDup (l1 ++ l2).
Proof.
  induction l1 as [|a l1 IH]; intros l2 H1 H2 D; cbn; [exact H2|].
  inversion H1; subst. constructor.
  - rewrite in_app_iff. intros [H|H]; [contradiction|]. apply (D a); [now left|exact H].
  - apply IH; auto. intros x Hx. apply D. now right.
Qed.

(* --------------------------- wf consequences --------------------------- *)

Section Walk.
Variable srt : edge_sort.
Variable g : stable.
Hypothesis HS : sorts srt.
Hypothesis WF : wf_stable g.

(** Sources of the edges into [n], in slot order. *)
Definition sources (n : nat) : list nat := map e_src (srt (sg_incoming g n)).
(** ... without [n] itself. *)
Definition inputs_of (n : nat) : list nat :=
  filter (fun m => negb (Nat.eqb m n)) (sources n).

Lemma in_incoming : forall n e, In e (sg_incoming g n) <-> In e (sg_edges g) /\ e_dst e = n.
Proof.
  intros n e. unfold sg_incoming. destruct (sg_live g n) eqn:L.
  - rewrite filter_In, Nat.eqb_eq. tauto.
  - split; [intros []|]. intros (H & <-). apply (ws_ends_live _ WF) in H. destruct H. congruence.
Qed.

Lemma in_srt : forall l e, In e (srt l) <-> In e l.
Proof.
  intros l e. destruct (HS l) as (P & _). split; apply Permutation_in;
    [exact P|apply Permutation_sym; exact P].
Qed.

Lemma in_sources : forall n m, In m (sources n) <-> link g m n.
Proof.
  intros n m. unfold sources. rewrite in_map_iff. split.
  - intros (e & <- & H). rewrite in_srt, in_incoming in H. destruct H as (H & <-).
    exists (e_slot e). unfold feeds. destruct e; exact H.
  - intros (s & H). exists (Edge m n s). split; [reflexivity|].
    rewrite in_srt, in_incoming. split; [exact H|reflexivity].
Qed.

Lemma in_inputs : forall n m, In m (inputs_of n) <-> link g m n /\ m <> n.
Proof.
  intros n m. unfold inputs_of. rewrite filter_In, in_sources, negb_true_iff, Nat.eqb_neq. tauto.
Qed.

Lemma nodup_map_filter : forall {A B} (f : A -> B) (p : A -> bool) l,
  NoDup (map f l) -> NoDup (map f (filter p l)).
Proof.
  induction l as [|a l IH]; intros H; cbn; [constructor|].
  inversion H; subst. destruct (p a); cbn; [|auto]. constructor; [|auto].
  intros X. apply in_map_iff in X. destruct X as (b & E & Hb). apply filter_In in Hb.
  apply H2. rewrite <- E. apply in_map. tauto.
Qed.

Lemma incoming_src_nodup : forall n, NoDup (map e_src (sg_incoming g n)).
Proof.
  intros n.
  assert (P : NoDup (map (fun e => (e_src e, e_dst e)) (sg_incoming g n))).
  { unfold sg_incoming. destruct (sg_live g n); [|constructor].
    apply nodup_map_filter, (ws_simple _ WF). }
  assert (D : forall e, In e (sg_incoming g n) -> e_dst e = n).
  { intros e H. apply in_incoming in H. tauto. }
  revert P D. generalize (sg_incoming g n) as l. induction l as [|e l IH]; intros P D; cbn; [constructor|].
  inversion P; subst. constructor.
  - intros X. apply in_map_iff in X. destruct X as (e' & E & H). apply H1.
    apply in_map_iff. exists e'. split; [|exact H].
    rewrite (D e (or_introl eq_refl)), (D e' (or_intror H)), E. reflexivity.
  - apply IH; [assumption|]. intros e' H. apply D. now right.
Qed.

Lemma sources_nodup : forall n, NoDup (sources n).
Proof.
  intros n. unfold sources.
  apply (Permutation_NoDup (l := map e_src (sg_incoming g n))).
  - apply Permutation_map, Permutation_sym, (HS _).
  - apply incoming_src_nodup.
Qed.

Lemma inputs_nodup : forall n, NoDup (inputs_of n).
Proof. intros n. apply NoDup_filter, sources_nodup. Qed.

Lemma link_live : forall m n, link g m n -> sg_live g m = true /\ sg_live g n = true.
Proof. intros m n (s & H). apply (ws_ends_live _ WF) in H. exact H. Qed.

(* ------------------------------ one step ------------------------------ *)

(** Sources not yet discovered, first occurrences only. *)
Fixpoint fresh (disc : list nat) (es : list edge) : list nat :=
  match es with
  | [] => []
  | e :: t => if memn (e_src e) disc then fresh disc t
              else e_src e :: fresh (e_src e :: disc) t
  end.

Lemma push_sources_ok : forall bound d es w,
  (forall e, In e es -> (e_src e < bound)%nat) ->
  push_sources bound d es w =
    Ok (Walker (w_stack w ++ map (fun m => (m, S d)) (fresh (w_disc w) es))
               (rev (fresh (w_disc w) es) ++ w_disc w)).
Proof.
  induction es as [|e es IH]; intros w H; cbn [push_sources fresh].
  - cbn. rewrite app_nil_r. destruct w; reflexivity.
  - rewrite (proj2 (Nat.ltb_lt _ _)) by (apply H; now left).
    destruct (memn (e_src e) (w_disc w)).
    + apply IH. intros e' He. apply H. now right.
    + rewrite IH by (intros e' He; apply H; now right). cbn.
      rewrite <- !app_assoc. reflexivity.
Qed.

Lemma fresh_in : forall es disc m,
  In m (fresh disc es) <-> In m (map e_src es) /\ ~ In m disc.
Proof.
  induction es as [|e es IH]; intros disc m; cbn [fresh map].
  - cbn. tauto.
  - destruct (memn (e_src e) disc) eqn:M.
    + apply memn_in in M. rewrite IH. cbn. split; [tauto|].
      intros ([E|H] & N); [subst; contradiction|tauto].
    + apply memn_false in M. cbn. rewrite IH. cbn. split.
      * intros [E|(H & N)]; [subst; tauto|]. tauto.
      * intros ([E|H] & N); [now left|]. destruct (Nat.eq_dec (e_src e) m); [now left|].
        right. tauto.
Qed.

Lemma fresh_nodup : forall es disc, NoDup (fresh disc es).
Proof.
  induction es as [|e es IH]; intros disc; cbn [fresh]; [constructor|].
  destruct (memn (e_src e) disc); [apply IH|]. constructor; [|apply IH].
  rewrite fresh_in. cbn. tauto.
Qed.

Lemma fresh_filter : forall es disc, NoDup (map e_src es) ->
  fresh disc es = filter (fun m => negb (memn m disc)) (map e_src es).
Proof.
  induction es as [|e es IH]; intros disc ND; cbn [fresh map filter]; [reflexivity|].
  cbn in ND. inversion ND; subst.
  destruct (memn (e_src e) disc); cbn; [apply IH; assumption|].
  rewrite IH by assumption. f_equal. apply filter_ext_in. intros m Hm.
  unfold memn. cbn [existsb].
  destruct (Nat.eqb_spec m (e_src e)) as [->|]; [contradiction|reflexivity].
Qed.

Lemma step_ok : forall n d rest disc,
  walker_next srt g (Walker ((n, d) :: rest) disc) =
    Ok (Some ((n, d),
      Walker (rest ++ map (fun m => (m, S d)) (fresh disc (srt (sg_incoming g n))))
             (rev (fresh disc (srt (sg_incoming g n))) ++ disc))).
Proof.
  intros. unfold walker_next. cbn [w_stack w_disc].
  rewrite push_sources_ok; [reflexivity|].
  intros e He. rewrite in_srt, in_incoming in He.
  apply live_lt_bound. apply (ws_ends_live _ WF). tauto.
Qed.

(* ------------------------- breadth first search ------------------------- *)

Definition depth_le (a b : nat * nat) : Prop := (snd a <= snd b)%nat.

(** State after [out] has been returned and [st] is still queued. *)
Record bfs_inv (start : nat) (out st : list (nat * nat)) (disc : list nat) : Prop := {
  bi_nodup : NoDup (map fst (out ++ st));
  bi_disc : forall x, In x disc <-> In x (map fst (out ++ st));
  bi_sorted : StronglySorted depth_le (out ++ st);
  bi_span : forall a, In a st -> forall b, In b st -> (snd b <= S (snd a))%nat;
  bi_up : forall x d, In (x, d) (out ++ st) -> up g start d x;
  bi_closed : forall x d m, In (x, d) out -> link g m x ->
    exists d', In (m, d') (out ++ st) /\ (d' <= S d)%nat;
  bi_head : In (start, O) (out ++ st);
  bi_first : exists t, out ++ st = (start, O) :: t;
  bi_bound : forall x, In x disc -> (x < node_bound g)%nat
}.

Lemma sorted_app : forall l1 l2,
  StronglySorted depth_le l1 -> StronglySorted depth_le l2 ->
  (forall a b, In a l1 -> In b l2 -> depth_le a b) -> StronglySorted depth_le (l1 ++ l2).
Proof.
  induction l1 as [|a l1 IH]; intros l2 H1 H2 H; cbn; [exact H2|].
  inversion H1; subst. constructor.
  - apply IH; auto. intros x y Hx Hy. apply H; [now right|exact Hy].
  - apply Forall_app. split; [assumption|]. apply Forall_forall. intros b Hb. apply H; [now left|exact Hb].
Qed.

Lemma sorted_app_inv : forall l1 l2, StronglySorted depth_le (l1 ++ l2) ->
  StronglySorted depth_le l1 /\ StronglySorted depth_le l2 /\
  (forall a b, In a l1 -> In b l2 -> depth_le a b).
Proof.
  induction l1 as [|x l1 IH]; intros l2 H; cbn in *.
  - repeat split; [constructor|exact H|intros a b []].
  - inversion H; subst. destruct (IH _ H2) as (A & B & D). apply Forall_app in H3.
    destruct H3 as (F1 & F2). repeat split; [constructor; assumption|assumption|].
    intros a b [<-|Ha] Hb; [|now apply D]. rewrite Forall_forall in F2. now apply F2.
Qed.

Lemma map_fst_const : forall (l : list nat) (d : nat), map fst (map (fun m => (m, d)) l) = l.
Proof. intros. rewrite map_map. cbn. apply map_id. Qed.

Lemma bfs_step : forall start out n d rest disc,
  bfs_inv start out ((n, d) :: rest) disc ->
  bfs_inv start (out ++ [(n, d)])
    (rest ++ map (fun m => (m, S d)) (fresh disc (srt (sg_incoming g n))))
    (rev (fresh disc (srt (sg_incoming g n))) ++ disc).
Proof.
  intros start out n d rest disc I.
  set (fr := fresh disc (srt (sg_incoming g n))).
  assert (EQ : (out ++ [(n, d)]) ++ rest ++ map (fun m => (m, S d)) fr =
               (out ++ (n, d) :: rest) ++ map (fun m => (m, S d)) fr).
  { rewrite <- !app_assoc. reflexivity. }
  assert (Hsrc : forall m, In m (map e_src (srt (sg_incoming g n))) <-> link g m n).
  { intros m. apply in_sources. }
  assert (Hfr : forall m, In m fr <-> link g m n /\ ~ In m disc).
  { intros m. unfold fr. rewrite fresh_in, Hsrc. reflexivity. }
  pose proof (bi_sorted _ _ _ _ I) as SO.
  destruct (sorted_app_inv _ _ SO) as (SO1 & SO2 & SO3).
  assert (Dmin : forall a, In a rest -> (d <= snd a)%nat).
  { intros a Ha. inversion SO2; subst. rewrite Forall_forall in H2. exact (H2 a Ha). }
  assert (Dmax : forall a, In a (out ++ (n, d) :: rest) -> (snd a <= S d)%nat).
  { intros a Ha. apply in_app_iff in Ha. destruct Ha as [Ha|Ha].
    - pose proof (SO3 a (n, d) Ha (or_introl eq_refl)) as X. unfold depth_le in X. cbn in X. lia.
    - exact (bi_span _ _ _ _ I (n, d) (or_introl eq_refl) a Ha). }
  constructor.
  - rewrite EQ, map_app, map_fst_const. apply nodup_app_intro.
    + apply (bi_nodup _ _ _ _ I).
    + apply fresh_nodup.
    + intros x H1 H2. apply Hfr in H2. apply (bi_disc _ _ _ _ I) in H1. tauto.
  - intros x. rewrite EQ, map_app, map_fst_const, !in_app_iff, <- in_rev.
    rewrite (bi_disc _ _ _ _ I x). rewrite map_app, in_app_iff. tauto.
  - rewrite EQ. apply sorted_app.
    + exact SO.
    + clear. induction fr as [|a l IH]; cbn; constructor; [exact IH|].
      apply Forall_forall. intros x Hx. apply in_map_iff in Hx. destruct Hx as (y & <- & _).
      unfold depth_le. cbn. lia.
    + intros a b Ha Hb. apply in_map_iff in Hb. destruct Hb as (y & <- & _).
      unfold depth_le. cbn. apply Dmax, Ha.
  - intros a Ha b Hb. apply in_app_iff in Ha. apply in_app_iff in Hb.
    assert (A : (d <= snd a)%nat).
    { destruct Ha as [Ha|Ha]; [now apply Dmin|]. apply in_map_iff in Ha. destruct Ha as (y & <- & _). cbn. lia. }
    assert (B : (snd b <= S d)%nat).
    { destruct Hb as [Hb|Hb]; [apply Dmax, in_app_iff; right; now right|].
      apply in_map_iff in Hb. destruct Hb as (y & <- & _). cbn. lia. }
    lia.
  - intros x k Hx. rewrite EQ in Hx. apply in_app_iff in Hx. destruct Hx as [Hx|Hx].
    + apply (bi_up _ _ _ _ I), Hx.
    + apply in_map_iff in Hx. destruct Hx as (y & E & Hy). injection E as <- <-.
      apply Hfr in Hy. destruct Hy as (Hl & _).
      apply (up_step _ _ _ n); [|exact Hl]. apply (bi_up _ _ _ _ I), in_app_iff. right. now left.
  - intros x k m Hx Hl. rewrite EQ. apply in_app_iff in Hx. destruct Hx as [Hx|[E|[]]].
    + destruct (bi_closed _ _ _ _ I _ _ _ Hx Hl) as (d' & H1 & H2).
      exists d'. split; [apply in_app_iff; now left|exact H2].
    + injection E as <- <-. destruct (in_dec Nat.eq_dec m disc) as [Hd|Hd].
      * apply (bi_disc _ _ _ _ I), in_map_iff in Hd. destruct Hd as ((m', d') & E & Hd). cbn in E. subst m'.
        exists d'. split; [apply in_app_iff; now left|]. exact (Dmax _ Hd).
      * exists (S d). split; [|lia]. apply in_app_iff. right. apply in_map_iff. exists m.
        split; [reflexivity|]. apply Hfr. tauto.
  - rewrite EQ. apply in_app_iff. left. apply (bi_head _ _ _ _ I).
  - rewrite EQ. destruct (bi_first _ _ _ _ I) as (t & E). rewrite E. cbn. eauto.
  - intros x Hx. apply in_app_iff in Hx. destruct Hx as [Hx|Hx].
    + apply in_rev, Hfr in Hx. apply live_lt_bound. apply (link_live x n). tauto.
    + apply (bi_bound _ _ _ _ I), Hx.
Qed.

Lemma bfs_init : forall start, (start < node_bound g)%nat -> bfs_inv start [] [(start, O)] [start].
Proof.
  intros start H. constructor; cbn.
  - constructor; [intros []|constructor].
  - intros x. tauto.
  - constructor; constructor.
  - intros a [<-|[]] b [<-|[]]. cbn. lia.
  - intros x d [E|[]]. injection E as <- <-. constructor.
  - intros x d m [].
  - now left.
  - eauto.
  - intros x [<-|[]]. exact H.
Qed.

Lemma bfs_run : forall fuel start out st disc,
  bfs_inv start out st disc ->
  (node_bound g < fuel + length out)%nat ->
  exists l, walk_all fuel srt g (Walker st disc) = Some (Ok l) /\
    exists disc', bfs_inv start (out ++ l) [] disc'.
Proof.
  induction fuel as [|fuel IH]; intros start out st disc I HF.
  - exfalso. pose proof (nodup_bounded (map fst (out ++ st)) (node_bound g) (bi_nodup _ _ _ _ I)) as L.
    rewrite map_length, app_length in L. cbn in HF.
    assert (forall x, In x (map fst (out ++ st)) -> (x < node_bound g)%nat).
    { intros x Hx. apply (bi_bound _ _ _ _ I), (bi_disc _ _ _ _ I), Hx. }
    specialize (L H). lia.
  - cbn [walk_all]. destruct st as [|(n, d) rest].
    + exists []. rewrite app_nil_r. split; [reflexivity|]. exists disc. exact I.
    + rewrite step_ok. apply bfs_step in I.
      destruct (IH _ _ _ _ I) as (l & E & disc' & I').
      { rewrite app_length. cbn. lia. }
      rewrite E. exists ((n, d) :: l). split; [reflexivity|]. exists disc'.
      rewrite <- app_assoc in I'. exact I'.
Qed.

(** What the traversal returns. *)
Record bfs_result (start : nat) (l : list (nat * nat)) : Prop := {
  br_nodup : NoDup (map fst l);
  br_sorted : StronglySorted depth_le l;
  br_dist : forall m d, In (m, d) l <-> is_dist g start m d;
  br_complete : forall m, In m (map fst l) <-> reaches g m start;
  br_first : exists t, l = (start, O) :: t
}.

Lemma bfs_final : forall start l disc, bfs_inv start l [] disc -> bfs_result start l.
Proof.
  intros start l disc I.
  pose proof (bi_nodup _ _ _ _ I) as ND. pose proof (bi_sorted _ _ _ _ I) as SO.
  pose proof (bi_up _ _ _ _ I) as UP. pose proof (bi_closed _ _ _ _ I) as CL.
  pose proof (bi_head _ _ _ _ I) as HD. pose proof (bi_first _ _ _ _ I) as FI.
  rewrite !app_nil_r in *.
  assert (REACH : forall k m, up g start k m -> exists d, In (m, d) l /\ (d <= k)%nat).
  { induction 1 as [|k n m H IH Hl].
    - exists O. split; [exact HD|lia].
    - destruct IH as (d & H1 & H2). destruct (CL _ _ _ H1 Hl) as (d' & H3 & H4).
      rewrite ?app_nil_r in H3. exists d'. split; [exact H3|lia]. }
  assert (FUN : forall m d d', In (m, d) l -> In (m, d') l -> d = d').
  { clear - ND. induction l as [|(a, b) l IH]; cbn; [intros m d d' []|].
    cbn in ND. inversion ND; subst. intros m d d' [E|H] [E'|H'].
    - congruence.
    - injection E as -> ->. exfalso. apply H1. apply (in_map fst) in H'. exact H'.
    - injection E' as -> ->. exfalso. apply H1. apply (in_map fst) in H. exact H.
    - eapply IH; eauto. }
  constructor.
  - exact ND.
  - exact SO.
  - intros m d. split.
    + intros H. split; [apply UP; exact H|]. intros j Hj.
      destruct (REACH _ _ Hj) as (d' & H1 & H2). rewrite (FUN _ _ _ H H1). exact H2.
    + intros (H1 & H2). destruct (REACH _ _ H1) as (d' & H3 & H4).
      assert (d = d') by (pose proof (H2 d' (UP _ _ H3)); lia). subst. exact H3.
  - intros m. rewrite in_map_iff. split.
    + intros ((x, d) & E & H). cbn in E. subst x. exists d. apply UP, H.
    + intros (k & H). destruct (REACH _ _ H) as (d & H1 & _). exists (m, d). split; [reflexivity|exact H1].
  - exact FI.
Qed.

Theorem walk_all_terminates : forall start fuel, (start < node_bound g)%nat ->
  (node_bound g < fuel)%nat ->
  exists l, walk_all fuel srt g (Walker [(start, O)] [start]) = Some (Ok l) /\ bfs_result start l.
Proof.
  intros start fuel H HF.
  destruct (bfs_run fuel start [] [(start, O)] [start] (bfs_init start H)) as (l & E & disc & I).
  { cbn. lia. }
  exists l. split; [exact E|]. exact (bfs_final _ _ _ I).
Qed.

Theorem all_upstream_ok : forall start, (start < node_bound g)%nat ->
  exists l, all_upstream srt g start = Ok l /\ bfs_result start l.
Proof.
  intros start H. unfold all_upstream, walker_new.
  rewrite (proj2 (Nat.ltb_lt _ _) H). cbn [bind].
  destruct (walk_all_terminates start (walk_fuel g) H) as (l & E & R).
  { unfold walk_fuel. lia. }
  rewrite E. eauto.
Qed.

Theorem all_upstream_panics : forall start, (node_bound g <= start)%nat ->
  all_upstream srt g start = Panic.
Proof.
  intros start H. unfold all_upstream, walker_new.
  rewrite (proj2 (Nat.ltb_ge _ _) H). reflexivity.
Qed.

(* ------------------------- direct upstream ------------------------- *)

Lemma walk_direct_run : forall s1 fuel s2 disc,
  (forall a, In a s1 -> snd a = 1%nat) -> (forall a, In a s2 -> snd a = 2%nat) ->
  (length s1 < fuel)%nat ->
  walk_direct fuel srt g (Walker (s1 ++ s2) disc) = Some (Ok (map fst s1)).
Proof.
  induction s1 as [|(n, d) s1 IH]; intros fuel s2 disc H1 H2 HF.
  - destruct fuel as [|fuel]; [cbn in HF; lia|]. cbn [app walk_direct].
    destruct s2 as [|(n, d) s2].
    + reflexivity.
    + rewrite step_ok. pose proof (H2 _ (or_introl eq_refl)) as X. cbn in X. subst d. reflexivity.
  - destruct fuel as [|fuel]; [cbn in HF; lia|]. cbn [app walk_direct].
    rewrite step_ok. pose proof (H1 _ (or_introl eq_refl)) as X. cbn in X. subst d.
    cbn [Nat.eqb Nat.ltb Nat.leb]. rewrite <- app_assoc.
    rewrite IH.
    + reflexivity.
    + intros a Ha. apply H1. now right.
    + intros a Ha. apply in_app_iff in Ha. destruct Ha as [Ha|Ha]; [now apply H2|].
      apply in_map_iff in Ha. destruct Ha as (y & <- & _). reflexivity.
    + cbn in HF. lia.
Qed.

Lemma memn_single : forall m n, memn m [n] = Nat.eqb m n.
Proof. intros. cbn. apply orb_false_r. Qed.

Lemma fresh_inputs : forall n, fresh [n] (srt (sg_incoming g n)) = inputs_of n.
Proof.
  intros n. rewrite fresh_filter by apply (sources_nodup n).
  unfold inputs_of, sources. apply filter_ext. intros m. now rewrite memn_single.
Qed.

Theorem direct_upstream_ok : forall n, (n < node_bound g)%nat ->
  direct_upstream srt g n = Ok (inputs_of n).
Proof.
  intros n H. unfold direct_upstream, walker_new.
  rewrite (proj2 (Nat.ltb_lt _ _) H). cbn [bind]. unfold walk_fuel.
  cbn [walk_direct]. rewrite step_ok. cbn [Nat.eqb app].
  rewrite fresh_inputs.
  assert (L : (length (inputs_of n) <= node_bound g)%nat).
  { apply nodup_bounded; [apply inputs_nodup|]. intros x Hx. apply in_inputs in Hx.
    apply live_lt_bound, (link_live x n). tauto. }
  pose proof (walk_direct_run (map (fun m => (m, 1%nat)) (inputs_of n)) (S (node_bound g)) []
    (rev (inputs_of n) ++ [n])) as R.
  rewrite app_nil_r in R. cbn [walk_direct] in R.
  rewrite R.
  - now rewrite map_fst_const.
  - intros a Ha. apply in_map_iff in Ha. destruct Ha as (y & <- & _). reflexivity.
  - intros a [].
  - rewrite map_length. lia.
Qed.

Theorem inputs_slot_order : forall n, inputs_in_slot_order g n (inputs_of n).
Proof.
  intros n. split; [apply inputs_nodup|]. split; [apply in_inputs|].
  intros l1 a l2 b l3 E sa sb Ha Hb.
  assert (SS : StronglySorted slot_le (srt (sg_incoming g n))).
  { apply Sorted_StronglySorted; [|apply (HS _)]. intros x y z. unfold slot_le. lia. }
  assert (INC : forall e, In e (srt (sg_incoming g n)) -> In e (sg_edges g) /\ e_dst e = n).
  { intros e He. rewrite in_srt, in_incoming in He. exact He. }
  assert (UNIQ : forall m s s', feeds g m n s -> feeds g m n s' -> s = s').
  { intros m s s' H1 H2. pose proof (ws_simple _ WF) as ND. unfold feeds in *.
    clear - H1 H2 ND. induction (sg_edges g) as [|e l IH]; [destruct H1|].
    cbn in ND. inversion ND; subst. destruct H1 as [E1|H1], H2 as [E2|H2].
    - congruence.
    - subst e. exfalso. apply H3. apply in_map_iff. exists (Edge m n s'). split; [reflexivity|exact H2].
    - subst e. exfalso. apply H3. apply in_map_iff. exists (Edge m n s). split; [reflexivity|exact H1].
    - apply IH; assumption. }
  unfold inputs_of, sources in E.
  revert E SS INC. generalize (srt (sg_incoming g n)) as es. clear - Ha Hb UNIQ.
  intros es. revert l1.
  induction es as [|e es IH]; intros l1 E SS INC; cbn in E.
  - destruct l1; discriminate.
  - inversion SS; subst.
    assert (IHtail : forall l1', filter (fun m => negb (m =? n)%nat) (map e_src es) = l1' ++ a :: l2 ++ b :: l3 -> sa <= sb).
    { intros l1' E'. apply (IH l1' E'); [assumption|]. intros e' He. apply INC. now right. }
    destruct (negb (e_src e =? n)%nat) eqn:Q; [|exact (IHtail l1 E)].
    destruct l1 as [|x l1]; cbn in E; [|injection E as _ E; exact (IHtail l1 E)].
    injection E as E0 E.
    assert (Hb' : In b (filter (fun m => negb (m =? n)%nat) (map e_src es))).
    { rewrite E. apply in_app_iff. right. now left. }
    apply filter_In in Hb'. destruct Hb' as (Hb' & _). apply in_map_iff in Hb'.
    destruct Hb' as (eb & Eb & Hb').
    destruct (INC e (or_introl eq_refl)) as (I1 & D1). destruct (INC eb (or_intror Hb')) as (I2 & D2).
    rewrite Forall_forall in H2. pose proof (H2 eb Hb') as LE. unfold slot_le in LE.
    rewrite (UNIQ a sa (e_slot e)), (UNIQ b sb (e_slot eb)); [exact LE| | | |]; try assumption.
    + unfold feeds. rewrite <- Eb, <- D2. destruct eb; exact I2.
    + unfold feeds. rewrite <- E0, <- D1. destruct e; exact I1.
Qed.

End Walk.

(** Insertion sort is such a sort. *)
Lemma insert_perm : forall e l, Permutation (insert_edge e l) (e :: l).
Proof.
  induction l as [|h l IH]; cbn; [reflexivity|].
  destruct (e_slot e <? e_slot h); [reflexivity|].
  rewrite IH. apply perm_swap.
Qed.

Lemma insert_sorted : forall e l, Sorted slot_le l -> Sorted slot_le (insert_edge e l).
Proof.
  induction l as [|h l IH]; intros H; cbn; [repeat constructor|].
  destruct (e_slot e <? e_slot h) eqn:L.
  - constructor; [exact H|]. constructor. unfold slot_le. lia.
  - inversion H; subst. constructor; [apply IH; assumption|].
    destruct l as [|h' l]; cbn.
    + constructor. unfold slot_le. lia.
    + inversion H3; subst. destruct (e_slot e <? e_slot h'); constructor; unfold slot_le in *; lia.
Qed.

Lemma insertion_sorts : sorts insertion_sort.
Proof.
  intros l. unfold insertion_sort.
  assert (G : forall l acc, Sorted slot_le acc ->
     Permutation (fold_left (fun acc e => insert_edge e acc) l acc) (l ++ acc) /\
     Sorted slot_le (fold_left (fun acc e => insert_edge e acc) l acc)).
  { clear. induction l as [|e l IH]; intros acc H; cbn; [split; [reflexivity|exact H]|].
    destruct (IH (insert_edge e acc) (insert_sorted e acc H)) as (P & Q). split; [|exact Q].
    rewrite P, insert_perm. symmetry. apply Permutation_middle. }
  destruct (G l [] (Sorted_nil _)) as (P & Q). rewrite app_nil_r in P. split; assumption.
Qed.

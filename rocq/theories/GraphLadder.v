(** A family of graphs on which execution takes exponentially many steps, and
    the small node type used in examples about graphs. *)
From Coq Require Import Permutation Sorted.
From Verif Require Import Machine GraphModel GraphSpec GraphWalk GraphExec GraphMeaning GraphCount.

(** Example nodes: an id, a constant and a status; computing adds the constant
    and the inputs (the position of an input matters) and counts in the cache.
    An attribute write replaces the constant. *)
Record toy := Toy { t_id : Z; t_const : Z; t_status : node_status }.

Fixpoint toy_sum (k : Z) (l : list Z) : Z :=
  match l with [] => 0 | x :: t => k * x + toy_sum (k * 10) t end.

Definition toy_ops : nodeops toy Z nat Z Z := {|
  n_id := t_id;
  n_hash := fun n fr hs => t_const n + fr + fold_right Z.add 0 hs;
  n_validate := fun _ mode _ ins => Ok (map (fun _ => mode) ins);
  n_compute := fun n fr _ ins _ c =>
    if fr <? 0 then Ok (Toy (t_id n) (t_const n) NsError, NsError, 0, S c)
    else Ok (Toy (t_id n) (t_const n) NsValid, NsValid, t_const n + fr + toy_sum 1 ins, S c);
  n_write := fun n w => Toy (t_id n) w (t_status n)
|}.

(** The same without the failing frames. *)
Definition sum_ops : nodeops toy Z nat Z Z := {|
  n_id := t_id;
  n_hash := fun n fr hs => t_const n + fr + fold_right Z.add 0 hs;
  n_validate := fun _ mode _ ins => Ok (map (fun _ => mode) ins);
  n_compute := fun n fr _ ins _ c =>
    Ok (Toy (t_id n) (t_const n) NsValid, NsValid, t_const n + fr + toy_sum 1 ins, S c);
  n_write := fun n w => Toy (t_id n) w (t_status n)
|}.

Lemma toy_keeps_id : keeps_id toy_ops.
Proof.
  split; [reflexivity|]. intros n fr mode ins out c n' st out' c' H. cbn in H.
  destruct (fr <? 0); injection H as <- _ _ _; reflexivity.
Qed.

Lemma sum_keeps_id : keeps_id sum_ops.
Proof.
  split; [reflexivity|]. intros n fr mode ins out c n' st out' c' H. cbn in H.
  injection H as <- _ _ _; reflexivity.
Qed.

Lemma sum_total : total_ops sum_ops.
Proof. split; intros; eexists; [|reflexivity]. split; [reflexivity|]. apply map_length. Qed.

Lemma sum_counting : counting_ops sum_ops (fun c => c).
Proof. intros n fr mode ins out c n' st out' c' H. cbn in H. injection H as _ <- _ <-. auto. Qed.

Lemma sum_pure : pure_ops sum_ops t_const (fun _ mode ks => map (fun _ => mode) ks)
  (fun k fr _ vs => k + fr + toy_sum 1 vs) (fun _ => True).
Proof.
  constructor.
  - intros. cbn. now rewrite map_map.
  - intros. apply map_length.
  - intros n fr mode ins out c _. do 3 eexists. split; [reflexivity|]. cbn. auto.
Qed.

(* ------------------------------ the ladder ------------------------------ *)

(** Level [j] holds nodes [2j] and [2j+1]; each feeds both nodes of level [j-1]. *)
Fixpoint ladder_edges (k : nat) : list edge :=
  match k with
  | O => []
  | S j => Edge (2*j+2) (2*j) 0 :: Edge (2*j+3) (2*j) 1 ::
           Edge (2*j+2) (2*j+1) 0 :: Edge (2*j+3) (2*j+1) 1 :: ladder_edges j
  end%nat.

Definition ladder_sg (k : nat) : stable := Stable (repeat true (2*k+2)) [] (ladder_edges k).

Definition ladder (k : nat) : graph toy Z :=
  Graph (map (fun i => Toy (Z.of_nat i) 1 NsValid) (seq 0 (2*k+2))) (map Z.of_nat (seq 0 (2*k+2)))
    (ladder_sg k) 0 GsDirty ExUninitialized.

Lemma ladder_feeds : forall k e, In e (ladder_edges k) ->
  exists j, (j < k)%nat /\ (e_dst e = 2*j \/ e_dst e = 2*j+1)%nat /\ (e_src e = 2*j+2 \/ e_src e = 2*j+3)%nat.
Proof.
  induction k as [|k IH]; intros e H; [destruct H|].
  cbn [ladder_edges] in H. destruct H as [<-|[<-|[<-|[<-|H]]]]; try (exists k; cbn [e_dst e_src]; lia).
  destruct (IH e H) as (j & A & B & C). exists j. lia.
Qed.

Lemma ladder_link : forall k m n, link (ladder_sg k) m n <->
  exists j, (j < k)%nat /\ (n = 2*j \/ n = 2*j+1)%nat /\ (m = 2*j+2 \/ m = 2*j+3)%nat.
Proof.
  intros k m n. unfold link, feeds, ladder_sg. cbn [sg_edges]. split.
  - intros (s & H). exact (ladder_feeds k _ H).
  - induction k as [|k IH]; intros (j & A & B & C); [lia|].
    destruct (Nat.eq_dec j k) as [->|].
    + cbn [ladder_edges]. destruct B as [-> | ->], C as [-> | ->]; eexists; cbn [In]; eauto.
    + destruct IH as (s & H); [exists j; lia|]. exists s. cbn [ladder_edges]. do 4 right. exact H.
Qed.

Lemma ladder_nodup : forall k, NoDup (map (fun e => (e_src e, e_dst e)) (ladder_edges k)).
Proof.
  induction k as [|k IH]; [constructor|].
  assert (NI : forall a b, (2*k+2 <= a)%nat -> ~ In (a, b) (map (fun e => (e_src e, e_dst e)) (ladder_edges k))).
  { intros a b Ha H. apply in_map_iff in H. destruct H as (e & E & He). apply ladder_feeds in He.
    destruct He as (j & Hj & _ & Hs). injection E as E1 _. lia. }
  cbn [ladder_edges map e_src e_dst].
  repeat constructor; cbn [In]; try exact IH; intros H;
    repeat (destruct H as [H|H]; [injection H; lia|]); apply NI in H; trivial; lia.
Qed.

Lemma nth_repeat_true : forall n i, nth i (repeat true n) false = true <-> (i < n)%nat.
Proof. induction n as [|n IH]; intros [|i]; cbn; try (split; [discriminate|lia]); [split; [lia|reflexivity]|]. rewrite IH. lia. Qed.

Lemma ladder_wf : forall k, wf_stable (ladder_sg k).
Proof.
  intros k. constructor; unfold ladder_sg, sg_live; cbn [sg_free sg_nodes sg_edges].
  - intros i. split; [intros []|]. intros (A & B). rewrite repeat_length in A.
    apply nth_repeat_true in A. congruence.
  - intros e He. apply ladder_feeds in He. destruct He as (j & A & B & C).
    split; apply nth_repeat_true; lia.
  - apply ladder_nodup.
Qed.

Lemma ladder_wf_graph : forall k, wf_graph sum_ops (ladder k).
Proof.
  intros k. constructor; unfold ladder; cbn [g_graph g_ids g_nodes sg_nodes ladder_sg].
  - apply ladder_wf.
  - rewrite map_map. reflexivity.
  - now rewrite repeat_length, map_length, seq_length.
Qed.

Lemma ladder_runnable : forall k, runnable (ladder k).
Proof. intros k. split; [apply ladder_wf|exact (wg_len _ _ (ladder_wf_graph k))]. Qed.

Lemma ladder_graded : forall k, graded (ladder_sg k) 0.
Proof.
  intros k. exists Nat.div2. intros m n _ L _. apply ladder_link in L. destruct L as (j & _ & B & C).
  assert (D : forall a, Nat.div2 (2*a) = a /\ Nat.div2 (2*a+1) = a).
  { intros a. rewrite Nat.div2_double, Nat.add_1_r, Nat.div2_succ_double. auto. }
  assert (M : (m = 2 * (S j) \/ m = 2 * (S j) + 1)%nat) by lia.
  destruct (D j), (D (S j)). destruct B as [-> | ->], M as [-> | ->]; lia.
Qed.

Lemma ladder_inputs : forall srt k j n, sorts srt -> (j < k)%nat -> (n = 2*j \/ n = 2*j+1)%nat ->
  Permutation (inputs_of srt (ladder_sg k) n) [2*j+2; 2*j+3]%nat.
Proof.
  intros srt k j n HS Hj Hn. apply NoDup_Permutation.
  - apply inputs_nodup; [exact HS|apply ladder_wf].
  - repeat constructor; cbn [In]; lia.
  - intros m. rewrite (in_inputs srt (ladder_sg k) HS (ladder_wf k)), ladder_link. cbn [In]. split.
    + intros ((i & A & B & C) & _). assert (i = j) by lia. lia.
    + intros H. split; [exists j; lia|lia].
Qed.

Lemma ladder_leaf : forall srt k n, sorts srt -> (2*k <= n)%nat -> inputs_of srt (ladder_sg k) n = [].
Proof.
  intros srt k n HS Hn. destruct (inputs_of srt (ladder_sg k) n) as [|m l] eqn:E; [reflexivity|]. exfalso.
  assert (In m (inputs_of srt (ladder_sg k) n)) as H by (rewrite E; now left).
  rewrite (in_inputs srt (ladder_sg k) HS (ladder_wf k)), ladder_link in H.
  destruct H as ((j & A & B & C) & _). lia.
Qed.

Lemma ladder_unfolds : forall srt k, sorts srt -> forall r j n, (r + j = k)%nat -> (n = 2*j \/ n = 2*j+1)%nat ->
  exists L, unfolds (inputs_of srt (ladder_sg k)) n L /\ S (length L) = (2 ^ S r)%nat.
Proof.
  intros srt k HS. induction r as [|r IH]; intros j n Hj Hn.
  - exists [n]. split; [|reflexivity]. constructor. rewrite ladder_leaf; [constructor|exact HS|lia].
  - destruct (IH (S j) (2*j+2)%nat) as (La & Ua & Ea); [lia|lia|].
    destruct (IH (S j) (2*j+3)%nat) as (Lb & Ub & Eb); [lia|lia|].
    assert (UA : unfolds_all (inputs_of srt (ladder_sg k)) [2*j+2; 2*j+3]%nat (La ++ Lb ++ [])).
    { constructor; [exact Ua|]. constructor; [exact Ub|constructor]. }
    destruct (unfolds_all_perm _ _ _ (Permutation_sym (ladder_inputs srt k j n HS ltac:(lia) Hn)) _ UA) as (L & U & P).
    exists (n :: L). split; [now constructor|]. apply Permutation_length in P.
    rewrite app_nil_r, app_length in P. cbn [length]. rewrite <- P.
    change (2 ^ S (S r))%nat with (2 * 2 ^ S r)%nat. lia.
Qed.

Theorem ladder_exponential : forall srt k, sorts srt ->
  exists fuel g' c', execute sum_ops srt fuel (ladder k) 0 [0] 0%nat = Some (Ok (g', c', ExSuccess)) /\
    S c' = (2 ^ S k)%nat.
Proof.
  intros srt k HS. pose proof (ladder_runnable k) as HR.
  assert (HB : (0 < node_bound (ladder_sg k))%nat).
  { apply live_lt_bound. unfold sg_live, ladder_sg. cbn [sg_nodes]. apply nth_repeat_true. lia. }
  assert (HI : find_index (ladder k) 0 = Some O).
  { unfold find_index, ladder. cbn [g_ids]. replace (2 * k + 2)%nat with (S (2*k+1)) by lia. reflexivity. }
  destruct (all_upstream_ok srt (ladder_sg k) HS (ladder_wf k) 0%nat HB) as (l & E & R).
  pose proof (graded_ordered srt HS (ladder k) 0%nat l HR R (ladder_graded k)) as HO.
  destruct (execute_total sum_ops srt HS sum_total (ladder k) 0 0%nat l [0] 0%nat HR HI HB E HO)
    as (fuel & g' & c' & st & X & Y).
  destruct (ladder_unfolds srt k HS k 0%nat 0%nat) as (L & U & EL); [lia|lia|].
  destruct (Y _ L U sum_counting) as (-> & EC).
  exists fuel, g', c'. split; [apply X; lia|]. rewrite <- EL, EC. cbn [length]. lia.
Qed.

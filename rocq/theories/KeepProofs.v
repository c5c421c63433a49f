(** Explicit evictions, lookups of everything that fits. *)
From Coq Require Import Permutation ZifyBool ZifyNat.
From Verif Require Import Machine CacheModel CacheSpec CacheProofs KeepSpec.

Section Keep.
Context {V : Type}.
Variable size : V -> Z.

Lemma evict_one_final p cap (ops : list (op V)) c outs :
  0 <= cap < two64 -> history_wf size ops -> run size p (with_capacity cap) ops = Ok (c, outs) ->
  exists c' b, step size p c EvictOne = Ok (c', OEvict b) /\ capacity c' = capacity c /\
    ((lru c = [] /\ b = false /\ c' = c) \/
     (exists e, lru c = e :: lru c' /\ b = true /\ evictions c' = evictions c + 1)).
Proof.
  intros Hc Hh R. destruct (inv_final size p cap ops c outs Hc Hh R) as [(S & T & U & C) _]. destruct Hh as [_ B].
  cbn [step]. unfold evict. destruct (lru c) as [|[k v] rest] eqn:E.
  - eexists. eexists. cbn. split; [reflexivity|]. split; [reflexivity|]. left. auto.
  - apply Forall_cons_iff in S. destruct S as [Sv Sr]. cbn in Sv. cbn [total_bytes] in T.
    pose proof (total_nonneg size _ Sr). unfold sub_u64. rewrite u64_of_ok by lia. cbn [bind fst snd].
    eexists. eexists. split; [reflexivity|]. split; [reflexivity|]. right. exists (k, v). cbn. auto.
Qed.

Lemma evict_all_final p cap (ops : list (op V)) c outs :
  0 <= cap < two64 -> history_wf size ops -> run size p (with_capacity cap) ops = Ok (c, outs) ->
  exists c', step size p c EvictAll = Ok (c', OUnit) /\ lru c' = [] /\ capacity c' = capacity c /\
    evictions c' = evictions c + len c.
Proof.
  intros Hc Hh R. destruct (inv_final size p cap ops c outs Hc Hh R) as [I _]. destruct Hh as [_ B].
  cbn [step]. rewrite (evict_all_spec size p _ c I B). cbn [bind]. eexists. split; [reflexivity|]. cbn. auto.
Qed.

(** A cache without capacity holds no bytes. *)
Lemma zero_empty p ops : forall B c c2 outs,
  Inv size B c -> NoDup (keys c) -> Forall (op_wf size) ops -> B + inserted_bytes size ops < two64 ->
  run size p c ops = Ok (c2, outs) ->
  (capacity c = 0 -> total_bytes size (lru c) = 0) -> capacity c2 = 0 -> total_bytes size (lru c2) = 0.
Proof.
  intros B c c2 outs HI Hnd Hwf HB Hrun.
  refine (run_ind_shape size p
    (fun c ops c2 outs => (capacity c = 0 -> total_bytes size (lru c) = 0) ->
       capacity c2 = 0 -> total_bytes size (lru c2) = 0) _ _ ops B c c2 outs HI Hnd Hwf HB Hrun).
  - auto.
  - clear. intros B c o c1 out ops c2 outs (S & T & U & C) Hnd Ho Hst Hsh HB Hops (S1 & T1 & U1 & C1) Hnd1 Hr IH Z.
    apply IH. pose proof (total_nonneg size _ S) as N. pose proof (total_nonneg size _ S1) as N1.
    inversion Hsh; subst; cbn [lru capacity used after_insert after_drop with_cap total_bytes] in *; intro Q.
    + auto.
    + contradiction.
    + unfold lhm_insert. rewrite total_app. cbn [total_bytes].
      rewrite Z.add_0_r, (total_remove_find size _ _ v) by assumption. auto.
    + auto.
    + specialize (Z Q). rewrite H, total_app in Z. rewrite H in S. apply sizes_app in S.
      pose proof (total_nonneg size _ (proj1 S)). lia.
    + reflexivity.
    + specialize (Z Q). rewrite H, total_app in Z. rewrite H in S. apply sizes_app in S.
      pose proof (total_nonneg size _ (proj1 S)). lia.
    + destruct H0 as [->|H0]; [reflexivity|]. lia.
Qed.

Lemma evict_bytes_final p cap (ops : list (op V)) c outs n :
  0 <= cap < two64 -> history_wf size ops -> run size p (with_capacity cap) ops = Ok (c, outs) -> 0 <= n ->
  exists gone c', step size p c (EvictBytes n) = Ok (c', OUnit) /\ lru c = gone ++ lru c' /\
    capacity c' = capacity c /\ evictions c' = evictions c + Z.of_nat (length gone) /\
    (lru c' = [] \/ n < total_bytes size gone \/ total_bytes size (lru c) = 0) /\
    (forall before e after, gone = before ++ e :: after -> total_bytes size before <= n).
Proof.
  intros Hc Hh R Hn. destruct (inv_final size p cap ops c outs Hc Hh R) as [I N]. pose proof Hh as [W B].
  pose proof I as (S & T & U & C). pose proof (total_nonneg size _ S) as NN.
  assert (Z : capacity c = 0 -> total_bytes size (lru c) = 0).
  { apply (zero_empty p ops 0 (with_capacity cap) c outs); auto.
    - apply Inv_init. exact Hc.
    - apply init_nodup. }
  destruct (evict_bytes_spec size p _ c n I B Hn) as (pre & rest & E & K & D & M).
  cbn [step]. rewrite K. cbn [bind]. exists pre. eexists. split; [reflexivity|]. cbn [lru after_drop capacity evictions].
  split; [exact E|]. split; [reflexivity|]. split; [reflexivity|]. split.
  - destruct D as [D|[D|[_ D]]]; [auto|right; left; lia|right; right; lia].
  - intros a e b G. rewrite E, G in S. apply sizes_app in S. destruct S as [S Sr]. apply sizes_app in S. destruct S as [Sa Sb].
    pose proof (total_nonneg size _ Sb). pose proof (total_nonneg size _ Sr).
    rewrite E, G, !total_app in T.
    destruct (Z.eq_dec (capacity c) 0) as [Q|Q].
    + specialize (Z Q). rewrite E, G, !total_app in Z. pose proof (total_nonneg size _ Sa). lia.
    + destruct (M Q a e b G); lia.
Qed.

(** Everything fits: nothing goes. *)
Lemma run_keeps p k : forall ops B c c2 outs acc,
  Inv size B c -> NoDup (keys c) -> Forall (op_wf size) ops -> B + inserted_bytes size ops < two64 ->
  run size p c ops = Ok (c2, outs) -> only_uses ops -> used c + inserted_bytes size ops < capacity c ->
  lhm_find k (lru c) = acc ->
  evictions c2 = evictions c /\ lhm_find k (lru c2) = last_accepted (capacity c) k acc ops.
Proof.
  induction ops as [|o ops IH]; intros B c c2 outs acc HI Hnd Hwf HB Hrun HO HF HA.
  - cbn in Hrun. injection Hrun as <- <-. cbn. auto.
  - cbn [run] in Hrun. destruct (step size p c o) as [[c1 out]|] eqn:Hst; [|discriminate Hrun]. cbn [bind fst snd] in Hrun.
    destruct (run size p c1 ops) as [[c3 outs']|] eqn:Hr; [|discriminate Hrun]. cbn in Hrun. injection Hrun as <- <-.
    apply Forall_cons_iff in Hwf. destruct Hwf as [Ho Hops]. apply Forall_cons_iff in HO. destruct HO as [HO HOs].
    rewrite inserted_cons in *. pose proof (inserted_nonneg size ops Hops) as NN.
    assert (Hsh : shape size c o c1 out) by (eapply step_shape; [exact HI|exact Ho|lia|exact Hst]).
    assert (HI1 : Inv size (B + inserted_bytes size [o]) c1) by (eapply shape_inv; eassumption).
    assert (Hnd1 : NoDup (keys c1)) by (eapply shape_nodup; eassumption).
    destruct o as [k' v|k'| | | |]; try contradiction.
    + cbn [inserted_bytes op_wf] in *. pose proof HI as (S & T & U & C). pose proof (total_nonneg size _ S).
      destruct (insert_spec size p B c k' v) as (pre & rest & Ea & Eb & Ec & _); [exact HI|lia..|].
      specialize (Ec ltac:(lia)). subst pre. cbn [app] in Ea. subst rest.
      cbn [step] in Hst. rewrite Eb in Hst. cbn [bind] in Hst. injection Hst as <- <-.
      destruct (IH (B + (size v + 0)) (after_insert size c [] (lru c) k' v) c3 outs'
                  (if k' =? k then Some v else acc)) as [I1 I2];
        [assumption|assumption|assumption|lia|assumption|assumption|cbn; lia| |].
      { cbn [after_insert lru]. destruct (k' =? k) eqn:E.
        - assert (Q : k' = k) by lia. rewrite Q. exact (find_insert_same size k v (lru c)).
        - rewrite (find_insert_other size) by lia. exact HA. }
      cbn [after_insert evictions capacity length] in I1, I2. split; [lia|].
      rewrite I2. cbn [last_accepted]. replace (capacity c =? 0) with false by lia. cbn [negb].
      rewrite andb_true_r. destruct (k' =? k); reflexivity.
    + cbn [inserted_bytes op_wf] in *. inversion Hsh; subst.
      * destruct (IH (B + 0) _ c3 outs' (lhm_find k (lru c)) HI1 Hnd1 Hops) as [I1 I2];
          [lia|exact Hr|assumption|cbn; lia| |].
        { cbn [lru]. destruct (Z.eq_dec k' k) as [->|Hne].
          - rewrite (find_insert_same size). auto.
          - apply (find_insert_other size). exact Hne. }
        cbn [evictions capacity] in I1, I2. split; [exact I1|]. rewrite I2. reflexivity.
      * destruct (IH (B + 0) _ c3 outs' (lhm_find k (lru c)) HI1 Hnd1 Hops) as [I1 I2];
          [lia|exact Hr|assumption|cbn; lia|reflexivity|].
        cbn [evictions capacity] in I1, I2. split; [exact I1|]. rewrite I2. reflexivity.
Qed.

Lemma uses_fit cap : forall ops : list (op V), only_uses ops -> Forall (op_wf size) ops -> inserted_bytes size ops < cap ->
  no_oversized size cap ops.
Proof.
  induction ops as [|o ops IH]; intros U W F; [exact I|].
  apply Forall_cons_iff in U. destruct U as [U Us]. apply Forall_cons_iff in W. destruct W as [W Ws].
  rewrite inserted_cons in F. pose proof (inserted_nonneg size ops Ws).
  destruct o; try contradiction; cbn [no_oversized inserted_bytes op_wf] in *.
  - split; [left; lia|]. apply IH; [assumption..|lia].
  - apply IH; [assumption..|lia].
Qed.

Lemma keeps_final p cap (ops : list (op V)) :
  0 <= cap < two64 -> Forall (op_wf size) ops -> only_uses ops -> inserted_bytes size ops < cap ->
  exists c outs, run size p (with_capacity cap) ops = Ok (c, outs) /\ evictions c = 0 /\
    forall k, answers c k = last_accepted cap k None ops.
Proof.
  intros Hc W U F.
  assert (FT : inserted_bytes size ops < two64) by lia.
  destruct (budget_final size p cap ops Hc (conj W FT) (uses_fit cap ops U W F)) as (c & outs & R & _).
  exists c, outs. split; [exact R|].
  assert (G : forall k, evictions c = 0 /\ lhm_find k (lru c) = last_accepted cap k None ops).
  { intro k. apply (run_keeps p k ops 0 (with_capacity cap) c outs None); auto.
    - apply Inv_init. exact Hc.
    - apply init_nodup. }
  split; [apply (G 0)|]. intro k. unfold answers. rewrite get_find. apply G.
Qed.

Lemma run_hits p : forall (ops : list (op V)) c c2 outs, run size p c ops = Ok (c2, outs) ->
  hits c2 = hits c + how_many found outs /\ misses c2 = misses c + how_many not_found outs.
Proof.
  assert (D : forall g n (c c' : cache V), evict_while size p g n c = Ok c' -> hits c' = hits c /\ misses c' = misses c).
  { intros g. induction n as [|n IH]; intros c c' H; cbn [evict_while] in H; [injection H as <-; auto|].
    destruct (g (used c)); [|injection H as <-; auto].
    destruct (evict size p c) as [[c1 b]|] eqn:E; [|discriminate H]. cbn [bind fst] in H.
    destruct (IH _ _ H) as [-> ->]. unfold evict in E. destruct (lru c) as [|[? v] ?]; [injection E as <- <-; auto|].
    destruct (sub_u64 p (used c) (size v)); [|discriminate E]. cbn [bind] in E. injection E as <- <-. auto. }
  assert (G : forall (c c' : cache V) n, evict_bytes size p c n = Ok c' -> hits c' = hits c /\ misses c' = misses c).
  { intros c c' n H. unfold evict_bytes in H. destruct (len c =? 0); [injection H as <-; auto|].
    destruct (used c =? 0); [injection H as <-; auto|]. destruct (capacity c =? 0); [exact (D _ _ _ _ H)|].
    destruct (used c <? n); [exact (D _ _ _ _ H)|].
    destruct (sub_u64 p (used c) n); [|discriminate H]. exact (D _ _ _ _ H). }
  induction ops as [|o ops IH]; intros c c2 outs H.
  - cbn in H. injection H as <- <-. cbn. lia.
  - cbn [run] in H. destruct (step size p c o) as [[c1 out]|] eqn:Hst; [|discriminate H]. cbn [bind fst snd] in H.
    destruct (run size p c1 ops) as [[c3 outs']|] eqn:Hr; [|discriminate H]. cbn in H. injection H as <- <-.
    destruct (IH _ _ _ Hr) as [H1 H2].
    assert (S : hits c1 = hits c + (if found out then 1 else 0) /\ misses c1 = misses c + (if not_found out then 1 else 0)).
    { destruct o as [k v|k| | |n|n]; cbn [step] in Hst.
      - unfold insert in Hst. destruct (capacity c =? 0); [cbn in Hst; injection Hst as <- <-; cbn; lia|].
        destruct (add_u64 p (used c) (size v)) as [e|]; [|discriminate Hst]. cbn [bind] in Hst.
        destruct (capacity c <=? e).
        + destruct (sub_u64 p (capacity c) (size v)) as [r|]; [|discriminate Hst]. cbn [bind] in Hst.
          destruct (sub_u64 p (used c) r) as [f|]; [|discriminate Hst]. cbn [bind] in Hst.
          destruct (evict_bytes size p c f) as [c4|] eqn:E; [|discriminate Hst]. cbn [bind] in Hst.
          destruct (add_u64 p (used c4) (size v)) as [u|]; [|discriminate Hst]. cbn [bind] in Hst. injection Hst as <- <-.
          apply G in E. cbn. lia.
        + cbn [bind] in Hst. destruct (add_u64 p (used c) (size v)) as [u|]; [|discriminate Hst]. cbn [bind] in Hst.
          injection Hst as <- <-. cbn. lia.
      - unfold get in Hst. destruct (lhm_get_refresh k (lru c)) as [[v|] l]; injection Hst as <- <-; cbn; lia.
      - unfold evict in Hst. destruct (lru c) as [|[? v] ?]; [cbn in Hst; injection Hst as <- <-; cbn; lia|].
        destruct (sub_u64 p (used c) (size v)); [|discriminate Hst]. cbn in Hst. injection Hst as <- <-. cbn. lia.
      - destruct (evict_all size p c) as [c4|] eqn:E; [|discriminate Hst]. cbn in Hst. injection Hst as <- <-.
        apply D in E. cbn. lia.
      - destruct (evict_bytes size p c n) as [c4|] eqn:E; [|discriminate Hst]. cbn in Hst. injection Hst as <- <-.
        apply G in E. cbn. lia.
      - unfold set_capacity in Hst. destruct (n <? used c).
        + destruct (sub_u64 p (used c) n) as [f|]; [|discriminate Hst]. cbn [bind] in Hst.
          destruct (evict_bytes size p c f) as [c4|] eqn:E; [|discriminate Hst]. cbn in Hst. injection Hst as <- <-.
          apply G in E. cbn. lia.
        + cbn in Hst. injection Hst as <- <-. cbn. lia. }
    unfold how_many in *. cbn [filter].
    destruct (found out), (not_found out); cbn [length]; lia.
Qed.

Lemma hits_final p cap (ops : list (op V)) c outs : run size p (with_capacity cap) ops = Ok (c, outs) ->
  hits c = how_many found outs /\ misses c = how_many not_found outs.
Proof. intro R. apply run_hits in R. cbn in R. lia. Qed.
End Keep.

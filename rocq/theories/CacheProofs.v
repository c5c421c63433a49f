(** Proofs about the image cache model. *)
From Coq Require Import Permutation.
From Coq Require Import ZifyBool ZifyNat.
From Verif Require Import Machine CacheModel CacheSpec.

Section Proofs.
Context {V : Type}.
Variable size : V -> Z.
Notation total_bytes := (total_bytes size).
Notation evict := (evict size).
Notation evict_while := (evict_while size).
Notation evict_all := (evict_all size).
Notation evict_bytes := (evict_bytes size).
Notation set_capacity := (set_capacity size).
Notation insert := (insert size).
Notation step := (step size).
Notation run := (run size).

Definition sizes_nonneg (l : list (Z * V)) : Prop :=
  Forall (fun e => 0 <= size (snd e)) l.

Lemma total_app l1 l2 : total_bytes (l1 ++ l2) = total_bytes l1 + total_bytes l2.
Proof. induction l1 as [|[k v] l1 IH]; cbn [app CacheSpec.total_bytes]; lia. Qed.

Lemma total_nonneg l : sizes_nonneg l -> 0 <= total_bytes l.
Proof.
  induction l as [|[k v] l IH]; intros H; cbn [CacheSpec.total_bytes]; [lia|].
  inversion H as [|? ? H1 H2]; subst. cbn in H1. specialize (IH H2). lia.
Qed.

Lemma sizes_app l1 l2 : sizes_nonneg (l1 ++ l2) <-> sizes_nonneg l1 /\ sizes_nonneg l2.
Proof. apply Forall_app. Qed.

Lemma sizes_filter f l : sizes_nonneg l -> sizes_nonneg (filter f l).
Proof.
  intros H. apply Forall_forall. intros e He. apply filter_In in He.
  destruct He as [He _]. revert e He. apply Forall_forall. exact H.
Qed.

Lemma total_filter_split f l :
  total_bytes l = total_bytes (filter f l) + total_bytes (filter (fun e => negb (f e)) l).
Proof.
  induction l as [|[k v] l IH]; [reflexivity|].
  cbn [filter CacheSpec.total_bytes]. destruct (f (k, v)); cbn [negb CacheSpec.total_bytes]; lia.
Qed.

Lemma total_remove_le k l : sizes_nonneg l -> total_bytes (lhm_remove k l) <= total_bytes l.
Proof.
  intros H. unfold lhm_remove.
  rewrite (total_filter_split (fun e => negb (fst e =? k)) l).
  pose proof (total_nonneg _ (sizes_filter (fun e => negb (negb (fst e =? k))) _ H)). lia.
Qed.

(** State reached by dropping the front entries [pre] of [c], leaving [rest]. *)
Definition after_drop (c : cache V) (pre rest : list (Z * V)) : cache V :=
  mkCache rest (capacity c) (used c - total_bytes pre) (hits c) (misses c) (inserts c)
          (evictions c + Z.of_nat (length pre)).

Lemma u64_of_ok p z : 0 <= z < two64 -> u64_of p z = Ok z.
Proof. intros H. unfold u64_of, in_u64. destruct (0 <=? z) eqn:E1, (z <? two64) eqn:E2; cbn; try lia; reflexivity. Qed.

Lemma evict_while_spec p goon n : forall c,
  n = length (lru c) ->
  sizes_nonneg (lru c) -> total_bytes (lru c) <= used c < two64 ->
  exists pre rest,
    lru c = pre ++ rest /\
    evict_while p goon n c = Ok (after_drop c pre rest) /\
    (rest = [] \/ goon (used c - total_bytes pre) = false) /\
    (forall pre1 e pre2, pre = pre1 ++ e :: pre2 -> goon (used c - total_bytes pre1) = true).
Proof.
  induction n as [|n IH]; intros c Hn Hs Hu.
  - exists [], (lru c). destruct c as [l cp u h m i ev]; cbn in *.
    destruct l; [|discriminate]. repeat split.
    + unfold after_drop; cbn. f_equal. f_equal; lia.
    + left; reflexivity.
    + intros pre1 e pre2 H. destruct pre1; discriminate.
  - destruct c as [l cp u h m i ev]; cbn [lru used] in *.
    destruct l as [|[k v] l]; [discriminate|]. cbn [length] in Hn.
    cbn [CacheModel.evict_while used].
    destruct (goon u) eqn:Hg.
    + unfold CacheModel.evict; cbn [lru used].
      cbn [CacheSpec.total_bytes] in Hu.
      apply Forall_cons_iff in Hs. destruct Hs as [Hv Hs]. cbn in Hv.
      pose proof (total_nonneg _ Hs).
      unfold sub_u64. rewrite u64_of_ok by lia. cbn [bind fst capacity hits misses inserts evictions].
      destruct (IH (mkCache l cp (u - size v) h m i (ev + 1))) as (pre & rest & H1 & H2 & H3 & H4);
        cbn [lru used]; try assumption; try lia.
      cbn [lru used] in *.
      exists ((k, v) :: pre), rest. repeat split.
      * cbn. f_equal. exact H1.
      * rewrite H2. unfold after_drop; cbn [capacity used hits misses inserts evictions CacheSpec.total_bytes length].
        f_equal. f_equal; lia.
      * destruct H3 as [H3|H3]; [left; exact H3|right].
        cbn [CacheSpec.total_bytes]. replace (u - (size v + total_bytes pre)) with (u - size v - total_bytes pre) by lia.
        exact H3.
      * intros pre1 e pre2 Heq. destruct pre1 as [|e1 pre1].
        -- cbn. replace (u - 0) with u by lia. exact Hg.
        -- cbn in Heq. inversion Heq; subst. cbn [CacheSpec.total_bytes].
           replace (u - (size v + total_bytes pre1)) with (u - size v - total_bytes pre1) by lia.
           eapply H4. reflexivity.
    + exists [], ((k, v) :: l). repeat split.
      * unfold after_drop; cbn. f_equal. f_equal; lia.
      * right. cbn. replace (u - 0) with u by lia. exact Hg.
      * intros pre1 e pre2 Heq. destruct pre1; discriminate.
Qed.

Lemma after_drop_nil c : after_drop c [] (lru c) = c.
Proof. destruct c; unfold after_drop; cbn. f_equal; lia. Qed.

(** Well-formedness kept by every call: sizes are non-negative, usage is never
    under-counted and fits in a usize. [B] bounds the bytes inserted so far. *)
Definition Inv (B : Z) (c : cache V) : Prop :=
  sizes_nonneg (lru c) /\ total_bytes (lru c) <= used c /\ used c <= B /\ 0 <= capacity c < two64.

Lemma Inv_init cap : 0 <= cap < two64 -> Inv 0 (with_capacity cap).
Proof. intros H. unfold Inv, with_capacity, sizes_nonneg; cbn [lru used capacity CacheSpec.total_bytes]. split; [apply Forall_nil|lia]. Qed.

Lemma Inv_drop B c pre rest :
  Inv B c -> lru c = pre ++ rest -> Inv B (after_drop c pre rest).
Proof.
  intros (H1 & H2 & H3 & H4) Heq. unfold Inv, after_drop; cbn [lru used capacity].
  rewrite Heq in H1, H2. apply sizes_app in H1. destruct H1 as [Ha Hb].
  rewrite total_app in H2. pose proof (total_nonneg _ Ha). pose proof (total_nonneg _ Hb).
  repeat split; try assumption; try lia.
Qed.

(** evict_bytes drops a front segment and frees the requested number of bytes. *)
Lemma evict_bytes_spec p B c n :
  Inv B c -> B < two64 -> 0 <= n ->
  exists pre rest,
    lru c = pre ++ rest /\
    evict_bytes p c n = Ok (after_drop c pre rest) /\
    (rest = [] \/ used c - total_bytes pre < used c - n \/ (pre = [] /\ used c = 0)) /\
    (capacity c <> 0 -> forall pre1 e pre2, pre = pre1 ++ e :: pre2 ->
       (used c < n \/ used c - n <= used c - total_bytes pre1)).
Proof.
  intros HI HB Hn. pose proof HI as (H1 & H2 & H3 & H4).
  unfold CacheModel.evict_bytes, len.
  destruct (Z.of_nat (length (lru c)) =? 0) eqn:El.
  { exists [], (lru c). rewrite after_drop_nil. repeat split.
    - left. destruct (lru c); [reflexivity|cbn in El; lia].
    - intros _ pre1 e pre2 Heq; destruct pre1; discriminate. }
  destruct (used c =? 0) eqn:Eu.
  { exists [], (lru c). rewrite after_drop_nil. repeat split.
    - right; right. split; [reflexivity|lia].
    - intros _ pre1 e pre2 Heq; destruct pre1; discriminate. }
  destruct (capacity c =? 0) eqn:Ec.
  { unfold CacheModel.evict_all.
    destruct (evict_while_spec p (fun _ => true) (length (lru c)) c) as (pre & rest & Ha & Hb & Hc & Hd);
      [reflexivity|assumption|lia|].
    exists pre, rest. repeat split; try assumption.
    - destruct Hc as [Hc|Hc]; [left; exact Hc|discriminate].
    - lia. }
  destruct (used c <? n) eqn:En.
  - cbn [bind].
    destruct (evict_while_spec p (fun u => 0 <=? u) (length (lru c)) c) as (pre & rest & Ha & Hb & Hc & Hd);
      [reflexivity|assumption|lia|].
    exists pre, rest. repeat split; try assumption.
    + destruct Hc as [Hc|Hc]; [left; exact Hc|].
      pose proof H2 as H2'. rewrite Ha, total_app in H2'.
      rewrite Ha in H1. apply sizes_app in H1. pose proof (total_nonneg _ (proj2 H1)). lia.
    + intros; lia.
  - pose proof (total_nonneg _ H1).
    unfold sub_u64. rewrite u64_of_ok by lia. cbn [bind].
    destruct (evict_while_spec p (fun u => used c - n <=? u) (length (lru c)) c) as (pre & rest & Ha & Hb & Hc & Hd);
      [reflexivity|assumption|lia|].
    exists pre, rest. repeat split; try assumption.
    + destruct Hc as [Hc|Hc]; [left; exact Hc|right; left; lia].
    + intros _ pre1 e pre2 Heq. specialize (Hd _ _ _ Heq). lia.
Qed.

Lemma evict_all_spec p B c :
  Inv B c -> B < two64 -> evict_all p c = Ok (after_drop c (lru c) []).
Proof.
  intros (H1 & H2 & H3 & H4) HB. unfold CacheModel.evict_all.
  destruct (evict_while_spec p (fun _ => true) (length (lru c)) c) as (pre & rest & Ha & Hb & Hc & Hd);
    [reflexivity|assumption|lia|].
  destruct Hc as [Hc|Hc]; [|discriminate]. subst rest. rewrite app_nil_r in Ha. subst pre. exact Hb.
Qed.

(** State after a successful insert that first dropped [pre]. *)
Definition after_insert (c : cache V) (pre rest : list (Z * V)) (k : Z) (v : V) : cache V :=
  mkCache (lhm_insert k v rest) (capacity c) (used c - total_bytes pre + size v)
          (hits c) (misses c) (inserts c + 1) (evictions c + Z.of_nat (length pre)).

(** insert, for an image no larger than the capacity: never panics. *)
Lemma insert_spec p B c k v :
  Inv B c -> 0 <= size v -> B + size v < two64 -> capacity c <> 0 -> size v <= capacity c ->
  exists pre rest,
    lru c = pre ++ rest /\
    insert p c k v = Ok (after_insert c pre rest k v) /\
    (used c + size v < capacity c -> pre = []) /\
    (rest = [] \/ used c - total_bytes pre + size v < capacity c \/ (pre = [] /\ used c = 0)) /\
    (forall pre1 e pre2, pre = pre1 ++ e :: pre2 ->
       capacity c <= used c - total_bytes pre1 + size v).
Proof.
  intros HI Hv HB Hc Hvc. pose proof HI as (H1 & H2 & H3 & H4).
  pose proof (total_nonneg _ H1).
  unfold CacheModel.insert. destruct (capacity c =? 0) eqn:Ec; [lia|].
  unfold add_u64 at 1. rewrite u64_of_ok by lia. cbn [bind].
  destruct (capacity c <=? used c + size v) eqn:Ee.
  - unfold sub_u64 at 1. rewrite u64_of_ok by lia. cbn [bind].
    unfold sub_u64 at 1. rewrite u64_of_ok by lia. cbn [bind].
    destruct (evict_bytes_spec p B c (used c - (capacity c - size v))) as (pre & rest & Ha & Hb & Hd & He);
      [assumption|lia|lia|].
    rewrite Hb. cbn [bind]. unfold after_drop; cbn [used lru capacity hits misses inserts evictions].
    pose proof H1 as H1'. rewrite Ha in H1', H2. apply sizes_app in H1'. rewrite total_app in H2.
    pose proof (total_nonneg _ (proj1 H1')). pose proof (total_nonneg _ (proj2 H1')).
    unfold add_u64. rewrite u64_of_ok by lia. cbn [bind].
    exists pre, rest. repeat split; try assumption.
    + intros; lia.
    + destruct Hd as [Hd|[Hd|Hd]]; [left; exact Hd|right; left; lia|right; right; exact Hd].
    + intros pre1 e pre2 Heq. specialize (He Hc _ _ _ Heq). lia.
  - cbn [bind]. unfold add_u64. rewrite u64_of_ok by lia. cbn [bind].
    exists [], (lru c). repeat split.
    + unfold after_insert. cbn. f_equal. f_equal; lia.
    + right; left. cbn. lia.
    + intros pre1 e pre2 Heq; destruct pre1; discriminate.
Qed.

(** insert of an oversized image. *)
Lemma insert_oversized_debug c k v :
  0 < capacity c < size v -> 0 <= used c -> insert Debug c k v = Panic.
Proof.
  intros Hc Hu. unfold CacheModel.insert. destruct (capacity c =? 0) eqn:Ec; [lia|].
  unfold add_u64 at 1, u64_of. destruct (in_u64 (used c + size v)); [|reflexivity].
  cbn [bind]. destruct (capacity c <=? used c + size v) eqn:Ee; [|lia].
  unfold sub_u64 at 1, u64_of, in_u64.
  destruct (0 <=? capacity c - size v) eqn:E0; [lia|]. reflexivity.
Qed.

Lemma wrap_u64_plus z : - two64 <= z < 0 -> wrap_u64 z = z + two64.
Proof.
  intros H. unfold wrap_u64. rewrite <- (Z.mod_add z 1 two64) by (unfold two64; lia).
  apply Z.mod_small. lia.
Qed.

Lemma u64_of_release_neg z : - two64 <= z < 0 -> u64_of Release z = Ok (z + two64).
Proof.
  intros H. unfold u64_of, in_u64. destruct (0 <=? z) eqn:E; [lia|]. cbn.
  rewrite wrap_u64_plus by exact H. reflexivity.
Qed.

Lemma insert_oversized_release B c k v :
  Inv B c -> B + size v < two64 -> 0 < capacity c < size v ->
  exists pre rest,
    lru c = pre ++ rest /\ total_bytes rest = 0 /\
    insert Release c k v = Ok (after_insert c pre rest k v).
Proof.
  intros HI HB Hc. pose proof HI as (H1 & H2 & H3 & H4).
  pose proof (total_nonneg _ H1).
  unfold CacheModel.insert. destruct (capacity c =? 0) eqn:Ec; [lia|].
  unfold add_u64 at 1. rewrite u64_of_ok by lia. cbn [bind].
  destruct (capacity c <=? used c + size v) eqn:Ee; [|lia].
  unfold sub_u64 at 1. rewrite u64_of_release_neg by lia. cbn [bind].
  unfold sub_u64 at 1.
  replace (used c - (capacity c - size v + two64)) with (used c + size v - capacity c - two64) by lia.
  rewrite u64_of_release_neg by lia. cbn [bind].
  replace (used c + size v - capacity c - two64 + two64) with (used c + size v - capacity c) by lia.
  destruct (evict_bytes_spec Release B c (used c + size v - capacity c)) as (pre & rest & Ha & Hb & Hd & He);
    [assumption|lia|lia|].
  rewrite Hb. cbn [bind]. unfold after_drop; cbn [used lru capacity hits misses inserts evictions].
  rewrite Ha in H1. apply sizes_app in H1. destruct H1 as [H1a H1b].
  rewrite Ha, total_app in H2.
  pose proof (total_nonneg _ H1a). pose proof (total_nonneg _ H1b).
  unfold add_u64. rewrite u64_of_ok by lia. cbn [bind].
  exists pre, rest. repeat split; [exact Ha|].
  destruct Hd as [Hd|[Hd|[Hd1 Hd2]]]; subst; cbn in *; lia.
Qed.

Lemma find_In k (l : list (Z * V)) v : lhm_find k l = Some v -> In (k, v) l.
Proof.
  induction l as [|[k' v'] l IH]; intros Hf; [discriminate|].
  cbn in Hf. destruct (k' =? k) eqn:E; [inversion Hf; subst; left; f_equal; lia|right; auto].
Qed.

Lemma find_None k (l : list (Z * V)) : lhm_find k l = None <-> ~ In k (map fst l).
Proof.
  induction l as [|[k' v'] l IH]; cbn; [tauto|].
  destruct (k' =? k) eqn:E; split; intros H.
  - discriminate.
  - exfalso. apply H. left. lia.
  - apply IH in H. intros [H1|H1]; [lia|tauto].
  - apply IH. tauto.
Qed.

Lemma filter_true {A} (f : A -> bool) l : (forall x, In x l -> f x = true) -> filter f l = l.
Proof.
  induction l as [|x l IH]; intros H; [reflexivity|].
  cbn. rewrite H by (left; reflexivity). f_equal. apply IH. intros y Hy. apply H. right; exact Hy.
Qed.

Lemma remove_absent k (l : list (Z * V)) : ~ In k (map fst l) -> lhm_remove k l = l.
Proof.
  intros H. apply filter_true. intros [k' v'] Hin. cbn.
  destruct (k' =? k) eqn:E; [|reflexivity]. exfalso. apply H.
  replace k with (fst (k', v')) by (cbn; lia). apply in_map. exact Hin.
Qed.

(** ** The effect of one successful call, in one place. *)
Definition with_cap (n : Z) (c : cache V) : cache V :=
  mkCache (lru c) n (used c) (hits c) (misses c) (inserts c) (evictions c).

Inductive shape (c : cache V) : op V -> cache V -> out V -> Prop :=
| sh_insert_ignored k v : capacity c = 0 -> shape c (Insert k v) c OUnit
| sh_insert k v pre rest :
    capacity c <> 0 -> lru c = pre ++ rest ->
    (size v <= capacity c ->
      (rest = [] \/ used c - total_bytes pre + size v < capacity c \/ (pre = [] /\ used c = 0))) ->
    shape c (Insert k v) (after_insert c pre rest k v) OUnit
| sh_hit k v :
    lhm_find k (lru c) = Some v ->
    shape c (Get k)
      (mkCache (lhm_insert k v (lru c)) (capacity c) (used c) (hits c + 1) (misses c)
               (inserts c) (evictions c)) (OGet (Some v))
| sh_miss k :
    lhm_find k (lru c) = None ->
    shape c (Get k)
      (mkCache (lru c) (capacity c) (used c) (hits c) (misses c + 1)
               (inserts c) (evictions c)) (OGet None)
| sh_evict_one pre rest b :
    lru c = pre ++ rest -> shape c EvictOne (after_drop c pre rest) (OEvict b)
| sh_evict_all :
    shape c EvictAll (after_drop c (lru c) []) OUnit
| sh_evict_bytes n pre rest :
    lru c = pre ++ rest -> shape c (EvictBytes n) (after_drop c pre rest) OUnit
| sh_set_capacity n pre rest :
    lru c = pre ++ rest ->
    (rest = [] \/ used c - total_bytes pre <= n) ->
    shape c (SetCapacity n) (with_cap n (after_drop c pre rest)) OUnit.

Lemma step_shape p B c o c' out :
  Inv B c -> op_wf size o -> B + inserted_bytes size [o] < two64 ->
  step p c o = Ok (c', out) -> shape c o c' out.
Proof.
  intros HI Hwf HB Hst. pose proof HI as (H1 & H2 & H3 & H4).
  pose proof (total_nonneg _ H1) as Hnn.
  destruct o as [k v|k| | |n|n]; cbn [inserted_bytes op_wf] in *; cbn [CacheModel.step] in Hst.
  - (* Insert *)
    destruct (Z.eq_dec (capacity c) 0) as [Hz|Hz].
    { unfold CacheModel.insert in Hst. rewrite (proj2 (Z.eqb_eq _ _) Hz) in Hst.
      cbn in Hst. inversion Hst; subst. constructor. exact Hz. }
    destruct (Z_le_gt_dec (size v) (capacity c)) as [Hle|Hgt].
    + destruct (insert_spec p B c k v) as (pre & rest & Ha & Hb & _ & Hc & _); try assumption; try lia.
      rewrite Hb in Hst. cbn in Hst. inversion Hst; subst. constructor; auto.
    + destruct p.
      * rewrite insert_oversized_debug in Hst; [discriminate| |]; lia.
      * destruct (insert_oversized_release B c k v) as (pre & rest & Ha & _ & Hb); try assumption; try lia.
        rewrite Hb in Hst. cbn in Hst. inversion Hst; subst. constructor; auto. lia.
  - (* Get *)
    unfold get, lhm_get_refresh in Hst.
    destruct (lhm_find k (lru c)) as [v|] eqn:Hf; inversion Hst; subst; constructor; exact Hf.
  - (* EvictOne *)
    unfold CacheModel.evict in Hst. destruct (lru c) as [|[k v] l] eqn:El.
    + cbn in Hst. inversion Hst; subst.
      replace c' with (after_drop c' [] (lru c')) at 2 by apply after_drop_nil. constructor. reflexivity.
    + apply Forall_cons_iff in H1. destruct H1 as [Hv H1]. cbn in Hv. cbn [CacheSpec.total_bytes] in *.
      pose proof (total_nonneg _ H1).
      unfold sub_u64 in Hst. rewrite u64_of_ok in Hst by lia. cbn in Hst. inversion Hst; subst.
      replace (mkCache l _ _ _ _ _ _) with (after_drop c [(k, v)] l).
      * constructor. exact El.
      * unfold after_drop; cbn [CacheSpec.total_bytes length]. f_equal; lia.
  - (* EvictAll *)
    rewrite (evict_all_spec p B c HI) in Hst by lia. cbn in Hst. inversion Hst; subst. constructor.
  - (* EvictBytes *)
    destruct (evict_bytes_spec p B c n) as (pre & rest & Ha & Hb & _); [assumption|lia|lia|].
    rewrite Hb in Hst. cbn in Hst. inversion Hst; subst. constructor. exact Ha.
  - (* SetCapacity *)
    unfold CacheModel.set_capacity in Hst.
    destruct (n <? used c) eqn:En.
    + unfold sub_u64 in Hst. rewrite u64_of_ok in Hst by lia. cbn [bind] in Hst.
      destruct (evict_bytes_spec p B c (used c - n)) as (pre & rest & Ha & Hb & Hc & _); [assumption|lia|lia|].
      rewrite Hb in Hst. cbn in Hst. inversion Hst; subst.
      apply (sh_set_capacity c n pre rest Ha).
      destruct Hc as [Hc|[Hc|[Hc1 Hc2]]]; [left; exact Hc|right; lia|right; lia].
    + cbn in Hst. inversion Hst; subst.
      pose proof (sh_set_capacity c n [] (lru c) eq_refl) as Hsh. rewrite after_drop_nil in Hsh.
      apply Hsh. right. cbn. lia.
Qed.

(** Calls never panic as long as no image exceeds the capacity. *)
Lemma step_no_panic p B c o :
  Inv B c -> op_wf size o -> B + inserted_bytes size [o] < two64 ->
  match o with Insert _ v => size v <= capacity c \/ capacity c = 0 | _ => True end ->
  exists c' out, step p c o = Ok (c', out).
Proof.
  intros HI Hwf HB Hfit. pose proof HI as (H1 & H2 & H3 & H4).
  pose proof (total_nonneg _ H1) as Hnn.
  destruct o as [k v|k| | |n|n]; cbn [inserted_bytes op_wf] in *; cbn [CacheModel.step].
  - destruct (Z.eq_dec (capacity c) 0) as [Hz|Hz].
    { unfold CacheModel.insert. rewrite (proj2 (Z.eqb_eq _ _) Hz). cbn. eauto. }
    destruct (insert_spec p B c k v) as (pre & rest & Ha & Hb & _); try assumption; try lia.
    rewrite Hb. cbn. eauto.
  - destruct (get c k). eauto.
  - unfold CacheModel.evict. destruct (lru c) as [|[k v] l] eqn:El; [cbn; eauto|].
    apply Forall_cons_iff in H1. destruct H1 as [Hv H1]. cbn in Hv. cbn [CacheSpec.total_bytes] in *.
    pose proof (total_nonneg _ H1).
    unfold sub_u64. rewrite u64_of_ok by lia. cbn. eauto.
  - rewrite (evict_all_spec p B c HI) by lia. cbn. eauto.
  - destruct (evict_bytes_spec p B c n) as (pre & rest & Ha & Hb & _); [assumption|lia|lia|].
    rewrite Hb. cbn. eauto.
  - unfold CacheModel.set_capacity. destruct (n <? used c) eqn:En; [|cbn; eauto].
    unfold sub_u64. rewrite u64_of_ok by lia. cbn [bind].
    destruct (evict_bytes_spec p B c (used c - n)) as (pre & rest & Ha & Hb & _); [assumption|lia|lia|].
    rewrite Hb. cbn. eauto.
Qed.

Lemma total_insert k v l :
  total_bytes (lhm_insert k v l) = total_bytes (lhm_remove k l) + size v.
Proof. unfold lhm_insert. rewrite total_app. cbn [CacheSpec.total_bytes]. lia. Qed.

Lemma total_remove_find k l v :
  NoDup (map fst l) -> lhm_find k l = Some v ->
  total_bytes (lhm_remove k l) + size v = total_bytes l.
Proof.
  induction l as [|[k' v'] l IH]; intros Hnd Hf; [discriminate|].
  cbn in Hf. cbn in Hnd. inversion Hnd as [|? ? Hni Hnd']; subst. cbn [lhm_remove filter fst].
  destruct (k' =? k) eqn:E.
  - inversion Hf; subst. cbn [negb]. assert (k' = k) by lia. subst.
    fold (@lhm_remove V k l). rewrite remove_absent by exact Hni. cbn [CacheSpec.total_bytes]. lia.
  - cbn [negb CacheSpec.total_bytes]. fold (@lhm_remove V k l). specialize (IH Hnd' Hf). lia.
Qed.

Lemma sizes_find k l v : sizes_nonneg l -> lhm_find k l = Some v -> 0 <= size v.
Proof. intros H Hf. exact (proj1 (Forall_forall _ _) H _ (find_In _ _ _ Hf)). Qed.

Lemma sizes_insert k v l : 0 <= size v -> sizes_nonneg l -> sizes_nonneg (lhm_insert k v l).
Proof.
  intros Hv H. apply sizes_app. split; [apply sizes_filter; exact H|].
  apply Forall_cons; [exact Hv|apply Forall_nil].
Qed.

(** Keys stay distinct. *)
Definition keys (c : cache V) : list Z := map fst (lru c).

Lemma keys_insert k (v : V) (l : list (Z * V)) : map fst (lhm_insert k v l) = touch k (map fst l).
Proof.
  unfold lhm_insert, touch, lhm_remove. rewrite map_app. cbn. f_equal.
  induction l as [|[k' v'] l IH]; [reflexivity|]. cbn. destruct (k' =? k); cbn; [exact IH|now rewrite IH].
Qed.

Lemma NoDup_touch k l : NoDup l -> NoDup (touch k l).
Proof.
  intros H. unfold touch.
  assert (Hf : NoDup (filter (fun k' => negb (k' =? k)) l)) by (apply NoDup_filter; exact H).
  assert (Hk : ~ In k (filter (fun k' => negb (k' =? k)) l)).
  { intros Hin. apply filter_In in Hin. lia. }
  clear H. induction (filter _ l) as [|x t IH]; cbn.
  - constructor; [intros []|constructor].
  - inversion Hf as [|? ? Hx Ht]; subst. constructor.
    + intros Hin. apply in_app_or in Hin. destruct Hin as [Hin|[Hin|[]]]; [contradiction|].
      subst. apply Hk. left; reflexivity.
    + apply IH; [exact Ht|]. intros Hin. apply Hk. right; exact Hin.
Qed.

Lemma NoDup_suffix {A} (l1 l2 : list A) : NoDup (l1 ++ l2) -> NoDup l2.
Proof. induction l1 as [|x l1 IH]; intros H; [exact H|]. inversion H; subst. apply IH; assumption. Qed.

Lemma shape_nodup c o c' out : shape c o c' out -> NoDup (keys c) -> NoDup (keys c').
Proof.
  intros Hsh Hnd. unfold keys in *.
  inversion Hsh; subst; cbn [lru after_drop after_insert with_cap];
    try (rewrite keys_insert; apply NoDup_touch); try assumption;
    try (match goal with H : lru c = _ ++ _ |- _ => rewrite H, map_app in Hnd; apply NoDup_suffix in Hnd; exact Hnd end).
  constructor.
Qed.

Lemma shape_inv B c o c' out :
  Inv B c -> op_wf size o -> shape c o c' out -> NoDup (keys c) ->
  Inv (B + inserted_bytes size [o]) c'.
Proof.
  intros HI Hwf Hsh Hnd. pose proof HI as (H1 & H2 & H3 & H4).
  pose proof (total_nonneg _ H1) as Hnn.
  inversion Hsh; subst; cbn [inserted_bytes op_wf] in *;
    repeat match goal with |- context [?a + 0] => replace (a + 0) with a by lia end.
  - unfold Inv; repeat split; assumption || lia.
  - match goal with H : lru c = _ ++ _ |- _ => rewrite H in H1, H2 end.
    apply sizes_app in H1. destruct H1 as [H1a H1b]. rewrite total_app in H2.
    pose proof (total_nonneg _ H1a). pose proof (total_nonneg _ H1b).
    unfold Inv, after_insert; cbn [lru used capacity].
    pose proof (total_remove_le k rest H1b). rewrite total_insert.
    split; [apply sizes_insert; [lia|exact H1b]|lia].
  - unfold Inv; cbn [lru used capacity].
    split; [apply sizes_insert; [eapply sizes_find; eassumption|exact H1]|].
    rewrite total_insert. erewrite total_remove_find by eassumption. lia.
  - unfold Inv; cbn [lru used capacity]. repeat split; assumption || lia.
  - apply Inv_drop; assumption.
  - apply Inv_drop; [assumption|now rewrite app_nil_r].
  - apply Inv_drop; assumption.
  - match goal with H : lru c = _ ++ _ |- _ => destruct (Inv_drop B c pre rest HI H) as (K1 & K2 & K3 & K4) end.
    unfold Inv, with_cap; cbn [lru used capacity]. repeat split; assumption || lia.
Qed.

Lemma shape_capacity c o c' out :
  shape c o c' out -> capacity c' = capacity_after (capacity c) [o].
Proof. intros Hsh; inversion Hsh; subst; reflexivity. Qed.

Lemma capacity_after_cons cap o (ops : list (op V)) :
  capacity_after cap (o :: ops) = capacity_after (capacity_after cap [o]) ops.
Proof. destruct o; reflexivity. Qed.

Lemma inserted_cons o (ops : list (op V)) :
  inserted_bytes size (o :: ops) = inserted_bytes size [o] + inserted_bytes size ops.
Proof. destruct o; cbn; lia. Qed.

Lemma inserted_nonneg (ops : list (op V)) : Forall (op_wf size) ops -> 0 <= inserted_bytes size ops.
Proof.
  induction ops as [|o ops IH]; intros H; [cbn; lia|].
  inversion H as [|? ? Ho Hops]; subst. specialize (IH Hops).
  destruct o; cbn [inserted_bytes op_wf] in *; lia.
Qed.

(** Induction principle over successful runs: every step has a [shape], from a
    state satisfying the invariants. *)
Lemma run_ind_shape p (P : cache V -> list (op V) -> cache V -> list (out V) -> Prop) :
  (forall c, P c [] c []) ->
  (forall B c o c1 out ops c2 outs,
      Inv B c -> NoDup (keys c) -> op_wf size o -> step p c o = Ok (c1, out) ->
      shape c o c1 out -> B + inserted_bytes size (o :: ops) < two64 ->
      Forall (op_wf size) ops ->
      Inv (B + inserted_bytes size [o]) c1 -> NoDup (keys c1) ->
      run p c1 ops = Ok (c2, outs) -> P c1 ops c2 outs -> P c (o :: ops) c2 (out :: outs)) ->
  forall ops B c c2 outs,
    Inv B c -> NoDup (keys c) -> Forall (op_wf size) ops ->
    B + inserted_bytes size ops < two64 ->
    run p c ops = Ok (c2, outs) -> P c ops c2 outs.
Proof.
  intros Hnil Hcons. induction ops as [|o ops IH]; intros B c c2 outs HI Hnd Hwf HB Hrun.
  - cbn in Hrun. inversion Hrun; subst. apply Hnil.
  - cbn [CacheModel.run] in Hrun.
    destruct (step p c o) as [[c1 out]|] eqn:Hst; [|discriminate]. cbn [bind fst snd] in Hrun.
    destruct (run p c1 ops) as [[c3 outs']|] eqn:Hr; [|discriminate]. cbn in Hrun.
    inversion Hrun; subst.
    inversion Hwf as [|? ? Ho Hops]; subst.
    pose proof HB as HB'. rewrite inserted_cons in HB'. pose proof (inserted_nonneg ops Hops).
    assert (Hsh : shape c o c1 out) by (eapply step_shape; [exact HI|exact Ho|lia|exact Hst]).
    assert (HI1 : Inv (B + inserted_bytes size [o]) c1) by (eapply shape_inv; eassumption).
    assert (Hnd1 : NoDup (keys c1)) by (eapply shape_nodup; eassumption).
    eapply Hcons with (B := B); try eassumption.
    apply IH with (B := B + inserted_bytes size [o]); try assumption. lia.
Qed.

Lemma init_nodup cap : NoDup (keys (with_capacity (V := V) cap)).
Proof. constructor. Qed.

Lemma run_Inv p ops : forall B c c2 outs,
  Inv B c -> NoDup (keys c) -> Forall (op_wf size) ops ->
  B + inserted_bytes size ops < two64 ->
  run p c ops = Ok (c2, outs) -> Inv (B + inserted_bytes size ops) c2 /\ NoDup (keys c2).
Proof.
  induction ops as [|o ops IH]; intros B c c2 outs HI Hnd Hwf HB Hrun.
  - cbn in *. inversion Hrun; subst. replace (B + 0) with B by lia. split; assumption.
  - cbn [CacheModel.run] in Hrun.
    destruct (step p c o) as [[c1 out]|] eqn:Hst; [|discriminate]. cbn [bind fst snd] in Hrun.
    destruct (run p c1 ops) as [[c3 outs']|] eqn:Hr; [|discriminate]. cbn in Hrun.
    inversion Hrun; subst.
    inversion Hwf as [|? ? Ho Hops]; subst.
    rewrite inserted_cons in *. pose proof (inserted_nonneg ops Hops).
    assert (Hsh : shape c o c1 out) by (eapply step_shape; [exact HI|exact Ho|lia|exact Hst]).
    rewrite Z.add_assoc. eapply IH; [| |exact Hops| |exact Hr].
    + eapply shape_inv; eassumption.
    + eapply shape_nodup; eassumption.
    + lia.
Qed.

(** ** C01: the byte budget, and no panic. *)
Lemma shape_fits B c o c' out :
  Inv B c -> NoDup (keys c) -> op_wf size o ->
  match o with Insert _ v => size v <= capacity c \/ capacity c = 0 | _ => True end ->
  shape c o c' out ->
  total_bytes (lru c) <= capacity c -> total_bytes (lru c') <= capacity c'.
Proof.
  intros (H1 & H2 & H3 & H4) Hnd Hwf Hfit Hsh Hc.
  inversion Hsh; subst; cbn [lru capacity after_insert after_drop with_cap op_wf] in *; try assumption;
    try match goal with H : lru c = _ ++ _ |- _ =>
          rewrite H in H1, H2, Hc; apply sizes_app in H1; destruct H1 as [H1a H1b];
          rewrite total_app in H2, Hc;
          pose proof (total_nonneg _ H1a); pose proof (total_nonneg _ H1b) end.
  - rewrite total_insert. pose proof (total_remove_le k rest H1b).
    destruct Hfit as [Hfit|Hfit]; [|contradiction].
    destruct (H5 Hfit) as [Hr|[Hr|[Hr1 Hr2]]]; subst; cbn [CacheSpec.total_bytes lhm_remove filter] in *; lia.
  - rewrite total_insert. erewrite total_remove_find by eassumption. lia.
  - lia.
  - cbn. lia.
  - lia.
  - destruct H0 as [Hr|Hr]; subst; cbn [CacheSpec.total_bytes] in *; lia.
Qed.

Lemma run_fits p ops : forall B c,
  Inv B c -> NoDup (keys c) -> Forall (op_wf size) ops ->
  B + inserted_bytes size ops < two64 ->
  no_oversized size (capacity c) ops ->
  total_bytes (lru c) <= capacity c ->
  exists c2 outs, run p c ops = Ok (c2, outs) /\ total_bytes (lru c2) <= capacity c2
             /\ capacity c2 = capacity_after (capacity c) ops.
Proof.
  induction ops as [|o ops IH]; intros B c HI Hnd Hwf HB Hno Hfit.
  - cbn. exists c, []. repeat split; assumption.
  - inversion Hwf as [|? ? Ho Hops]; subst.
    pose proof HB as HB'. rewrite inserted_cons in HB'. pose proof (inserted_nonneg ops Hops).
    assert (Hfo : match o with Insert _ v => size v <= capacity c \/ capacity c = 0 | _ => True end).
    { destruct o; cbn in Hno; tauto. }
    destruct (step_no_panic p B c o HI Ho) as (c1 & out & Hst); [lia|exact Hfo|].
    assert (Hsh : shape c o c1 out) by (eapply step_shape; [exact HI|exact Ho|lia|exact Hst]).
    pose proof (shape_capacity _ _ _ _ Hsh) as Hcap.
    destruct (IH (B + inserted_bytes size [o]) c1) as (c2 & outs & Hr & Hf & Hc2).
    + eapply shape_inv; eassumption.
    + eapply shape_nodup; eassumption.
    + exact Hops.
    + lia.
    + rewrite Hcap. destruct o; cbn in Hno |- *; tauto.
    + eapply shape_fits; eassumption.
    + exists c2, (out :: outs). cbn [CacheModel.run]. rewrite Hst. cbn [bind fst snd]. rewrite Hr.
      cbn. repeat split; [exact Hf|]. rewrite Hc2, Hcap. destruct o; reflexivity.
Qed.

(** ** C02: accounting. *)
Lemma run_exact p ops B c c2 outs :
  Inv B c -> NoDup (keys c) -> Forall (op_wf size) ops ->
  B + inserted_bytes size ops < two64 ->
  run p c ops = Ok (c2, outs) ->
  insert_after_miss size p c ops -> used c = total_bytes (lru c) -> used c2 = total_bytes (lru c2).
Proof.
  intros HI Hnd Hwf HB Hrun.
  revert HI Hnd Hwf HB. 
  refine (fun HI Hnd Hwf HB => run_ind_shape p
    (fun c ops c2 outs => insert_after_miss size p c ops -> used c = total_bytes (lru c) ->
                     used c2 = total_bytes (lru c2)) _ _ ops B c c2 outs HI Hnd Hwf HB Hrun).
  - intros; assumption.
  - intros B' c' o c1 out ops' c2' outs' HI' Hnd' Ho Hst Hsh HB' Hops HI1 Hnd1 Hr IH [Hmiss Hrest] Hu.
    rewrite Hst in Hrest. apply IH; [exact Hrest|]. clear IH Hrest Hr.
    inversion Hsh; subst; cbn [lru used capacity after_insert after_drop with_cap] in *; try assumption;
      try match goal with H : lru c' = _ ++ _ |- _ => pose proof H as Hl; rewrite H, total_app in Hu end; try lia.
    + rewrite total_insert, remove_absent; [lia|].
      unfold get, lhm_get_refresh in Hmiss. destruct (lhm_find k (lru c')) eqn:Hf; [discriminate|].
      apply find_None in Hf. rewrite Hl, map_app in Hf. intros Hin. apply Hf. apply in_or_app; right; exact Hin.
    + rewrite total_insert. erewrite total_remove_find by eassumption. exact Hu.
    + cbn [CacheSpec.total_bytes]. lia.
Qed.

Lemma total_displaced_split k l :
  total_bytes l = total_bytes (lhm_remove k l) + total_bytes (filter (fun e => fst e =? k) l).
Proof.
  rewrite (total_filter_split (fun e => fst e =? k) l). unfold lhm_remove. lia.
Qed.

Lemma skipn_app_exact {A} (l1 l2 : list A) : skipn (length l1) (l1 ++ l2) = l2.
Proof. induction l1; [reflexivity|]. cbn. assumption. Qed.

Lemma displaced_insert p c k v pre rest :
  capacity c <> 0 -> lru c = pre ++ rest ->
  step p c (Insert k v) = Ok (after_insert c pre rest k v, OUnit) ->
  displaced_by size p c (Insert k v) = filter (fun e => fst e =? k) rest.
Proof.
  intros Hc Hl Hst. unfold displaced_by. rewrite Hst.
  destruct (capacity c =? 0) eqn:E; [lia|]. unfold after_insert; cbn [evictions].
  replace (Z.to_nat (evictions c + Z.of_nat (length pre) - evictions c)) with (length pre) by lia.
  rewrite Hl, skipn_app_exact. reflexivity.
Qed.

Lemma run_accounting p ops B c c2 outs :
  Inv B c -> NoDup (keys c) -> Forall (op_wf size) ops ->
  B + inserted_bytes size ops < two64 ->
  run p c ops = Ok (c2, outs) ->
  used c2 - total_bytes (lru c2) =
  used c - total_bytes (lru c) + total_bytes (displaced size p c ops).
Proof.
  intros HI Hnd Hwf HB Hrun.
  refine (run_ind_shape p
    (fun c ops c2 outs => used c2 - total_bytes (lru c2) =
        used c - total_bytes (lru c) + total_bytes (displaced size p c ops)) _ _ ops B c c2 outs HI Hnd Hwf HB Hrun).
  - intros c'. cbn. lia.
  - intros B' c' o c1 out ops' c2' outs' HI' Hnd' Ho Hst Hsh HB' Hops HI1 Hnd1 Hr IH.
    cbn [displaced]. rewrite Hst, total_app, IH. clear IH Hr.
    enough (used c1 - total_bytes (lru c1) =
            used c' - total_bytes (lru c') + total_bytes (displaced_by size p c' o)) by lia.
    inversion Hsh; subst;
      cbn [lru used capacity after_insert after_drop with_cap] in *;
      try match goal with H : lru c' = _ ++ _ |- _ => pose proof H as Hl; rewrite H, total_app end;
      try (cbn [displaced_by CacheSpec.total_bytes]; lia).
    + unfold displaced_by. rewrite (proj2 (Z.eqb_eq _ _) H). cbn. lia.
    + erewrite displaced_insert by eassumption.
      rewrite total_insert, (total_displaced_split k rest). lia.
    + rewrite total_insert. erewrite total_remove_find by eassumption. cbn. lia.
Qed.

(** ** C03: lookups. *)
Lemma find_remove_same k l : lhm_find k (lhm_remove (V := V) k l) = None.
Proof.
  apply find_None. intros Hin. apply in_map_iff in Hin. destruct Hin as ([k' v'] & He & Hin).
  apply filter_In in Hin. cbn in *. lia.
Qed.

Lemma find_remove_other k k' l : k' <> k -> lhm_find k (lhm_remove (V := V) k' l) = lhm_find k l.
Proof.
  intros Hne. induction l as [|[k1 v1] l IH]; [reflexivity|]. cbn.
  destruct (k1 =? k') eqn:E1; cbn.
  - destruct (k1 =? k) eqn:E2; [lia|exact IH].
  - destruct (k1 =? k); [reflexivity|exact IH].
Qed.

Lemma find_app k (l1 l2 : list (Z * V)) :
  lhm_find k (l1 ++ l2) = match lhm_find k l1 with Some v => Some v | None => lhm_find k l2 end.
Proof.
  induction l1 as [|[k1 v1] l1 IH]; [reflexivity|]. cbn. destruct (k1 =? k); [reflexivity|exact IH].
Qed.

Lemma find_insert_same k v l : lhm_find k (lhm_insert (V := V) k v l) = Some v.
Proof. unfold lhm_insert. rewrite find_app, find_remove_same. cbn. now rewrite Z.eqb_refl. Qed.

Lemma find_insert_other k k' v l : k' <> k -> lhm_find k (lhm_insert (V := V) k' v l) = lhm_find k l.
Proof.
  intros Hne. unfold lhm_insert. rewrite find_app, find_remove_other by exact Hne.
  cbn. destruct (k' =? k) eqn:E; [lia|]. destruct (lhm_find k l); reflexivity.
Qed.

Lemma find_suffix k l1 (l2 : list (Z * V)) v :
  NoDup (map fst (l1 ++ l2)) -> lhm_find k l2 = Some v -> lhm_find k (l1 ++ l2) = Some v.
Proof.
  intros Hnd Hf. rewrite find_app. destruct (lhm_find k l1) as [v1|] eqn:H1; [|exact Hf].
  exfalso. apply find_In in H1. apply find_In in Hf. rewrite map_app in Hnd.
  apply in_map with (f := fst) in H1. apply in_map with (f := fst) in Hf. cbn in *.
  clear - Hnd H1 Hf. induction (map fst l1) as [|x t IH]; [destruct H1|].
  cbn in Hnd. inversion Hnd as [|? ? Hx Ht]; subst. destruct H1 as [->|H1].
  - apply Hx. apply in_or_app. right; exact Hf.
  - apply IH; assumption.
Qed.

Lemma run_lookup p ops B c c2 outs k v acc :
  Inv B c -> NoDup (keys c) -> Forall (op_wf size) ops ->
  B + inserted_bytes size ops < two64 ->
  run p c ops = Ok (c2, outs) ->
  (forall v0, lhm_find k (lru c) = Some v0 -> acc = Some v0) ->
  lhm_find k (lru c2) = Some v ->
  last_accepted (capacity c) k acc ops = Some v.
Proof.
  intros HI Hnd Hwf HB Hrun Hacc Hf. revert acc Hacc.
  refine (run_ind_shape p
    (fun c ops c2 outs => lhm_find k (lru c2) = Some v ->
       forall acc, (forall v0, lhm_find k (lru c) = Some v0 -> acc = Some v0) ->
       last_accepted (capacity c) k acc ops = Some v) _ _ ops B c c2 outs HI Hnd Hwf HB Hrun Hf).
  - intros c' Hf' acc Hacc. cbn. apply Hacc. exact Hf'.
  - intros B' c' o c1 out ops' c2' outs' HI' Hnd' Ho Hst Hsh HB' Hops HI1 Hnd1 Hr IH Hf2 acc Hacc.
    specialize (IH Hf2). pose proof (shape_capacity _ _ _ _ Hsh) as Hcap.
    unfold keys in Hnd'.
    inversion Hsh; subst; cbn [last_accepted capacity_after] in *; try rewrite Hcap in IH.
    + destruct (k0 =? k); cbn [andb]; [|apply IH; exact Hacc].
      rewrite (proj2 (Z.eqb_eq _ _) H). cbn [negb]. apply IH; exact Hacc.
    + (* Insert *)
      destruct (k0 =? k) eqn:E; cbn [andb].
      * assert (k0 = k) by lia. subst.
        replace (capacity c' =? 0) with false by lia. cbn [negb].
        apply IH. cbn [lru after_insert].
        intros v1 Hv1. rewrite find_insert_same in Hv1. exact Hv1.
      * apply IH. cbn [lru after_insert]. intros v1 Hv1.
        rewrite find_insert_other in Hv1 by lia. apply Hacc.
        rewrite H0 in Hnd' |- *. apply find_suffix; assumption.
    + (* hit *)
      apply IH. cbn [lru]. intros v1 Hv1. apply Hacc.
      destruct (Z.eq_dec k0 k) as [->|Hne].
      * rewrite find_insert_same in Hv1. congruence.
      * rewrite find_insert_other in Hv1 by exact Hne. exact Hv1.
    + apply IH. exact Hacc.
    + apply IH. cbn [lru after_drop]. intros v1 Hv1. apply Hacc.
      rewrite H in Hnd' |- *. apply find_suffix; assumption.
    + apply IH. cbn [lru after_drop]. intros v1 Hv1. discriminate.
    + apply IH. cbn [lru after_drop]. intros v1 Hv1. apply Hacc.
      rewrite H in Hnd' |- *. apply find_suffix; assumption.
    + apply IH. cbn [lru after_drop with_cap]. intros v1 Hv1. apply Hacc.
      rewrite H in Hnd' |- *. apply find_suffix; assumption.
Qed.

(** ** C04: recency. *)
Definition is_suffix {A} (l r : list A) : Prop := exists pre, r = pre ++ l.

Lemma touch_suffix k l r :
  is_suffix l r -> is_suffix (touch k l) (touch k r).
Proof.
  intros [pre ->]. exists (filter (fun k' => negb (k' =? k)) pre).
  unfold touch. rewrite filter_app, app_assoc. reflexivity.
Qed.

Lemma suffix_drop {A} (pre rest r : list A) : is_suffix (pre ++ rest) r -> is_suffix rest r.
Proof. intros [q ->]. exists (q ++ pre). now rewrite app_assoc. Qed.

Lemma run_recency p ops B c c2 outs acc :
  Inv B c -> NoDup (keys c) -> Forall (op_wf size) ops ->
  B + inserted_bytes size ops < two64 ->
  run p c ops = Ok (c2, outs) ->
  is_suffix (keys c) acc ->
  is_suffix (keys c2) (recency (capacity c) acc ops outs).
Proof.
  intros HI Hnd Hwf HB Hrun Hacc. revert acc Hacc.
  refine (run_ind_shape p
    (fun c ops c2 outs => forall acc, is_suffix (keys c) acc ->
       is_suffix (keys c2) (recency (capacity c) acc ops outs)) _ _ ops B c c2 outs HI Hnd Hwf HB Hrun).
  - intros c' acc Hacc. cbn. exact Hacc.
  - intros B' c' o c1 out ops' c2' outs' HI' Hnd' Ho Hst Hsh HB' Hops HI1 Hnd1 Hr IH acc Hacc.
    pose proof (shape_capacity _ _ _ _ Hsh) as Hcap. unfold keys in *.
    inversion Hsh; subst; cbn [recency capacity_after] in *; try rewrite Hcap in IH.
    + rewrite (proj2 (Z.eqb_eq _ _) H). apply IH. exact Hacc.
    + replace (capacity c' =? 0) with false by lia. apply IH. cbn [lru after_insert].
      rewrite keys_insert. apply touch_suffix. rewrite H0, map_app in Hacc. eapply suffix_drop; exact Hacc.
    + apply IH. cbn [lru]. rewrite keys_insert. apply touch_suffix. exact Hacc.
    + apply IH. exact Hacc.
    + apply IH. cbn [lru after_drop]. rewrite H, map_app in Hacc. eapply suffix_drop; exact Hacc.
    + apply IH. cbn [lru after_drop]. exists acc. cbn. now rewrite app_nil_r.
    + apply IH. cbn [lru after_drop]. rewrite H, map_app in Hacc. eapply suffix_drop; exact Hacc.
    + apply IH. cbn [lru after_drop with_cap]. rewrite H, map_app in Hacc. eapply suffix_drop; exact Hacc.
Qed.

(** ** C08: counters. *)
Lemma length_remove_split k (l : list (Z * V)) :
  length l = (length (lhm_remove k l) + length (filter (fun e => (fst e =? k)%Z) l))%nat.
Proof.
  induction l as [|[k' v'] l IH]; [reflexivity|]. unfold lhm_remove in *. cbn.
  destruct (k' =? k); cbn; lia.
Qed.

Lemma remove_find_length k (l : list (Z * V)) v :
  NoDup (map fst l) -> lhm_find k l = Some v -> length (lhm_insert (V := V) k v l) = length l.
Proof.
  intros Hnd Hf.
  enough (H : Permutation (map fst (lhm_insert k v l)) (map fst l)).
  { apply Permutation_length in H. now rewrite !map_length in H. }
  rewrite keys_insert. apply NoDup_Permutation; [apply NoDup_touch; exact Hnd|exact Hnd|].
  intros x. unfold touch. rewrite in_app_iff, filter_In. cbn. split.
  - intros [[H _]|[H|[]]]; [exact H|]. subst. apply find_In in Hf.
    apply in_map with (f := fst) in Hf. exact Hf.
  - intros H. destruct (Z.eq_dec x k) as [->|Hne]; [right; left; reflexivity|left; split; [exact H|lia]].
Qed.

Lemma run_counters p ops B c c2 outs :
  Inv B c -> NoDup (keys c) -> Forall (op_wf size) ops ->
  B + inserted_bytes size ops < two64 ->
  run p c ops = Ok (c2, outs) ->
  hits c2 + misses c2 = hits c + misses c + count_gets ops /\
  inserts c2 = inserts c + accepted_inserts (capacity c) ops /\
  len c2 + evictions c2 + Z.of_nat (length (displaced size p c ops)) =
    len c + evictions c + accepted_inserts (capacity c) ops.
Proof.
  intros HI Hnd Hwf HB Hrun.
  refine (run_ind_shape p
    (fun c ops c2 outs =>
       hits c2 + misses c2 = hits c + misses c + count_gets ops /\
       inserts c2 = inserts c + accepted_inserts (capacity c) ops /\
       len c2 + evictions c2 + Z.of_nat (length (displaced size p c ops)) =
         len c + evictions c + accepted_inserts (capacity c) ops) _ _ ops B c c2 outs HI Hnd Hwf HB Hrun).
  - intros c'. cbn. lia.
  - intros B' c' o c1 out ops' c2' outs' HI' Hnd' Ho Hst Hsh HB' Hops HI1 Hnd1 Hr (IH1 & IH2 & IH3).
    cbn [displaced]. rewrite Hst, app_length. pose proof (shape_capacity _ _ _ _ Hsh) as Hcap.
    clear Hr. unfold len in *.
    assert (Hd : Z.of_nat (length (lru c1)) + evictions c1 + Z.of_nat (length (displaced_by size p c' o))
                 = Z.of_nat (length (lru c')) + evictions c' + accepted_inserts (capacity c') [o]).
    { inversion Hsh; subst; cbn [accepted_inserts];
        cbn [lru evictions capacity after_insert after_drop with_cap] in *;
        try match goal with H : lru c' = _ ++ _ |- _ => pose proof H as Hl; rewrite H, app_length end;
        try (cbn [displaced_by length]; lia).
      - unfold displaced_by. rewrite (proj2 (Z.eqb_eq _ _) H). cbn. lia.
      - erewrite displaced_insert by eassumption.
        replace (capacity c' =? 0) with false by lia.
        unfold lhm_insert. rewrite app_length. rewrite (length_remove_split k rest). cbn. lia.
      - unfold keys in *. erewrite remove_find_length by eassumption. cbn. lia. }
    inversion Hsh; subst; cbn [count_gets accepted_inserts capacity_after] in *; try rewrite Hcap in *;
      cbn [hits misses inserts after_insert after_drop with_cap] in *;
      repeat match goal with H : context [if ?b then _ else _] |- _ => destruct b eqn:? end; lia.
Qed.

(** Reachable states and minimal eviction (C06). *)
Lemma get_permutation c k : NoDup (keys c) -> Permutation (lru (fst (get c k))) (lru c).
Proof.
  intros Hnd. unfold get, lhm_get_refresh.
  destruct (lhm_find k (lru c)) as [v|] eqn:Hf; cbn [fst lru]; [|reflexivity].
  unfold keys in Hnd. unfold lhm_remove.
  induction (lru c) as [|[k' v'] l IH]; [discriminate|].
  cbn in Hf. cbn [filter fst]. cbn in Hnd. inversion Hnd as [|? ? Hni Hnd']; subst.
  destruct (k' =? k) eqn:E; cbn [negb].
  - inversion Hf; subst. assert (k' = k) by lia. subst.
    fold (@lhm_remove V k l). rewrite remove_absent by exact Hni.
    symmetry. apply Permutation_cons_append.
  - cbn [app]. constructor. apply IH; assumption.
Qed.

End Proofs.

(** ** Release builds agree with debug builds that do not panic. *)
Section Profiles.
Context {V : Type}.
Variable size : V -> Z.

Definition refines {A} (a b : Res A) : Prop := forall x, a = Ok x -> b = Ok x.

Lemma refines_refl {A} (a : Res A) : refines a a.
Proof. intros x H. exact H. Qed.

Lemma refines_bind {A B} (a b : Res A) (f g : A -> Res B) :
  refines a b -> (forall x, refines (f x) (g x)) -> refines (bind a f) (bind b g).
Proof.
  intros Hab Hfg y Hy. destruct a as [x|]; [|discriminate]. cbn in Hy.
  rewrite (Hab x eq_refl). cbn. apply Hfg. exact Hy.
Qed.

Lemma refines_u64 z : refines (u64_of Debug z) (u64_of Release z).
Proof. intros x H. unfold u64_of in *. destruct (in_u64 z); [exact H|discriminate]. Qed.

Lemma refines_evict c : refines (evict size Debug c) (evict size Release c).
Proof.
  unfold evict. destruct (lru c) as [|[k v] l]; [apply refines_refl|].
  apply refines_bind; [apply refines_u64|]. intros x. apply refines_refl.
Qed.

Lemma refines_evict_while g n : forall c,
  refines (evict_while size Debug g n c) (evict_while size Release g n c).
Proof.
  induction n as [|n IH]; intros c; cbn [evict_while]; [apply refines_refl|].
  destruct (g (used c)); [|apply refines_refl].
  apply refines_bind; [apply refines_evict|]. intros r. apply IH.
Qed.

Lemma refines_evict_bytes c n : refines (evict_bytes size Debug c n) (evict_bytes size Release c n).
Proof.
  unfold evict_bytes. destruct (len c =? 0); [apply refines_refl|].
  destruct (used c =? 0); [apply refines_refl|].
  destruct (capacity c =? 0); [apply refines_evict_while|].
  apply refines_bind; [destruct (used c <? n); [apply refines_refl|apply refines_u64]|].
  intros x. apply refines_evict_while.
Qed.

Lemma refines_step c o : refines (step size Debug c o) (step size Release c o).
Proof.
  destruct o; cbn [step].
  - apply refines_bind; [|intros x; apply refines_refl]. unfold insert.
    destruct (capacity c =? 0); [apply refines_refl|].
    apply refines_bind; [apply refines_u64|]. intros e.
    apply refines_bind.
    + destruct (capacity c <=? e); [|apply refines_refl].
      apply refines_bind; [apply refines_u64|]. intros r.
      apply refines_bind; [apply refines_u64|]. intros f. apply refines_evict_bytes.
    + intros c1. apply refines_bind; [apply refines_u64|]. intros u. apply refines_refl.
  - apply refines_refl.
  - apply refines_bind; [apply refines_evict|]. intros x; apply refines_refl.
  - apply refines_bind; [apply refines_evict_while|]. intros x; apply refines_refl.
  - apply refines_bind; [apply refines_evict_bytes|]. intros x; apply refines_refl.
  - apply refines_bind; [|intros x; apply refines_refl]. unfold set_capacity.
    apply refines_bind; [|intros x; apply refines_refl].
    destruct (n <? used c); [|apply refines_refl].
    apply refines_bind; [apply refines_u64|]. intros f. apply refines_evict_bytes.
Qed.

Lemma refines_run ops : forall c, refines (run size Debug c ops) (run size Release c ops).
Proof.
  induction ops as [|o ops IH]; intros c; cbn [run]; [apply refines_refl|].
  apply refines_bind; [apply refines_step|]. intros r.
  apply refines_bind; [apply IH|]. intros r'. apply refines_refl.
Qed.

End Profiles.

(** ** Statements in the form used by the property file. *)
Section Final.
Context {V : Type}.
Variable size : V -> Z.

Lemma budget_final p cap (ops : list (op V)) :
  0 <= cap < two64 -> history_wf size ops -> no_oversized size cap ops ->
  exists c outs,
    run size p (with_capacity cap) ops = Ok (c, outs) /\
    capacity c = capacity_after cap ops /\
    total_bytes size (lru c) <= capacity c.
Proof.
  intros Hcap [Hwf HB] Hno.
  destruct (run_fits size p ops 0 (with_capacity cap)) as (c & outs & H1 & H2 & H3); auto.
  - apply Inv_init; exact Hcap.
  - apply init_nodup.
  - cbn. lia.
  - exists c, outs. repeat split; assumption.
Qed.

Lemma exact_final p cap (ops : list (op V)) c outs :
  0 <= cap < two64 -> history_wf size ops ->
  run size p (with_capacity cap) ops = Ok (c, outs) ->
  insert_after_miss size p (with_capacity cap) ops ->
  used c = total_bytes size (lru c).
Proof.
  intros Hcap [Hwf HB] Hrun Hd.
  apply (run_exact size p ops 0 (with_capacity cap) c outs); auto.
  - apply Inv_init; exact Hcap.
  - apply init_nodup.
Qed.

Lemma inv_final p cap (ops : list (op V)) c outs :
  0 <= cap < two64 -> history_wf size ops ->
  run size p (with_capacity cap) ops = Ok (c, outs) ->
  Inv size (inserted_bytes size ops) c /\ NoDup (keys c).
Proof.
  intros Hcap [Hwf HB] Hrun.
  apply (run_Inv size p ops 0 (with_capacity cap) c outs); auto.
  - apply Inv_init; exact Hcap.
  - apply init_nodup.
Qed.

Lemma lower_final p cap (ops : list (op V)) c outs :
  0 <= cap < two64 -> history_wf size ops ->
  run size p (with_capacity cap) ops = Ok (c, outs) ->
  total_bytes size (lru c) <= used c < two64.
Proof.
  intros Hcap Hwf Hrun. destruct (inv_final p cap ops c outs Hcap Hwf Hrun) as [(H1 & H2 & H3 & H4) _].
  destruct Hwf. lia.
Qed.

Lemma accounting_final p cap (ops : list (op V)) c outs :
  0 <= cap < two64 -> history_wf size ops ->
  run size p (with_capacity cap) ops = Ok (c, outs) ->
  used c = total_bytes size (lru c) + total_bytes size (displaced size p (with_capacity cap) ops).
Proof.
  intros Hcap [Hwf HB] Hrun.
  pose proof (run_accounting size p ops 0 (with_capacity cap) c outs
               (Inv_init size cap Hcap) (init_nodup cap) Hwf ltac:(cbn [inserted_bytes]; lia) Hrun) as H.
  cbn [used lru with_capacity total_bytes] in H. lia.
Qed.

Lemma get_find (c : cache V) k : snd (get c k) = lhm_find k (lru c).
Proof. unfold get, lhm_get_refresh. destruct (lhm_find k (lru c)); reflexivity. Qed.

Lemma lookup_final p cap (ops : list (op V)) c outs k v :
  0 <= cap < two64 -> history_wf size ops ->
  run size p (with_capacity cap) ops = Ok (c, outs) ->
  snd (get c k) = Some v -> last_accepted cap k None ops = Some v.
Proof.
  intros Hcap [Hwf HB] Hrun Hg. rewrite get_find in Hg.
  apply (run_lookup size p ops 0 (with_capacity cap) c outs k v None
           (Inv_init size cap Hcap) (init_nodup cap) Hwf ltac:(cbn [inserted_bytes]; lia) Hrun); [|exact Hg].
  cbn. discriminate.
Qed.

Lemma insert_lru p (c c1 : cache V) k v :
  capacity c <> 0 -> insert size p c k v = Ok c1 ->
  exists l, lru c1 = lhm_insert k v l.
Proof.
  intros Hc Hi. unfold insert in Hi. destruct (capacity c =? 0) eqn:E; [lia|].
  destruct (add_u64 p (used c) (size v)) as [e|]; [|discriminate]. cbn [bind] in Hi.
  destruct (if capacity c <=? e then _ else _) as [c2|]; [|discriminate]. cbn [bind] in Hi.
  destruct (add_u64 p (used c2) (size v)) as [u|]; [|discriminate]. cbn [bind] in Hi.
  inversion Hi; subst. cbn. eexists; reflexivity.
Qed.

Lemma insert_then_get p (c c1 : cache V) k v :
  capacity c <> 0 -> insert size p c k v = Ok c1 -> snd (get c1 k) = Some v.
Proof.
  intros Hc Hi. destruct (insert_lru p c c1 k v Hc Hi) as [l Hl].
  rewrite get_find, Hl. apply (find_insert_same size).
Qed.

Lemma get_retains_final p cap (ops : list (op V)) c outs k :
  0 <= cap < two64 -> history_wf size ops ->
  run size p (with_capacity cap) ops = Ok (c, outs) ->
  Permutation (lru (fst (get c k))) (lru c).
Proof.
  intros Hcap Hwf Hrun. apply (get_permutation size). exact (proj2 (inv_final p cap ops c outs Hcap Hwf Hrun)).
Qed.

Lemma recency_final p cap (ops : list (op V)) c outs :
  0 <= cap < two64 -> history_wf size ops ->
  run size p (with_capacity cap) ops = Ok (c, outs) ->
  NoDup (map fst (lru c)) /\
  exists older, recency cap [] ops outs = older ++ map fst (lru c).
Proof.
  intros Hcap Hwf Hrun. split; [exact (proj2 (inv_final p cap ops c outs Hcap Hwf Hrun))|].
  destruct Hwf as [Hwf HB].
  apply (run_recency size p ops 0 (with_capacity cap) c outs []
           (Inv_init size cap Hcap) (init_nodup cap) Hwf ltac:(cbn [inserted_bytes]; lia) Hrun).
  exists []. reflexivity.
Qed.

Lemma inserted_app (l1 l2 : list (op V)) :
  inserted_bytes size (l1 ++ l2) = inserted_bytes size l1 + inserted_bytes size l2.
Proof. induction l1 as [|o l1 IH]; [reflexivity|]. destruct o; cbn [app inserted_bytes]; lia. Qed.

Lemma oversized_debug_final cap (ops : list (op V)) c outs k v :
  0 <= cap < two64 -> history_wf size ops ->
  run size Debug (with_capacity cap) ops = Ok (c, outs) ->
  0 < capacity c < size v -> insert size Debug c k v = Panic.
Proof.
  intros Hcap Hwf Hrun Hv. apply insert_oversized_debug; [exact Hv|].
  destruct (inv_final Debug cap ops c outs Hcap Hwf Hrun) as [(H1 & H2 & H3 & H4) _].
  pose proof (total_nonneg size _ H1). lia.
Qed.

Lemma oversized_release_final cap (ops : list (op V)) c outs k v :
  0 <= cap < two64 -> history_wf size (ops ++ [Insert k v]) ->
  run size Release (with_capacity cap) ops = Ok (c, outs) ->
  0 < capacity c < size v ->
  exists c', insert size Release c k v = Ok c' /\
    capacity c' = capacity c /\ total_bytes size (lru c') = size v.
Proof.
  intros Hcap [Hwf HB] Hrun Hv. apply Forall_app in Hwf. destruct Hwf as [Hwf Hwf1].
  assert (Happ : inserted_bytes size (ops ++ [Insert k v]) = inserted_bytes size ops + size v).
  { rewrite inserted_app. cbn. lia. }
  rewrite Happ in HB. inversion Hwf1 as [|? ? Hv0 _]; subst. cbn in Hv0.
  destruct (inv_final Release cap ops c outs Hcap) as [HI Hnd]; [split; [assumption|lia]|exact Hrun|].
  destruct (insert_oversized_release size (inserted_bytes size ops) c k v) as (pre & rest & H1 & H2 & H3);
    try assumption; try lia.
  exists (after_insert size c pre rest k v). split; [exact H3|]. split; [reflexivity|].
  cbn [lru after_insert]. rewrite total_insert.
  destruct HI as (K1 & _). rewrite H1 in K1. apply sizes_app in K1.
  pose proof (total_remove_le size k rest (proj2 K1)).
  pose proof (total_nonneg size _ (sizes_filter size (fun e => negb (fst e =? k)) _ (proj2 K1))).
  unfold lhm_remove in *. lia.
Qed.

Lemma minimal_final p cap (ops : list (op V)) c outs k v :
  0 <= cap < two64 -> history_wf size (ops ++ [Insert k v]) ->
  run size p (with_capacity cap) ops = Ok (c, outs) ->
  0 < capacity c -> size v <= capacity c ->
  exists evicted kept c',
    lru c = evicted ++ kept /\
    insert size p c k v = Ok c' /\
    lru c' = filter (fun e => negb (fst e =? k)) kept ++ [(k, v)] /\
    (used c + size v < capacity c -> evicted = []) /\
    (forall pre e post, evicted = pre ++ e :: post ->
       capacity c <= used c - total_bytes size pre + size v).
Proof.
  intros Hcap [Hwf HB] Hrun Hc Hv. apply Forall_app in Hwf. destruct Hwf as [Hwf Hwf1].
  assert (Happ : inserted_bytes size (ops ++ [Insert k v]) = inserted_bytes size ops + size v).
  { rewrite inserted_app. cbn. lia. }
  rewrite Happ in HB. inversion Hwf1 as [|? ? Hv0 _]; subst. cbn in Hv0.
  destruct (inv_final p cap ops c outs Hcap) as [HI Hnd]; [split; [assumption|lia]|exact Hrun|].
  destruct (insert_spec size p (inserted_bytes size ops) c k v) as (pre & rest & H1 & H2 & H3 & H4 & H5);
    try assumption; try lia.
  exists pre, rest, (after_insert size c pre rest k v). repeat split; assumption.
Qed.

Lemma shrink_final p cap (ops : list (op V)) c outs n c' :
  0 <= cap < two64 -> history_wf size ops -> 0 <= n < two64 ->
  run size p (with_capacity cap) ops = Ok (c, outs) ->
  set_capacity size p c n = Ok c' ->
  capacity c' = n /\ total_bytes size (lru c') <= n.
Proof.
  intros Hcap Hwf Hn Hrun Hs.
  destruct (inv_final p cap ops c outs Hcap Hwf Hrun) as [HI Hnd].
  assert (Hst : step size p c (SetCapacity n) = Ok (c', OUnit)) by (cbn; rewrite Hs; reflexivity).
  destruct Hwf as [Hwf HB].
  pose proof (step_shape size p _ c (SetCapacity n) c' OUnit HI Hn ltac:(cbn [inserted_bytes]; lia) Hst) as Hsh.
  inversion Hsh; subst. split; [reflexivity|]. cbn [lru with_cap after_drop].
  destruct HI as (K1 & K2 & _). match goal with H : lru c = _ ++ _ |- _ => rewrite H in K1, K2 end.
  apply sizes_app in K1. rewrite total_app in K2. pose proof (total_nonneg size _ (proj2 K1)).
  match goal with H : _ \/ _ |- _ => destruct H as [Hr|Hr] end; subst; cbn [total_bytes] in *; lia.
Qed.

Lemma shrink_no_panic p cap (ops : list (op V)) c outs n :
  0 <= cap < two64 -> history_wf size ops -> 0 <= n < two64 ->
  run size p (with_capacity cap) ops = Ok (c, outs) ->
  exists c', set_capacity size p c n = Ok c'.
Proof.
  intros Hcap Hwf Hn Hrun.
  destruct (inv_final p cap ops c outs Hcap Hwf Hrun) as [HI Hnd].
  destruct Hwf as [Hwf HB].
  destruct (step_no_panic size p _ c (SetCapacity n) HI Hn ltac:(cbn [inserted_bytes]; lia) I) as (c' & o & Hst).
  cbn in Hst. destruct (set_capacity size p c n) as [c1|]; [exists c1; reflexivity|discriminate].
Qed.

Lemma zero_capacity_final p (ops : list (op V)) c outs :
  (forall n, ~ In (SetCapacity n) ops) ->
  run size p (with_capacity 0) ops = Ok (c, outs) -> lru c = [].
Proof.
  assert (G : forall c0, capacity c0 = 0 -> lru c0 = [] ->
              (forall n, ~ In (SetCapacity n) ops) ->
              run size p c0 ops = Ok (c, outs) -> lru c = []).
  { revert c outs. induction ops as [|o ops IH]; intros c outs c0 Hc Hl Hn Hrun.
    - cbn in Hrun. inversion Hrun; subst. exact Hl.
    - cbn [run] in Hrun. destruct (step size p c0 o) as [[c1 out1]|] eqn:Hst; [|discriminate].
      cbn [bind fst snd] in Hrun. destruct (run size p c1 ops) as [[c2 outs2]|] eqn:Hr; [|discriminate].
      cbn in Hrun. inversion Hrun; subst.
      assert (H1 : capacity c1 = 0 /\ lru c1 = []).
      { destruct o as [k v|k| | |n|n]; cbn [step] in Hst.
        - unfold insert in Hst. rewrite (proj2 (Z.eqb_eq _ _) Hc) in Hst. cbn in Hst.
          inversion Hst; subst. split; assumption.
        - unfold get, lhm_get_refresh in Hst. rewrite Hl in Hst. cbn in Hst. inversion Hst; subst.
          split; [assumption|reflexivity].
        - unfold evict in Hst. rewrite Hl in Hst. cbn in Hst. inversion Hst; subst. split; assumption.
        - unfold evict_all in Hst. rewrite Hl in Hst. cbn in Hst. inversion Hst; subst. split; assumption.
        - unfold evict_bytes, len in Hst. rewrite Hl in Hst. cbn in Hst. inversion Hst; subst. split; assumption.
        - exfalso. apply (Hn n). left; reflexivity. }
      destruct H1 as [H1 H2]. eapply IH; [exact H1|exact H2| |exact Hr].
      intros n Hin. apply (Hn n). right; exact Hin. }
  intros Hn Hrun. apply (G (with_capacity 0)); [reflexivity|reflexivity|exact Hn|exact Hrun].
Qed.

Lemma counters_final p cap (ops : list (op V)) c outs :
  0 <= cap < two64 -> history_wf size ops ->
  run size p (with_capacity cap) ops = Ok (c, outs) ->
  hits c + misses c = count_gets ops /\
  inserts c = accepted_inserts cap ops /\
  len c = accepted_inserts cap ops
          - Z.of_nat (length (displaced size p (with_capacity cap) ops)) - evictions c.
Proof.
  intros Hcap [Hwf HB] Hrun.
  destruct (run_counters size p ops 0 (with_capacity cap) c outs
           (Inv_init size cap Hcap) (init_nodup cap) Hwf ltac:(cbn [inserted_bytes]; lia) Hrun) as (H1 & H2 & H3).
  cbn [hits misses inserts evictions with_capacity capacity len lru length] in *. 
  unfold len in H3 at 2. cbn in H3. lia.
Qed.

End Final.

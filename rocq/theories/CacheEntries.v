(** Entries of the cache: no call brings in anything but what it inserts. *)
From Verif Require Import Machine Loops CacheModel CacheProofs.

Section Entries.
Context {V : Type}.
Variable size : V -> Z.
Implicit Types c : cache V.

Definition within c c' : Prop := forall e, In e (lru c') -> In e (lru c).

Lemma within_refl c : within c c.
Proof. intros e H. exact H. Qed.

Lemma evict_within p c c' b : evict size p c = Ok (c', b) -> within c c'.
Proof.
  unfold evict. destruct (lru c) as [|[k v] rest] eqn:E.
  - intro H. assert (c' = c) by congruence. subst. apply within_refl.
  - intro H. apply bind_ok in H. destruct H as (u & _ & H). intros e I. rewrite E.
    assert (L : lru c' = rest) by (injection H as <- _; reflexivity). rewrite L in I. now right.
Qed.

Lemma evict_while_within p g n : forall c c', evict_while size p g n c = Ok c' -> within c c'.
Proof.
  induction n as [|n IH]; intros c c' H; cbn [evict_while] in H.
  - assert (c' = c) by congruence. subst. apply within_refl.
  - destruct (g (used c)).
    + apply bind_ok in H. destruct H as ([c1 b] & E & H). intros e I.
      eapply (evict_within p c c1 b E). eapply IH; eassumption.
    + assert (c' = c) by congruence. subst. apply within_refl.
Qed.

Lemma evict_bytes_within p c n c' : evict_bytes size p c n = Ok c' -> within c c'.
Proof.
  unfold evict_bytes, evict_all. intro H.
  destruct (len c =? 0); [assert (c' = c) by congruence; subst; apply within_refl|].
  destruct (used c =? 0); [assert (c' = c) by congruence; subst; apply within_refl|].
  destruct (capacity c =? 0); [eapply evict_while_within; eassumption|].
  apply bind_ok in H. destruct H as (r & _ & H). eapply evict_while_within; eassumption.
Qed.

Lemma insert_entries p c k v c' : insert size p c k v = Ok c' ->
  forall e, In e (lru c') -> e = (k, v) \/ In e (lru c).
Proof.
  unfold insert. intros H e I.
  destruct (capacity c =? 0); [assert (c' = c) by congruence; subst; now right|].
  apply bind_ok in H. destruct H as (x & _ & H). apply bind_ok in H. destruct H as (c1 & E1 & H).
  apply bind_ok in H. destruct H as (u & _ & H).
  assert (L : lru c' = lhm_insert k v (lru c1)) by (injection H as <-; reflexivity).
  rewrite L in I. unfold lhm_insert in I. apply in_app_or in I. destruct I as [I|[<-|[]]]; [|now left].
  apply filter_In in I. destruct I as (I & _). right. revert E1 I.
  destruct (capacity c <=? x).
  - intros E1. apply bind_ok in E1. destruct E1 as (y & _ & E1). apply bind_ok in E1. destruct E1 as (z & _ & E1).
    apply (evict_bytes_within p c z c1 E1).
  - intros E1 I. assert (c1 = c) by congruence. now subst.
Qed.

Lemma get_entries c k : forall e, In e (lru (fst (get c k))) -> In e (lru c).
Proof.
  intros e. unfold get, lhm_get_refresh. destruct (lhm_find k (lru c)) as [v|] eqn:F; cbn [fst lru]; [|auto].
  intro I. apply in_app_or in I. destruct I as [I|[<-|[]]].
  - apply filter_In in I. apply I.
  - now apply find_In.
Qed.

Lemma get_some c k c' v : get c k = (c', Some v) -> In (k, v) (lru c) /\ within c c'.
Proof.
  intro H. split.
  - pose proof (get_find c k) as G. rewrite H in G. cbn [snd] in G. now apply find_In.
  - intros e I. apply (get_entries c k). now rewrite H.
Qed.
Lemma get_none c k c' : get c k = (c', None) -> within c c'.
Proof. intros H e I. apply (get_entries c k). now rewrite H. Qed.

Lemma set_capacity_within p c n c' : set_capacity size p c n = Ok c' -> within c c'.
Proof.
  unfold set_capacity. intro H. apply bind_ok in H. destruct H as (c1 & E & H).
  assert (L : lru c' = lru c1) by (injection H as <-; reflexivity). intros e I. rewrite L in I.
  destruct (n <? used c).
  - apply bind_ok in E. destruct E as (y & _ & E). exact (evict_bytes_within p c y c1 E e I).
  - assert (c1 = c) by congruence. now subst.
Qed.

(** Entries after any call: old ones, or the pair just inserted. *)
Theorem step_entries p c o c' r : step size p c o = Ok (c', r) ->
  forall e, In e (lru c') -> In e (lru c) \/ exists k v, o = Insert k v /\ e = (k, v).
Proof.
  intros H e I. destruct o as [k v|k| | |n|n]; cbn [step] in H.
  - apply bind_ok in H. destruct H as (c1 & E & H). assert (c1 = c') by congruence. subst c1.
    destruct (insert_entries p c k v c' E e I) as [->|J]; [right; eauto|now left].
  - destruct (get c k) as [c1 o1] eqn:G. assert (c1 = c') by congruence. subst c1.
    left. apply (get_entries c k). now rewrite G.
  - apply bind_ok in H. destruct H as ([c1 b] & E & H). cbn [fst snd] in H. assert (c1 = c') by congruence. subst c1.
    left. exact (evict_within p c c' b E e I).
  - apply bind_ok in H. destruct H as (c1 & E & H). assert (c1 = c') by congruence. subst c1.
    left. exact (evict_while_within p _ _ c c' E e I).
  - apply bind_ok in H. destruct H as (c1 & E & H). assert (c1 = c') by congruence. subst c1.
    left. exact (evict_bytes_within p c n c' E e I).
  - apply bind_ok in H. destruct H as (c1 & E & H). assert (c1 = c') by congruence. subst c1.
    left. exact (set_capacity_within p c n c' E e I).
Qed.
End Entries.

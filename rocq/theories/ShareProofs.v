From Coq Require Import Lia.
From Verif Require Import Machine ShareModel ShareSpec.

Section Share.
Context {V : Type}.
Notation heap := (heap V). Notation action := (action V).

Lemma put_length {A} i (a : A) l : length (put i a l) = length l.
Proof. revert i. induction l as [|b t IH]; intros [|i]; cbn [put length]; [reflexivity..|]. now rewrite IH. Qed.
Lemma nth_put {A} i j (a : A) l : (i < length l)%nat -> nth_error (put i a l) j = if (j =? i)%nat then Some a else nth_error l j.
Proof.
  revert i j. induction l as [|b t IH]; intros i j L; cbn [length] in L; [lia|].
  destruct i as [|i], j as [|j]; cbn [put nth_error Nat.eqb]; try reflexivity. apply IH. lia.
Qed.
Lemma at_some {A} i (l : list (option A)) a : at_ i l = Some a <-> nth_error l i = Some (Some a).
Proof.
  unfold at_. destruct (nth_error l i) as [[b|]|]; split; intro H; try discriminate H; [injection H as ->; reflexivity|injection H as ->; reflexivity].
Qed.
Lemma at_lt {A} i (l : list (option A)) a : at_ i l = Some a -> (i < length l)%nat.
Proof. intro H. apply at_some in H. apply nth_error_Some. congruence. Qed.
Lemma at_put {A} i j (o : option A) l : (i < length l)%nat -> at_ j (put i o l) = if (j =? i)%nat then o else at_ j l.
Proof. intro L. unfold at_. rewrite nth_put by exact L. now destruct (j =? i)%nat. Qed.
Lemma at_app {A} j (l : list (option A)) o : at_ j (l ++ [o]) = if (j =? length l)%nat then o else at_ j l.
Proof.
  unfold at_. destruct (Nat.eqb_spec j (length l)) as [->|N].
  - rewrite nth_error_app2, Nat.sub_diag by lia. reflexivity.
  - destruct (Nat.lt_ge_cases j (length l)) as [L|L]; [now rewrite nth_error_app1|].
    rewrite nth_error_app2 by lia. destruct (j - length l)%nat as [|k] eqn:E; [lia|]. cbn [nth_error].
    rewrite (proj2 (nth_error_None l j)) by lia. now destruct k.
Qed.

(** How many holders of a cell, how many holders, and the sum of the counts. *)
Definition is (a : nat) (o : option nat) : nat := match o with Some b => if (b =? a)%nat then 1 else 0 | None => 0 end.
Fixpoint count (a : nat) (l : list (option nat)) : nat := match l with [] => 0 | o :: t => is a o + count a t end.
Definition one {A} (o : option A) : nat := match o with Some _ => 1 | None => 0 end.
Fixpoint many {A} (l : list (option A)) : nat := match l with [] => 0 | o :: t => one o + many t end.
Definition weight1 (o : option (nat * V)) : nat := match o with Some (n, _) => n | None => 0 end.
Fixpoint weight (l : list (option (nat * V))) : nat := match l with [] => 0 | o :: t => weight1 o + weight t end.

Lemma count_app a l o : count a (l ++ [o]) = (count a l + is a o)%nat.
Proof. induction l as [|p t IH]; cbn [app count]; lia. Qed.
Lemma many_app {A} l (o : option A) : many (l ++ [o]) = (many l + one o)%nat.
Proof. induction l as [|p t IH]; cbn [app many]; lia. Qed.
Lemma weight_app l o : weight (l ++ [o]) = (weight l + weight1 o)%nat.
Proof. induction l as [|p t IH]; cbn [app weight]; lia. Qed.
Lemma count_put a i o l : (i < length l)%nat -> (count a (put i o l) + is a (at_ i l) = count a l + is a o)%nat.
Proof.
  revert i. induction l as [|p t IH]; intros i L; cbn [length] in L; [lia|]. destruct i as [|i]; cbn [put count]; [unfold at_; cbn [nth_error]; lia|].
  specialize (IH i ltac:(lia)). unfold at_ in *. cbn [nth_error]. lia.
Qed.
Lemma many_put {A} i (o : option A) l : (i < length l)%nat -> (many (put i o l) + one (at_ i l) = many l + one o)%nat.
Proof.
  revert i. induction l as [|p t IH]; intros i L; cbn [length] in L; [lia|]. destruct i as [|i]; cbn [put many]; [unfold at_; cbn [nth_error]; lia|].
  specialize (IH i ltac:(lia)). unfold at_ in *. cbn [nth_error]. lia.
Qed.
Lemma weight_put i o l : (i < length l)%nat -> (weight (put i o l) + weight1 (at_ i l) = weight l + weight1 o)%nat.
Proof.
  revert i. induction l as [|p t IH]; intros i L; cbn [length] in L; [lia|]. destruct i as [|i]; cbn [put weight]; [unfold at_; cbn [nth_error]; lia|].
  specialize (IH i ltac:(lia)). unfold at_ in *. cbn [nth_error]. lia.
Qed.
Lemma count_pos a i l : at_ i l = Some a -> (1 <= count a l)%nat.
Proof.
  revert i. induction l as [|p t IH]; intros [|i] H; unfold at_ in *; cbn [nth_error] in H; try discriminate H; cbn [count].
  - subst p. cbn [is]. rewrite Nat.eqb_refl. lia.
  - specialize (IH i H). lia.
Qed.
Lemma count_two a i j l : i <> j -> at_ i l = Some a -> at_ j l = Some a -> (2 <= count a l)%nat.
Proof.
  revert i j. induction l as [|p t IH]; intros [|i] [|j] N H K; unfold at_ in *; cbn [nth_error] in H, K; try discriminate; try lia; cbn [count].
  - subst p. cbn [is]. rewrite Nat.eqb_refl. pose proof (count_pos a j t) as P. unfold at_ in P. specialize (P K). lia.
  - subst p. cbn [is]. rewrite Nat.eqb_refl. pose proof (count_pos a i t) as P. unfold at_ in P. specialize (P H). lia.
  - specialize (IH i j ltac:(lia) H K). lia.
Qed.

(** Counting up and down. *)
Definition down (n : nat) (v : V) : option (nat * V) := match n with O => None | S _ => Some (n, v) end.
Lemma retain_spec a c n v : at_ a c = Some (n, v) ->
  exists c', retain a c = Ok c' /\ length c' = length c /\ (weight c' = S (weight c))%nat /\ forall b, at_ b c' = if (b =? a)%nat then Some (S n, v) else at_ b c.
Proof.
  intro E. unfold retain. rewrite E. eexists. split; [reflexivity|]. pose proof (at_lt _ _ _ E) as L. split; [apply put_length|].
  split; [pose proof (weight_put a (Some (S n, v)) c L) as W; rewrite E in W; cbn [weight1] in W; lia|]. intro b. apply at_put. exact L.
Qed.
Lemma release_spec a c n v : at_ a c = Some (S n, v) ->
  exists c', release a c = Ok c' /\ length c' = length c /\ (S (weight c') = weight c)%nat /\ forall b, at_ b c' = if (b =? a)%nat then down n v else at_ b c.
Proof.
  intro E. unfold release. rewrite E. pose proof (at_lt _ _ _ E) as L. destruct n as [|n].
  - eexists. split; [reflexivity|]. split; [apply put_length|].
    split; [pose proof (weight_put a None c L) as W; rewrite E in W; cbn [weight1] in W; lia|]. intro b. cbn [down]. apply at_put. exact L.
  - eexists. split; [reflexivity|]. split; [apply put_length|].
    split; [pose proof (weight_put a (Some (S n, v)) c L) as W; rewrite E in W; cbn [weight1] in W; lia|]. intro b. cbn [down]. apply at_put. exact L.
Qed.

(** The holders hold what the values say, and the counts are right. *)
Record inv (m : heap) (l : list (option V)) : Prop := {
  iv_len : length (holders m) = length l;
  iv_val : forall h a, at_ h (holders m) = Some a -> exists n v, at_ a (cells m) = Some (n, v) /\ at_ h l = Some v;
  iv_none : forall h, at_ h (holders m) = None -> at_ h l = None;
  iv_count : forall a n v, at_ a (cells m) = Some (n, v) -> n = count a (holders m) /\ (1 <= n)%nat;
  iv_weight : weight (cells m) = many (holders m) }.

Lemma inv_new : inv heap_new [].
Proof.
  constructor; cbn; try reflexivity.
  - intros h a H. unfold at_ in H. destruct h; discriminate H.
  - intros h _. unfold at_. now destruct h.
  - intros a n v H. unfold at_ in H. destruct a; discriminate H.
Qed.

Lemma inv_make m l v : inv m l -> exists m', act (Make v) m = Ok m' /\ inv m' (l ++ [Some v]).
Proof.
  intros [LN VL NO CO WT]. eexists. split; [reflexivity|]. constructor; cbn [cells holders].
  - rewrite !app_length, LN. reflexivity.
  - intros h a. rewrite !at_app, LN. destruct (h =? length l)%nat eqn:E.
    + intro H. injection H as <-. rewrite Nat.eqb_refl. exists 1%nat, v. split; reflexivity.
    + intro H. destruct (VL h a H) as (n & w & C & W). exists n, w. split; [|exact W].
      destruct (Nat.eqb_spec a (length (cells m))) as [->|NE]; [|exact C]. apply at_lt in C. lia.
  - intro h. rewrite !at_app, LN. destruct (h =? length l)%nat; [discriminate|apply NO].
  - intros a n w. rewrite at_app, count_app. cbn [is]. destruct (Nat.eqb_spec a (length (cells m))) as [->|NE].
    + intro H. injection H as <- <-. rewrite Nat.eqb_refl. split; [|lia].
      assert (Z0 : count (length (cells m)) (holders m) = 0%nat); [|lia]. clear - VL.
      assert (K : forall h, at_ h (holders m) <> Some (length (cells m))).
      { intros h H. destruct (VL h _ H) as (n & w & C & _). apply at_lt in C. lia. }
      clear VL. induction (holders m) as [|o t IH]; [reflexivity|]. cbn [count]. rewrite IH by (intros h; exact (K (S h))).
      specialize (K 0%nat). unfold at_ in K. cbn [nth_error] in K. destruct o as [b|]; [|reflexivity]. cbn [is].
      destruct (Nat.eqb_spec b (length (cells m))) as [->|]; [congruence|reflexivity].
    + intro H. destruct (CO a n w H) as (E & G). destruct (Nat.eqb_spec (length (cells m)) a); [congruence|]. lia.
  - rewrite weight_app, many_app. cbn [weight1 one]. lia.
Qed.

Lemma inv_copy m l h v : inv m l -> at_ h l = Some v -> exists m', act (Copy h) m = Ok m' /\ inv m' (l ++ [Some v]).
Proof.
  intros [LN VL NO CO WT] HV. cbn [act]. destruct (at_ h (holders m)) as [a|] eqn:EH; [|rewrite (NO h EH) in HV; discriminate HV].
  destruct (VL h a EH) as (n & w & C & W). assert (w = v) as -> by congruence.
  destruct (retain_spec a (cells m) n v C) as (c & RT & LC & WC & AC). rewrite RT. cbn [bind]. eexists. split; [reflexivity|]. constructor; cbn [cells holders].
  - rewrite !app_length, LN. reflexivity.
  - intros i b. rewrite !at_app, LN. destruct (i =? length l)%nat eqn:E.
    + intro H. injection H as <-. rewrite AC, Nat.eqb_refl. do 2 eexists. split; reflexivity.
    + intro H. destruct (VL i b H) as (k & w & C' & W'). rewrite AC. destruct (Nat.eqb_spec b a) as [->|NE].
      * rewrite C in C'. injection C' as <- <-. do 2 eexists. split; [reflexivity|exact W'].
      * do 2 eexists. split; [exact C'|exact W'].
  - intro i. rewrite !at_app, LN. destruct (i =? length l)%nat; [discriminate|apply NO].
  - intros b k w. rewrite AC, count_app. cbn [is]. destruct (Nat.eqb_spec b a) as [->|NE].
    + intro H. injection H as <- <-. rewrite Nat.eqb_refl. destruct (CO a n v C). lia.
    + intro H. destruct (CO b k w H). destruct (Nat.eqb_spec a b); [congruence|]. lia.
  - rewrite many_app. cbn [one]. lia.
Qed.

(** Letting go: holder [h] of cell [a] gets [o] instead. *)
Lemma inv_drop m l h v : inv m l -> at_ h l = Some v -> exists m', act (Drop h) m = Ok m' /\ inv m' (put h None l).
Proof.
  intros [LN VL NO CO WT] HV. cbn [act]. destruct (at_ h (holders m)) as [a|] eqn:EH; [|rewrite (NO h EH) in HV; discriminate HV].
  destruct (VL h a EH) as (n & w & C & W). assert (w = v) as -> by congruence. destruct (CO a n v C) as (EN & PN).
  destruct n as [|n]; [lia|]. destruct (release_spec a (cells m) n v C) as (c & RL & LC & WC & AC). rewrite RL. cbn [bind].
  pose proof (at_lt _ _ _ EH) as LH. assert (LL : (h < length l)%nat) by lia.
  eexists. split; [reflexivity|]. constructor; cbn [cells holders].
  - rewrite !put_length. exact LN.
  - intros i b. rewrite !at_put by assumption. destruct (Nat.eqb_spec i h) as [->|NI]; [discriminate|]. intro H.
    destruct (VL i b H) as (k & w & C' & W'). rewrite AC. destruct (Nat.eqb_spec b a) as [->|NE].
    + rewrite C in C'. injection C' as <- <-. pose proof (count_two a i h _ NI H EH). destruct n as [|n]; [lia|]. do 2 eexists. split; [reflexivity|exact W'].
    + do 2 eexists. split; [exact C'|exact W'].
  - intro i. rewrite !at_put by assumption. destruct (i =? h)%nat; [reflexivity|apply NO].
  - intros b k w. rewrite AC. pose proof (count_put b h None (holders m) LH) as CP. rewrite EH in CP. cbn [is] in CP. destruct (Nat.eqb_spec b a) as [->|NE].
    + rewrite Nat.eqb_refl in CP. unfold down. destruct n as [|n]; [discriminate|]. intro H. injection H as <- <-. lia.
    + intro H. destruct (CO b k w H). destruct (Nat.eqb_spec a b); [congruence|]. lia.
  - pose proof (many_put h None (holders m) LH) as MP. rewrite EH in MP. cbn [one] in MP. lia.
Qed.

Lemma inv_write m l h v f : inv m l -> at_ h l = Some v -> exists m', act (Write h f) m = Ok m' /\ inv m' (put h (Some (f v)) l).
Proof.
  intros [LN VL NO CO WT] HV. cbn [act]. destruct (at_ h (holders m)) as [a|] eqn:EH; [|rewrite (NO h EH) in HV; discriminate HV].
  destruct (VL h a EH) as (n & w & C & W). assert (w = v) as -> by congruence. destruct (CO a n v C) as (EN & PN).
  pose proof (at_lt _ _ _ EH) as LH. assert (LL : (h < length l)%nat) by lia. pose proof (at_lt _ _ _ C) as LA. unfold write_in. rewrite C.
  destruct n as [|[|n]]; [lia| |].
  - (* the only holder *)
    eexists. split; [reflexivity|]. constructor; cbn [cells holders].
    + rewrite put_length. exact LN.
    + intros i b H. rewrite !at_put by assumption. destruct (VL i b H) as (k & w & C' & W'). destruct (Nat.eqb_spec b a) as [->|NE].
      * assert (i = h) as -> by (destruct (Nat.eq_dec i h) as [E|NI]; [exact E|pose proof (count_two a i h _ NI H EH); lia]).
        rewrite Nat.eqb_refl. do 2 eexists. split; reflexivity.
      * do 2 eexists. split; [exact C'|]. destruct (Nat.eqb_spec i h) as [->|NI]; [congruence|exact W'].
    + intros i H. rewrite at_put by assumption. destruct (Nat.eqb_spec i h) as [->|NI]; [congruence|exact (NO i H)].
    + intros b k w. rewrite at_put by exact LA. destruct (Nat.eqb_spec b a) as [->|NE]; [|exact (CO b k w)]. intro H. injection H as <- <-. lia.
    + pose proof (weight_put a (Some (1%nat, f v)) (cells m) LA) as WP. rewrite C in WP. cbn [weight1] in WP. lia.
  - (* shared: into a copy *)
    destruct (release_spec a (cells m) (S n) v C) as (c & RL & LC & WC & AC). rewrite RL. cbn [bind]. eexists. split; [reflexivity|]. constructor; cbn [cells holders].
    + rewrite !put_length. exact LN.
    + intros i b. rewrite !at_put by assumption. destruct (Nat.eqb_spec i h) as [->|NI].
      * intro H. injection H as <-. rewrite at_app, Nat.eqb_refl. do 2 eexists. split; reflexivity.
      * intro H. destruct (VL i b H) as (k & w & C' & W'). rewrite at_app, AC.
        destruct (Nat.eqb_spec b (length c)) as [->|NB]; [apply at_lt in C'; lia|]. destruct (Nat.eqb_spec b a) as [->|NE].
        -- rewrite C in C'. injection C' as <- <-. do 2 eexists. split; [reflexivity|exact W'].
        -- do 2 eexists. split; [exact C'|exact W'].
    + intro i. rewrite !at_put by assumption. destruct (i =? h)%nat; [discriminate|apply NO].
    + intros b k w. rewrite at_app, AC. pose proof (count_put b h (Some (length c)) (holders m) LH) as CP. rewrite EH in CP. cbn [is] in CP.
      destruct (Nat.eqb_spec b (length c)) as [->|NB].
      * intro H. injection H as <- <-. rewrite Nat.eqb_refl in CP. destruct (Nat.eqb_spec a (length c)) as [E|_]; [lia|].
        assert (Z0 : count (length c) (holders m) = 0%nat).
        { assert (K : forall i, at_ i (holders m) <> Some (length c)) by (intros i H; destruct (VL i _ H) as (k & u & C' & _); apply at_lt in C'; lia).
          clear - K. induction (holders m) as [|o t IH]; [reflexivity|]. cbn [count]. rewrite IH by (intros i; exact (K (S i))).
          specialize (K 0%nat). unfold at_ in K. cbn [nth_error] in K. destruct o as [b|]; [|reflexivity]. cbn [is].
          destruct (Nat.eqb_spec b (length c)) as [->|]; [congruence|reflexivity]. }
        lia.
      * destruct (Nat.eqb_spec (length c) b); [congruence|]. destruct (Nat.eqb_spec b a) as [->|NE].
        -- intro H. injection H as <- <-. rewrite Nat.eqb_refl in CP. lia.
        -- intro H. destruct (CO b k w H). destruct (Nat.eqb_spec a b); [congruence|]. lia.
    + rewrite weight_app. cbn [weight1]. pose proof (many_put h (Some (length c)) (holders m) LH) as MP. rewrite EH in MP. cbn [one] in MP. lia.
Qed.

Lemma inv_take m l h k v w : inv m l -> h <> k -> at_ h l = Some v -> at_ k l = Some w ->
  exists m', act (Take h k) m = Ok m' /\ inv m' (put k None (put h (Some w) l)).
Proof.
  intros [LN VL NO CO WT] HK HV KV. cbn [act]. destruct (at_ h (holders m)) as [a|] eqn:EH; [|rewrite (NO h EH) in HV; discriminate HV].
  destruct (at_ k (holders m)) as [b|] eqn:EK; [|rewrite (NO k EK) in KV; discriminate KV].
  destruct (Nat.eqb_spec h k) as [E|_]; [contradiction|].
  destruct (VL h a EH) as (n & v' & C & W). assert (v' = v) as -> by congruence. destruct (CO a n v C) as (EN & PN).
  destruct (VL k b EK) as (q & w' & Cb & Wb). assert (w' = w) as -> by congruence. destruct (CO b q w Cb) as (EQ & PQ).
  destruct n as [|n]; [lia|]. destruct q as [|q]; [lia|].
  pose proof (at_lt _ _ _ EH) as LH. assert (LL : (h < length l)%nat) by lia. pose proof (at_lt _ _ _ EK) as LK. assert (LLk : (k < length l)%nat) by lia.
  assert (TK : exists m', take_from h k a b m = Ok m' /\ holders m' = put k None (put h (Some b) (holders m)) /\ (S (weight (cells m')) = weight (cells m))%nat /\
    forall x, at_ x (cells m') = if (x =? a)%nat then down n v else at_ x (cells m)).
  { unfold take_from. destruct (retain_spec a (cells m) _ v C) as (c1 & R1 & L1 & W1 & A1). rewrite R1. cbn [bind].
    assert (B1 : at_ b c1 = Some (if (b =? a)%nat then S (S q) else S q, w)).
    { rewrite A1. destruct (Nat.eqb_spec b a) as [->|]; [|exact Cb]. rewrite C in Cb. injection Cb as <- <-. reflexivity. }
    destruct (retain_spec b c1 _ w B1) as (c2 & R2 & L2 & W2 & A2). rewrite R2. cbn [bind].
    assert (B2 : at_ a c2 = Some (if (b =? a)%nat then S (S (S n)) else S (S n), v)).
    { rewrite A2. rewrite (Nat.eqb_sym a b). destruct (Nat.eqb_spec b a) as [->|]; [rewrite C in Cb; injection Cb as <- <-; reflexivity|]. rewrite A1, Nat.eqb_refl. reflexivity. }
    assert (B2' : at_ a c2 = Some (S (if (b =? a)%nat then S (S n) else S n), v)) by (rewrite B2; now destruct (b =? a)%nat).
    destruct (release_spec a c2 _ v B2') as (c3 & R3 & L3 & W3 & A3). rewrite R3. cbn [bind].
    assert (B3 : at_ a c3 = Some (S (if (b =? a)%nat then S n else n), v)) by (rewrite A3, Nat.eqb_refl; now destruct (b =? a)%nat).
    destruct (release_spec a c3 _ v B3) as (c4 & R4 & L4 & W4 & A4). rewrite R4. cbn [bind].
    assert (B4 : at_ b c4 = Some (S (if (b =? a)%nat then n else S q), w)).
    { rewrite A4. destruct (Nat.eqb_spec b a) as [->|NE]; [rewrite C in Cb; injection Cb as <- <-; reflexivity|].
      rewrite A3. destruct (Nat.eqb_spec b a) as [E|_]; [contradiction|]. rewrite A2, Nat.eqb_refl. reflexivity. }
    destruct (release_spec b c4 _ w B4) as (c5 & R5 & L5 & W5 & A5). rewrite R5. cbn [bind]. eexists. split; [reflexivity|]. cbn [cells holders].
    split; [reflexivity|]. split; [lia|]. intro x. rewrite A5, A4, A3, A2, A1. destruct (Nat.eqb_spec b a) as [->|NE].
    - rewrite C in Cb. injection Cb as <- <-. destruct (x =? a)%nat; reflexivity.
    - destruct (Nat.eqb_spec x b) as [->|NX]; [|destruct (x =? a)%nat; reflexivity]. destruct (Nat.eqb_spec b a); [contradiction|]. rewrite Cb. reflexivity. }
  destruct TK as (m' & TK & HM & WM & AM). exists m'. split; [exact TK|].
  assert (LP : (k < length (put h (Some b) (holders m)))%nat) by (rewrite put_length; exact LK).
  assert (LP' : (k < length (put h (Some w) l))%nat) by (rewrite put_length; exact LLk).
  assert (CNT : forall x, (count x (holders m') + is x (Some a) = count x (holders m))%nat).
  { intro x. rewrite HM. pose proof (count_put x k None _ LP) as P1. pose proof (count_put x h (Some b) (holders m) LH) as P2.
    rewrite at_put in P1 by exact LH. destruct (Nat.eqb_spec k h) as [E|_]; [congruence|]. rewrite EK in P1. rewrite EH in P2. cbn [is] in *. lia. }
  constructor.
  - rewrite HM, !put_length. exact LN.
  - intros i x. rewrite HM, !at_put by assumption. destruct (Nat.eqb_spec i k) as [->|NK]; [discriminate|]. destruct (Nat.eqb_spec i h) as [->|NI].
    + intro H. injection H as <-. rewrite AM. destruct (Nat.eqb_spec b a) as [->|NE].
      * rewrite C in Cb. injection Cb as <- <-. pose proof (count_two a h k _ HK EH EK). destruct n as [|n]; [lia|]. do 2 eexists. split; reflexivity.
      * do 2 eexists. split; [exact Cb|reflexivity].
    + intro H. destruct (VL i x H) as (r & u & C' & W'). rewrite AM. destruct (Nat.eqb_spec x a) as [->|NE].
      * rewrite C in C'. injection C' as <- <-. pose proof (count_two a i h _ NI H EH). destruct n as [|n]; [lia|]. do 2 eexists. split; [reflexivity|exact W'].
      * do 2 eexists. split; [exact C'|exact W'].
  - intro i. rewrite HM, !at_put by assumption. destruct (i =? k)%nat; [reflexivity|]. destruct (i =? h)%nat; [discriminate|apply NO].
  - intros x r u. rewrite AM. specialize (CNT x). cbn [is] in CNT. destruct (Nat.eqb_spec x a) as [->|NE].
    + rewrite Nat.eqb_refl in CNT. unfold down. destruct n as [|n]; [discriminate|]. intro H. injection H as <- <-. lia.
    + intro H. destruct (CO x r u H). destruct (Nat.eqb_spec a x); [congruence|]. lia.
  - rewrite HM. pose proof (many_put k None _ LP) as P1. pose proof (many_put h (Some b) (holders m) LH) as P2.
    rewrite at_put in P1 by exact LH. destruct (Nat.eqb_spec k h) as [E|_]; [congruence|]. rewrite EK in P1. rewrite EH in P2. cbn [one] in *. lia.
Qed.

Lemma acts_app xs ys (m : heap) : acts (xs ++ ys) m = (let* m' := acts xs m in acts ys m').
Proof. revert m. induction xs as [|x t IH]; intro m; cbn [app acts]; [reflexivity|]. destruct (act x m) as [m'|]; cbn [bind]; [apply IH|reflexivity]. Qed.
Lemma acts_snoc xs x (m m1 : heap) : acts xs m = Ok m1 -> acts (xs ++ [x]) m = act x m1.
Proof. intro E. rewrite acts_app, E. cbn [bind acts]. now destruct (act x m1). Qed.
Lemma list_ext {A} (l l' : list A) : length l = length l' -> (forall i, nth_error l i = nth_error l' i) -> l = l'.
Proof.
  revert l'. induction l as [|a t IH]; intros [|b t'] L H; try discriminate L; [reflexivity|].
  pose proof (H 0%nat) as H0. injection H0 as ->. f_equal. apply IH; [now injection L|]. intro i. exact (H (S i)).
Qed.

Theorem owned (xs : list action) (l : list (option V)) : owns xs l -> exists m, acts xs heap_new = Ok m /\ inv m l.
Proof.
  induction 1 as [|xs l v O (m & E & J)|xs l h v O (m & E & J) HV|xs l l' h k v w O (m & E & J) HK HV KV LE H1 K1 R1|xs l l' h v f O (m & E & J) HV LE H1 R1|xs l l' h v O (m & E & J) HV LE H1 R1].
  - exists heap_new. split; [reflexivity|exact inv_new].
  - rewrite (acts_snoc _ _ _ _ E). exact (inv_make m l v J).
  - rewrite (acts_snoc _ _ _ _ E). apply (inv_copy m l h v J). now apply at_some.
  - rewrite (acts_snoc _ _ _ _ E). assert (LH : (h < length l)%nat) by (apply nth_error_Some; congruence). assert (LK : (k < length l)%nat) by (apply nth_error_Some; congruence).
    assert (l' = put k None (put h (Some w) l)) as ->; [|apply (inv_take m l h k v w J HK); now apply at_some].
    apply list_ext; [rewrite !put_length; exact LE|]. intro i. rewrite nth_put by (rewrite put_length; exact LK). rewrite nth_put by exact LH.
    destruct (Nat.eqb_spec i k) as [->|NK]; [exact K1|]. destruct (Nat.eqb_spec i h) as [->|NH]; [exact H1|exact (R1 i NH NK)].
  - rewrite (acts_snoc _ _ _ _ E). assert (LH : (h < length l)%nat) by (apply nth_error_Some; congruence).
    assert (l' = put h (Some (f v)) l) as ->; [|apply (inv_write m l h v f J); now apply at_some].
    apply list_ext; [rewrite put_length; exact LE|]. intro i. rewrite nth_put by exact LH. destruct (Nat.eqb_spec i h) as [->|NH]; [exact H1|exact (R1 i NH)].
  - rewrite (acts_snoc _ _ _ _ E). assert (LH : (h < length l)%nat) by (apply nth_error_Some; congruence).
    assert (l' = put h None l) as ->; [|apply (inv_drop m l h v J); now apply at_some].
    apply list_ext; [rewrite put_length; exact LE|]. intro i. rewrite nth_put by exact LH. destruct (Nat.eqb_spec i h) as [->|NH]; [exact H1|exact (R1 i NH)].
Qed.

Lemma inv_shows m l h : inv m l -> shows h m = Ok (at_ h l).
Proof.
  intros [LN VL NO CO WT]. unfold shows. destruct (at_ h (holders m)) as [a|] eqn:E; [|now rewrite (NO h E)].
  destruct (VL h a E) as (n & v & C & W). rewrite C, W. reflexivity.
Qed.
Theorem shared_as_owned (xs : list action) (l : list (option V)) : owns xs l -> exists m, acts xs heap_new = Ok m /\ forall h, shows h m = Ok (at_ h l).
Proof. intro O. destruct (owned xs l O) as (m & E & J). exists m. split; [exact E|]. intro h. exact (inv_shows m l h J). Qed.

(** Nothing is used after it was freed, whatever the calls. *)
Lemma act_inv x m l : inv m l -> exists m' l', act x m = Ok m' /\ inv m' l'.
Proof.
  intro J. assert (SAME : exists m' l', @Ok heap m = Ok m' /\ inv m' l') by (exists m, l; split; [reflexivity|exact J]).
  assert (VAL : forall h a, at_ h (holders m) = Some a -> exists v, at_ h l = Some v) by (intros h a H; destruct (iv_val _ _ J h a H) as (n & v & _ & W); exists v; exact W).
  destruct x as [v|h|h k|h f|h].
  - destruct (inv_make m l v J) as (m' & A & K). exists m'; eexists; split; [exact A|exact K].
  - destruct (at_ h (holders m)) as [a|] eqn:E; [|cbn [act]; rewrite E; exact SAME]. destruct (VAL h a E) as (v & W).
    destruct (inv_copy m l h v J W) as (m' & A & K). exists m'; eexists; split; [exact A|exact K].
  - destruct (at_ h (holders m)) as [a|] eqn:E; [|cbn [act]; rewrite E; exact SAME]. destruct (at_ k (holders m)) as [b|] eqn:F; [|cbn [act]; rewrite E, F; exact SAME].
    destruct (Nat.eq_dec h k) as [EQ|NE]; [cbn [act]; rewrite E, F; subst k; rewrite Nat.eqb_refl; exact SAME|].
    destruct (VAL h a E) as (v & W). destruct (VAL k b F) as (w & U). destruct (inv_take m l h k v w J NE W U) as (m' & A & K). exists m'; eexists; split; [exact A|exact K].
  - destruct (at_ h (holders m)) as [a|] eqn:E; [|cbn [act]; rewrite E; exact SAME]. destruct (VAL h a E) as (v & W).
    destruct (inv_write m l h v f J W) as (m' & A & K). exists m'; eexists; split; [exact A|exact K].
  - destruct (at_ h (holders m)) as [a|] eqn:E; [|cbn [act]; rewrite E; exact SAME]. destruct (VAL h a E) as (v & W).
    destruct (inv_drop m l h v J W) as (m' & A & K). exists m'; eexists; split; [exact A|exact K].
Qed.
Lemma acts_inv xs m l : inv m l -> exists m' l', acts xs m = Ok m' /\ inv m' l'.
Proof.
  revert m l. induction xs as [|x t IH]; intros m l J; cbn [acts]; [exists m, l; split; [reflexivity|exact J]|].
  destruct (act_inv x m l J) as (m1 & l1 & E & J1). rewrite E. cbn [bind]. exact (IH m1 l1 J1).
Qed.
Theorem never_dangling (xs : list action) : exists m, acts xs heap_new = Ok m /\ forall h, shows h m <> Panic.
Proof.
  destruct (acts_inv xs heap_new [] inv_new) as (m & l & E & J). exists m. split; [exact E|]. intros h. rewrite (inv_shows m l h J). discriminate.
Qed.

(** Memory. *)
Lemma live_many m : @live V m = many (cells m).
Proof. unfold live. induction (cells m) as [|[c|] t IH]; cbn [filter length many one]; [reflexivity|now rewrite IH|exact IH]. Qed.
Lemma live_weight (m : heap) : (forall a n v, at_ a (cells m) = Some (n, v) -> (1 <= n)%nat) -> (many (cells m) <= weight (cells m))%nat.
Proof.
  intro P. induction (cells m) as [|o t IH]; [cbn; lia|]. cbn [many weight]. assert (K := IH (fun a n v H => P (S a) n v H)).
  destruct o as [[n v]|]; cbn [one weight1]; [|lia]. specialize (P 0%nat n v eq_refl). lia.
Qed.
Theorem memory_bound (xs : list action) m : acts xs heap_new = Ok m -> (live m <= many (holders m))%nat /\ (live m = 0%nat <-> forall h, shows h m = Ok None).
Proof.
  intro E. destruct (acts_inv xs heap_new [] inv_new) as (m' & l & E' & J). rewrite E in E'. injection E' as <-.
  assert (B : (live m <= many (holders m))%nat).
  { rewrite live_many, <- (iv_weight _ _ J). apply live_weight. intros a n v H. exact (proj2 (iv_count _ _ J a n v H)). }
  split; [exact B|]. split.
  - intros Z0 h. destruct (at_ h (holders m)) as [a|] eqn:EH; [|rewrite (inv_shows m l h J), (iv_none _ _ J h EH); reflexivity].
    destruct (iv_val _ _ J h a EH) as (n & v & C & _). exfalso. rewrite live_many in Z0. clear - Z0 C.
    revert a C. induction (cells m) as [|o t IH]; intros a C; unfold at_ in C; [destruct a; discriminate C|].
    cbn [many] in Z0. destruct a as [|a]; cbn [nth_error] in C; [subst o; cbn [one] in Z0; lia|]. apply (IH ltac:(lia) a). exact C.
  - intro N. assert (M0 : many (holders m) = 0%nat); [|lia].
    assert (K : forall h, at_ h (holders m) = None).
    { intro h. specialize (N h). destruct (at_ h (holders m)) as [a|] eqn:EH; [|reflexivity]. destruct (iv_val _ _ J h a EH) as (n & v & C & W).
      rewrite (inv_shows m l h J), W in N. discriminate N. }
    clear - K. induction (holders m) as [|o t IH]; [reflexivity|]. cbn [many]. pose proof (K 0%nat) as K0. unfold at_ in K0. cbn [nth_error] in K0. subst o. cbn [one].
    apply IH. intro h. exact (K (S h)).
Qed.
Theorem copying_is_free (xs : list action) m h m' : acts xs heap_new = Ok m -> act (Copy h) m = Ok m' -> live m' = live m.
Proof.
  intros _ E. cbn [act] in E. destruct (at_ h (holders m)) as [a|]; [|injection E as <-; reflexivity].
  unfold retain in E. destruct (at_ a (cells m)) as [[n v]|] eqn:C; [|discriminate E]. cbn [bind] in E. injection E as <-.
  rewrite !live_many. cbn [cells]. pose proof (many_put a (Some (S n, v)) (cells m) (at_lt _ _ _ C)) as P. rewrite C in P. cbn [one] in P. lia.
Qed.
Lemma many_in_use (l : list (option V)) : many l = in_use l.
Proof. unfold in_use. induction l as [|[c|] t IH]; cbn [filter length many one]; [reflexivity|now rewrite IH|exact IH]. Qed.
Lemma many_same (l : list (option nat)) (r : list (option V)) : length l = length r -> (forall h, at_ h l = None <-> at_ h r = None) -> many l = many r.
Proof.
  revert r. induction l as [|o t IH]; intros [|q u] L H; try discriminate L; [reflexivity|]. cbn [many].
  rewrite (IH u); [|now injection L|intro h; exact (H (S h))]. specialize (H 0%nat). unfold at_ in H. cbn [nth_error] in H.
  destruct o, q; cbn [one]; try reflexivity; destruct H as (H1 & H2); [specialize (H2 eq_refl); discriminate H2|specialize (H1 eq_refl); discriminate H1].
Qed.
Theorem memory_used (xs : list action) (l : list (option V)) : owns xs l ->
  exists m, acts xs heap_new = Ok m /\ (live m <= in_use l)%nat /\ (live m = 0 <-> in_use l = 0)%nat /\ (forall h m', act (Copy h) m = Ok m' -> live m' = live m).
Proof.
  intro O. destruct (owned xs l O) as (m & E & J). exists m. split; [exact E|]. destruct (memory_bound xs m E) as (B & Z0).
  assert (M : many (holders m) = in_use l).
  { rewrite <- many_in_use. apply many_same; [exact (iv_len _ _ J)|]. intro h. split; [exact (iv_none _ _ J h)|]. intro N.
    destruct (at_ h (holders m)) as [a|] eqn:EH; [|reflexivity]. destruct (iv_val _ _ J h a EH) as (n & v & _ & W). congruence. }
  split; [lia|]. split; [|intros h m' C; exact (copying_is_free xs m h m' E C)]. split.
  - intro L0. destruct (in_use l) as [|k] eqn:U; [reflexivity|]. exfalso. pose proof (proj1 Z0 L0) as N.
    assert (K : forall h, at_ h (holders m) = None).
    { intro h. specialize (N h). destruct (at_ h (holders m)) as [a|] eqn:EH; [|reflexivity]. destruct (iv_val _ _ J h a EH) as (n & v & C & W).
      rewrite (inv_shows m l h J), W in N. discriminate N. }
    assert (M0 : many (holders m) = 0%nat); [|lia]. clear - K. induction (holders m) as [|o t IH]; [reflexivity|]. cbn [many].
    pose proof (K 0%nat) as K0. unfold at_ in K0. cbn [nth_error] in K0. subst o. cbn [one]. apply IH. intro h. exact (K (S h)).
  - intro U. lia.
Qed.
(** The only holder changes its pixels where they are. *)
Theorem alone_in_place (xs : list action) (l : list (option V)) h f : owns xs l -> (exists v, has l h = Some v) -> (forall k, k <> h -> has l k = None) ->
  exists m m', acts xs heap_new = Ok m /\ act (Write h f) m = Ok m' /\ length (cells m') = length (cells m) /\ live m' = live m.
Proof.
  intros O (v & HV) AL. destruct (owned xs l O) as (m & E & J). exists m. change (at_ h l = Some v) in HV.
  destruct (at_ h (holders m)) as [a|] eqn:EH; [|rewrite (iv_none _ _ J h EH) in HV; discriminate HV].
  destruct (iv_val _ _ J h a EH) as (n & w & C & W). destruct (iv_count _ _ J a n w C) as (EN & PN).
  assert (N1 : (count a (holders m) <= 1)%nat).
  { assert (K : forall k b, at_ k (holders m) = Some b -> k = h).
    { intros k b H. destruct (Nat.eq_dec k h) as [Q|Q]; [exact Q|]. destruct (iv_val _ _ J k b H) as (n' & w' & _ & W'). pose proof (AL k Q) as A. change (at_ k l = None) in A. congruence. }
    clear - K. revert h K. induction (holders m) as [|o t IH]; intros h K; [cbn; lia|]. cbn [count]. destruct o as [b|]; cbn [is].
    - assert (Z0 : count a t = 0%nat); [|destruct (b =? a)%nat; lia]. assert (h = 0%nat) as -> by (symmetry; exact (K 0%nat b eq_refl)). clear IH.
      assert (K' : forall k c, at_ k t <> Some c) by (intros k c H; specialize (K (S k) c H); discriminate K). clear K.
      induction t as [|p u IH]; [reflexivity|]. cbn [count]. rewrite IH by (intros k c; exact (K' (S k) c)). destruct p as [c|]; [|reflexivity]. destruct (K' 0%nat c eq_refl).
    - destruct h as [|h].
      + assert (K' : forall k c, at_ k t <> Some c) by (intros k c H; specialize (K (S k) c H); discriminate K). clear K IH.
        assert (Z0 : count a t = 0%nat); [|lia]. induction t as [|p u IH]; [reflexivity|]. cbn [count]. rewrite IH by (intros k c; exact (K' (S k) c)).
        destruct p as [c|]; [destruct (K' 0%nat c eq_refl)|reflexivity].
      + apply (IH h). intros k c H. specialize (K (S k) c H). now injection K. }
  assert (n = 1)%nat as -> by lia. exists (Heap (put a (Some (1%nat, f w)) (cells m)) (holders m)). split; [exact E|].
  split; [cbn [act]; rewrite EH; unfold write_in; rewrite C; reflexivity|]. cbn [cells]. split; [apply put_length|].
  rewrite !live_many. cbn [cells]. pose proof (many_put a (Some (1%nat, f w)) (cells m) (at_lt _ _ _ C)) as P. rewrite C in P. cbn [one] in P. lia.
Qed.
End Share.

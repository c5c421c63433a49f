(** Bounded counting loops and slice operations, with their reasoning rules.
    (Generic library; models no particular Rust function.) *)
From Verif Require Import Machine.

(** [for i in lo..lo+n { s = f(i, s)? }] *)
Fixpoint for_loop {S : Type} (n : nat) (lo : Z) (f : Z -> S -> Res S) (s : S) : Res S :=
  match n with
  | O => Ok s
  | Datatypes.S n' => let* s' := f lo s in for_loop n' (lo + 1) f s'
  end.

(** Rust range loop [for i in lo..hi]; empty when [hi <= lo]. *)
Definition for_range {S : Type} (lo hi : Z) (f : Z -> S -> Res S) (s : S) : Res S :=
  for_loop (Z.to_nat (hi - lo)) lo f s.

Definition zlen {A : Type} (l : list A) : Z := Z.of_nat (length l).

(** Slice read [v[i]]: panics out of bounds. *)
Definition idx {A : Type} (l : list A) (i : Z) : Res A :=
  if (0 <=? i) && (i <? zlen l) then
    match nth_error l (Z.to_nat i) with Some a => Ok a | None => Panic end
  else Panic.

Fixpoint upd_nat {A : Type} (l : list A) (i : nat) (a : A) : list A :=
  match l, i with
  | [], _ => []
  | _ :: r, O => a :: r
  | b :: r, Datatypes.S i' => b :: upd_nat r i' a
  end.

(** Slice write [v[i] = a]: panics out of bounds. *)
Definition set_idx {A : Type} (l : list A) (i : Z) (a : A) : Res (list A) :=
  if (0 <=? i) && (i <? zlen l) then Ok (upd_nat l (Z.to_nat i) a) else Panic.

(** [&v[s..e]] : panics unless [s <= e <= len]. *)
Definition subslice {A : Type} (l : list A) (s e : Z) : Res (list A) :=
  if (0 <=? s) && (s <=? e) && (e <=? zlen l) then
    Ok (firstn (Z.to_nat (e - s)) (skipn (Z.to_nat s) l))
  else Panic.

(** [v[s..e].copy_from_slice(src)] : panics on a bad range or length mismatch. *)
Definition copy_into {A : Type} (dst : list A) (s e : Z) (src : list A) : Res (list A) :=
  if (0 <=? s) && (s <=? e) && (e <=? zlen dst) && (zlen src =? e - s) then
    Ok (firstn (Z.to_nat s) dst ++ src ++ skipn (Z.to_nat e) dst)
  else Panic.

(** [vec![a; n]] : panics with "capacity overflow" from 2^63 elements on (a
    negative i32 cast to usize); smaller allocations are assumed to succeed. *)
Definition alloc {A : Type} (n : Z) (a : A) : Res (list A) :=
  if (0 <=? n) && (n <? 2 ^ 63) then Ok (repeat a (Z.to_nat n)) else Panic.

(** [Vec::resize]. *)
Definition vec_resize {A : Type} (l : list A) (n : nat) (a : A) : list A :=
  firstn n l ++ repeat a (n - length l)%nat.

(** Element [i] of a list, [None] outside. *)
Definition at_z {A : Type} (l : list A) (i : Z) : option A :=
  if 0 <=? i then nth_error l (Z.to_nat i) else None.

(** Integer interval [lo, lo+n). *)
Fixpoint zseq (lo : Z) (n : nat) : list Z :=
  match n with O => [] | Datatypes.S n' => lo :: zseq (lo + 1) n' end.
Definition zrange (lo hi : Z) : list Z := zseq lo (Z.to_nat (hi - lo)).

(* ---------------------------------------------------------------- *)
(** Reasoning rules. *)

Lemma bind_ok : forall {A B} (m : Res A) (f : A -> Res B) b,
  bind m f = Ok b -> exists a, m = Ok a /\ f a = Ok b.
Proof. intros A B [a|] f b H; [exists a; auto|discriminate]. Qed.

Lemma for_loop_inv : forall {S} (P : Z -> S -> Prop) f n lo s,
  P lo s ->
  (forall i s, lo <= i < lo + Z.of_nat n -> P i s ->
     exists s', f i s = Ok s' /\ P (i + 1) s') ->
  exists s', for_loop n lo f s = Ok s' /\ P (lo + Z.of_nat n) s'.
Proof.
  intros S P f n. induction n as [|n IH]; intros lo s H0 Hs.
  - exists s. split; [reflexivity|]. replace (lo + Z.of_nat 0) with lo by lia. exact H0.
  - destruct (Hs lo s ltac:(lia) H0) as (s1 & E1 & P1).
    destruct (IH (lo + 1) s1 P1) as (s2 & E2 & P2).
    + intros i s' Hi HP. apply Hs; [lia|exact HP].
    + exists s2. cbn [for_loop]. rewrite E1. cbn [bind]. split; [exact E2|].
      replace (lo + Z.of_nat (Datatypes.S n)) with (lo + 1 + Z.of_nat n) by lia. exact P2.
Qed.

Lemma for_range_inv : forall {S} (P : Z -> S -> Prop) f lo hi s,
  lo <= hi -> P lo s ->
  (forall i s, lo <= i < hi -> P i s -> exists s', f i s = Ok s' /\ P (i + 1) s') ->
  exists s', for_range lo hi f s = Ok s' /\ P hi s'.
Proof.
  intros S P f lo hi s Hle H0 Hs. unfold for_range.
  destruct (for_loop_inv P f (Z.to_nat (hi - lo)) lo s H0) as (s' & E & HP).
  - intros i s1 Hi. apply Hs. lia.
  - exists s'. split; [exact E|]. replace hi with (lo + Z.of_nat (Z.to_nat (hi - lo))) by lia.
    exact HP.
Qed.

Lemma for_range_empty : forall {S} (f : Z -> S -> Res S) lo hi s,
  hi <= lo -> for_range lo hi f s = Ok s.
Proof. intros. unfold for_range. replace (Z.to_nat (hi - lo)) with O by lia. reflexivity. Qed.

Lemma zlen_nonneg : forall {A} (l : list A), 0 <= zlen l.
Proof. intros. unfold zlen. lia. Qed.

Lemma at_z_some : forall {A} (l : list A) i, 0 <= i < zlen l -> exists a, at_z l i = Some a.
Proof.
  intros A l i H. unfold at_z, zlen in *. replace (0 <=? i) with true by lia.
  destruct (nth_error l (Z.to_nat i)) eqn:E; [eauto|].
  apply nth_error_None in E. lia.
Qed.

Lemma at_z_none : forall {A} (l : list A) i, i < 0 \/ zlen l <= i -> at_z l i = None.
Proof.
  intros A l i H. unfold at_z, zlen in *. destruct (0 <=? i) eqn:E; [|reflexivity].
  apply nth_error_None. lia.
Qed.

Lemma at_z_range : forall {A} (l : list A) i a, at_z l i = Some a -> 0 <= i < zlen l.
Proof.
  intros A l i a H. unfold at_z, zlen in *. destruct (0 <=? i) eqn:E; [|discriminate].
  assert (nth_error l (Z.to_nat i) <> None) by congruence.
  apply nth_error_Some in H0. lia.
Qed.

Lemma idx_ok : forall {A} (l : list A) i a, at_z l i = Some a -> idx l i = Ok a.
Proof.
  intros A l i a H. pose proof (at_z_range _ _ _ H) as R. unfold idx.
  replace ((0 <=? i) && (i <? zlen l)) with true by lia.
  unfold at_z in H. replace (0 <=? i) with true in H by lia. rewrite H. reflexivity.
Qed.

Lemma idx_panic : forall {A} (l : list A) i, i < 0 \/ zlen l <= i -> idx l i = Panic.
Proof.
  intros A l i H. unfold idx. replace ((0 <=? i) && (i <? zlen l)) with false by lia. reflexivity.
Qed.

Lemma alloc_ok : forall {A} n (a : A), 0 <= n < 2 ^ 63 -> alloc n a = Ok (repeat a (Z.to_nat n)).
Proof. intros A n a H. unfold alloc. replace ((0 <=? n) && (n <? 2 ^ 63)) with true by lia. reflexivity. Qed.

Lemma i32_of_ok : forall p z, - two31 <= z < two31 -> i32_of p z = Ok z.
Proof. intros p z H. unfold i32_of, in_i32. replace ((- two31 <=? z) && (z <? two31)) with true by lia. reflexivity. Qed.

Lemma i32_as_usize_ok : forall z, 0 <= z < two31 -> i32_as_usize z = z.
Proof. intros z H. unfold i32_as_usize. apply Z.mod_small. unfold two64, two31 in *. lia. Qed.

Lemma at_z_repeat : forall {A} (a : A) n i, 0 <= i < n -> at_z (repeat a (Z.to_nat n)) i = Some a.
Proof.
  intros A a n i H. unfold at_z. replace (0 <=? i) with true by lia.
  apply nth_error_repeat. lia.
Qed.

Lemma zlen_repeat : forall {A} (a : A) n, 0 <= n -> zlen (repeat a (Z.to_nat n)) = n.
Proof. intros. unfold zlen. rewrite repeat_length. lia. Qed.

Lemma zlen_app : forall {A} (l r : list A), zlen (l ++ r) = zlen l + zlen r.
Proof. intros. unfold zlen. rewrite app_length. lia. Qed.

Lemma at_z_app1 : forall {A} (l r : list A) i, i < zlen l -> at_z (l ++ r) i = at_z l i.
Proof.
  intros A l r i H. unfold at_z, zlen in *. destruct (0 <=? i) eqn:E; [|reflexivity].
  apply nth_error_app1. lia.
Qed.

Lemma at_z_app2 : forall {A} (l r : list A) i, zlen l <= i -> at_z (l ++ r) i = at_z r (i - zlen l).
Proof.
  intros A l r i H. unfold at_z, zlen in *. replace (0 <=? i) with true by lia.
  replace (0 <=? i - Z.of_nat (length l)) with true by lia.
  rewrite nth_error_app2 by lia. f_equal. lia.
Qed.

Lemma nth_error_firstn_lt : forall {A} (l : list A) n i,
  (i < n)%nat -> nth_error (firstn n l) i = nth_error l i.
Proof.
  induction l as [|a l IH]; intros n i H.
  - rewrite firstn_nil. reflexivity.
  - destruct n; [lia|]. destruct i; [reflexivity|]. cbn [firstn nth_error]. apply IH. lia.
Qed.

Lemma nth_error_skipn' : forall {A} (l : list A) n i,
  nth_error (skipn n l) i = nth_error l (n + i)%nat.
Proof.
  induction l as [|a l IH]; intros n i.
  - rewrite skipn_nil. destruct (n + i)%nat, i; reflexivity.
  - destruct n; [reflexivity|]. cbn [skipn plus nth_error]. apply IH.
Qed.

Lemma at_z_firstn : forall {A} (l : list A) n i,
  i < n -> at_z (firstn (Z.to_nat n) l) i = at_z l i.
Proof.
  intros A l n i H. unfold at_z. destruct (0 <=? i) eqn:E; [|reflexivity].
  apply nth_error_firstn_lt. lia.
Qed.

Lemma at_z_skipn : forall {A} (l : list A) n i,
  0 <= n -> 0 <= i -> at_z (skipn (Z.to_nat n) l) i = at_z l (n + i).
Proof.
  intros A l n i H H0. unfold at_z. replace (0 <=? i) with true by lia.
  replace (0 <=? n + i) with true by lia. rewrite nth_error_skipn'. f_equal. lia.
Qed.

Lemma subslice_ok : forall {A} (l : list A) s e,
  0 <= s <= e -> e <= zlen l ->
  exists r, subslice l s e = Ok r /\ zlen r = e - s /\
    (forall i, 0 <= i < e - s -> at_z r i = at_z l (s + i)).
Proof.
  intros A l s e H H0. unfold subslice.
  replace ((0 <=? s) && (s <=? e) && (e <=? zlen l)) with true by lia.
  eexists. split; [reflexivity|]. split.
  - unfold zlen in *. rewrite firstn_length, skipn_length. lia.
  - intros i Hi. rewrite at_z_firstn by lia. apply at_z_skipn; lia.
Qed.

Lemma copy_into_ok : forall {A} (dst src : list A) s e,
  0 <= s <= e -> e <= zlen dst -> zlen src = e - s ->
  exists r, copy_into dst s e src = Ok r /\ zlen r = zlen dst /\
    (forall i, at_z r i = if (s <=? i) && (i <? e) then at_z src (i - s) else at_z dst i).
Proof.
  intros A dst src s e H H0 H1. unfold copy_into.
  replace ((0 <=? s) && (s <=? e) && (e <=? zlen dst) && (zlen src =? e - s)) with true by lia.
  eexists. split; [reflexivity|].
  assert (L1 : zlen (firstn (Z.to_nat s) dst) = s).
  { unfold zlen in *. rewrite firstn_length. lia. }
  assert (L3 : zlen (skipn (Z.to_nat e) dst) = zlen dst - e).
  { unfold zlen in *. rewrite skipn_length. lia. }
  split.
  - rewrite !zlen_app, L1, L3. lia.
  - intros i. destruct ((s <=? i) && (i <? e)) eqn:E.
    + rewrite at_z_app2 by lia. rewrite L1. apply at_z_app1. lia.
    + destruct (Z.ltb_spec i s).
      * rewrite at_z_app1 by lia. apply at_z_firstn. lia.
      * rewrite at_z_app2 by lia. rewrite at_z_app2 by lia. rewrite L1.
        rewrite at_z_skipn by lia. f_equal. lia.
Qed.

Lemma upd_nat_length : forall {A} (l : list A) i a, length (upd_nat l i a) = length l.
Proof. induction l; intros [|i] x; cbn [upd_nat length]; auto. Qed.

Lemma upd_nat_nth : forall {A} (l : list A) i j a,
  nth_error (upd_nat l i a) j =
  if (Nat.eqb i j && Nat.ltb j (length l))%bool then Some a else nth_error l j.
Proof.
  induction l as [|b l IH]; intros i j a.
  - cbn [upd_nat length]. replace (Nat.ltb j 0) with false by (symmetry; apply Nat.ltb_ge; lia).
    rewrite andb_false_r. reflexivity.
  - destruct i, j; cbn [upd_nat nth_error length]; try reflexivity.
    rewrite IH. reflexivity.
Qed.

Lemma set_idx_ok : forall {A} (l : list A) i a,
  0 <= i < zlen l ->
  exists r, set_idx l i a = Ok r /\ zlen r = zlen l /\
    (forall j, at_z r j = if j =? i then Some a else at_z l j).
Proof.
  intros A l i a H. unfold set_idx. replace ((0 <=? i) && (i <? zlen l)) with true by lia.
  eexists. split; [reflexivity|]. split.
  - unfold zlen. rewrite upd_nat_length. reflexivity.
  - intros j. unfold at_z, zlen in *. destruct (0 <=? j) eqn:E.
    + rewrite upd_nat_nth. destruct (Z.eqb_spec j i).
      * subst. rewrite Nat.eqb_refl.
        replace (Nat.ltb (Z.to_nat i) (length l)) with true by (symmetry; apply Nat.ltb_lt; lia).
        reflexivity.
      * replace (Nat.eqb (Z.to_nat i) (Z.to_nat j)) with false
          by (symmetry; apply Nat.eqb_neq; lia). reflexivity.
    + replace (j =? i) with false by lia. reflexivity.
Qed.

Lemma zseq_length : forall n lo, length (zseq lo n) = n.
Proof. induction n; intros; cbn [zseq length]; auto. Qed.

Lemma zseq_in : forall n lo x, In x (zseq lo n) <-> lo <= x < lo + Z.of_nat n.
Proof.
  induction n as [|n IH]; intros lo x; cbn [zseq In].
  - lia.
  - rewrite IH. lia.
Qed.

Lemma zseq_nodup : forall n lo, NoDup (zseq lo n).
Proof.
  induction n as [|n IH]; intros lo; cbn [zseq]; constructor.
  - rewrite zseq_in. lia.
  - apply IH.
Qed.

Lemma zrange_in : forall lo hi x, In x (zrange lo hi) <-> lo <= x < hi.
Proof. intros. unfold zrange. rewrite zseq_in. lia. Qed.

Lemma at_z_ext : forall {A} (l r : list A),
  zlen l = zlen r -> (forall i, 0 <= i < zlen l -> at_z l i = at_z r i) -> l = r.
Proof.
  intros A l. induction l as [|a l IH]; intros [|b r] HL HE; try reflexivity;
    unfold zlen in HL; cbn [length] in HL; try lia.
  f_equal.
  - specialize (HE 0). unfold zlen in HE. cbn [length] in HE. specialize (HE ltac:(lia)).
    cbn in HE. congruence.
  - apply IH; [unfold zlen; lia|]. intros i Hi. specialize (HE (i + 1)).
    unfold zlen in HE, Hi. cbn [length] in HE. specialize (HE ltac:(lia)). unfold at_z in *.
    replace (0 <=? i + 1) with true in HE by lia. replace (0 <=? i) with true by lia.
    replace (Z.to_nat (i + 1)) with (Datatypes.S (Z.to_nat i)) in HE by lia.
    exact HE.
Qed.

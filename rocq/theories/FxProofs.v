(** Proofs about ids made from names. *)
From Coq Require Import Lia.
From Verif Require Import Machine FxModel.

Definition fx_inverse : Z := 2323857671730065597.
Definition word (x : Z) : Prop := 0 <= x < u64.

Lemma bits_word x : word x <-> 0 <= x /\ Z.shiftr x 64 = 0.
Proof.
  unfold word, u64. rewrite Z.shiftr_div_pow2 by lia. split; intros (A & B).
  - split; [exact A|]. apply Z.div_small. lia.
  - split; [exact A|]. apply Z.div_small_iff in B; lia.
Qed.
Lemma lxor_word x y : word x -> word y -> word (Z.lxor x y).
Proof.
  rewrite !bits_word. intros (A & B) (C & E). split.
  - apply Z.lxor_nonneg. tauto.
  - rewrite Z.shiftr_lxor, B, E. reflexivity.
Qed.
(** What rotation does to the two parts of a word. *)
Lemma rotate_parts x : word x -> rotate_left_5 x = (x mod 2 ^ 59) * 32 + x / 2 ^ 59 /\ 0 <= x / 2 ^ 59 < 32.
Proof.
  unfold word, rotate_left_5, u64. intros H.
  pose proof (Z.div_mod x (2 ^ 59) ltac:(lia)) as D. pose proof (Z.mod_pos_bound x (2 ^ 59) ltac:(lia)) as M.
  set (q := x / 2 ^ 59) in *. set (r := x mod 2 ^ 59) in *.
  assert (0 <= q < 32) by (subst q; split; [apply Z.div_pos; lia|apply Z.div_lt_upper_bound; lia]).
  replace (x * 32) with (r * 32 + q * 2 ^ 64) by (rewrite D; ring).
  rewrite Z.mod_add by lia. rewrite Z.mod_small by lia. lia.
Qed.
Lemma rotate_word x : word x -> word (rotate_left_5 x).
Proof.
  intros H. destruct (rotate_parts x H) as (-> & Q). pose proof (Z.mod_pos_bound x (2 ^ 59) ltac:(lia)). unfold word, u64. lia.
Qed.
Lemma rotate_inj x y : word x -> word y -> rotate_left_5 x = rotate_left_5 y -> x = y.
Proof.
  intros X Y. destruct (rotate_parts x X) as (-> & A). destruct (rotate_parts y Y) as (-> & B). intros E.
  pose proof (Z.div_mod x (2 ^ 59) ltac:(lia)). pose proof (Z.div_mod y (2 ^ 59) ltac:(lia)). lia.
Qed.
Lemma seed_inverse x : word x -> ((x * fx_seed) mod u64 * fx_inverse) mod u64 = x.
Proof.
  intros H. rewrite Z.mul_mod_idemp_l by (unfold u64; lia). rewrite <- Z.mul_assoc.
  rewrite <- Z.mul_mod_idemp_r by (unfold u64; lia). replace ((fx_seed * fx_inverse) mod u64) with 1 by (vm_compute; reflexivity).
  rewrite Z.mul_1_r. apply Z.mod_small. exact H.
Qed.
Lemma seed_inj x y : word x -> word y -> (x * fx_seed) mod u64 = (y * fx_seed) mod u64 -> x = y.
Proof. intros X Y E. rewrite <- (seed_inverse x X), <- (seed_inverse y Y), E. reflexivity. Qed.
Lemma add_word h i : word (add_to_hash h i).
Proof. unfold add_to_hash. apply Z.mod_pos_bound. unfold u64. lia. Qed.
Lemma add_inj h h' i i' : word h -> word h' -> word i -> word i' ->
  add_to_hash h i = add_to_hash h' i' -> Z.lxor (rotate_left_5 h) i = Z.lxor (rotate_left_5 h') i'.
Proof. intros A B C E H. apply seed_inj; [apply lxor_word; [now apply rotate_word|assumption]..|exact H]. Qed.
Lemma lxor_cancel a b c : Z.lxor a c = Z.lxor b c -> a = b.
Proof.
  intros H. rewrite <- (Z.lxor_0_r a), <- (Z.lxor_0_r b), <- (Z.lxor_nilpotent c), <- !Z.lxor_assoc, H. reflexivity.
Qed.
Lemma add_same_word h h' i : word h -> word h' -> word i -> add_to_hash h i = add_to_hash h' i -> h = h'.
Proof. intros A B C H. apply rotate_inj; [assumption..|]. apply (lxor_cancel _ _ i). now apply add_inj. Qed.
Lemma add_same_hash h i i' : word h -> word i -> word i' -> add_to_hash h i = add_to_hash h i' -> i = i'.
Proof.
  intros A B C H. apply add_inj in H; [|assumption..]. rewrite (Z.lxor_comm _ i), (Z.lxor_comm _ i') in H. exact (lxor_cancel _ _ _ H).
Qed.

(** Bytes and words. *)
Definition byte (b : Z) : Prop := 0 <= b < 256.
Lemma from_bytes_range l : Forall byte l -> 0 <= from_bytes l < 256 ^ Z.of_nat (length l).
Proof.
  induction 1 as [|b l H F IH]; cbn [from_bytes length]; [lia|]. rewrite Nat2Z.inj_succ, Z.pow_succ_r by lia. unfold byte in H. lia.
Qed.
Lemma from_bytes_inj l : forall m, Forall byte l -> Forall byte m -> length l = length m -> from_bytes l = from_bytes m -> l = m.
Proof.
  induction l as [|b l IH]; intros [|c m] F G L E; try discriminate L; [reflexivity|].
  inversion F; inversion G; subst. cbn [from_bytes] in E. unfold byte in *. injection L as L.
  assert (b = c) by lia. subst c. f_equal. apply IH; auto. lia.
Qed.

(** Two words, of four bytes at most and of two bytes at most. *)
Fixpoint upto (n : nat) (z : Z) (f : Z -> bool) : bool := match n with O => true | S n => f z && upto n (z + 1) f end.
Lemma upto_ok n f : forall z0, upto n z0 f = true -> forall z, z0 <= z < z0 + Z.of_nat n -> f z = true.
Proof.
  induction n as [|n IH]; intros z0 H z Hz; [lia|]. cbn [upto] in H. apply andb_prop in H. destruct H as (A & B).
  destruct (Z.eq_dec z z0) as [->|]; [exact A|]. apply (IH (z0 + 1)); [exact B|lia].
Qed.
(** Only the lowest 59 bits count. *)
Definition far (b : Z) : bool :=
  let d := Z.land (b * fx_inverse) (Z.ones 59) in (4294967296 <=? d) && (d <=? 576460752303423488 - 4294967296).
Lemma all_far : upto 4095 (-2047) (fun b => (b =? 0) || far b) = true.
Proof. vm_compute. reflexivity. Qed.

Lemma two_words w v w' v' : 0 <= w < 2 ^ 32 -> 0 <= w' < 2 ^ 32 -> 0 <= v < 2 ^ 16 -> 0 <= v' < 2 ^ 16 ->
  add_to_hash (add_to_hash 0 w) v = add_to_hash (add_to_hash 0 w') v' -> w = w' /\ v = v'.
Proof.
  intros W W' V V' H.
  assert (I : forall k, 0 <= k < 2 ^ 32 -> word k) by (unfold word, u64; intros; lia).
  assert (E : w = w').
  2: { split; [exact E|]. subst w'. apply add_same_hash in H; auto using add_word; apply I; lia. }
  apply add_inj in H; try apply add_word; try (apply I; lia).
  set (X := add_to_hash 0 w) in *. set (X' := add_to_hash 0 w') in *.
  assert (WX : word X) by apply add_word. assert (WX' : word X') by apply add_word.
  assert (T : rotate_left_5 X / 2 ^ 16 = rotate_left_5 X' / 2 ^ 16).
  { apply (f_equal (fun z => Z.shiftr z 16)) in H. rewrite !Z.shiftr_lxor in H.
    rewrite !(Z.shiftr_div_pow2 _ 16) in H by lia. rewrite (Z.div_small v), (Z.div_small v'), !Z.lxor_0_r in H by lia. exact H. }
  destruct (rotate_parts X WX) as (RX & QX). destruct (rotate_parts X' WX') as (RX' & QX').
  rewrite RX, RX' in T.
  assert (T2 : (X mod 2 ^ 59) / 2 ^ 11 = (X' mod 2 ^ 59) / 2 ^ 11).
  { assert (G : forall r q, 0 <= q < 32 -> (r * 32 + q) / 2 ^ 16 = r / 2 ^ 11).
    { intros r q Q. change (2 ^ 16) with (32 * 2 ^ 11). rewrite <- Z.div_div by lia.
      rewrite (Z.add_comm (r * 32)), Z.div_add, (Z.div_small q 32) by lia. reflexivity. }
    rewrite !G in T by assumption. exact T. }
  pose proof (Z.div_mod X (2 ^ 59) ltac:(lia)) as DX. pose proof (Z.div_mod X' (2 ^ 59) ltac:(lia)) as DX'.
  pose proof (Z.div_mod (X mod 2 ^ 59) (2 ^ 11) ltac:(lia)) as EX. pose proof (Z.div_mod (X' mod 2 ^ 59) (2 ^ 11) ltac:(lia)) as EX'.
  pose proof (Z.mod_pos_bound (X mod 2 ^ 59) (2 ^ 11) ltac:(lia)). pose proof (Z.mod_pos_bound (X' mod 2 ^ 59) (2 ^ 11) ltac:(lia)).
  set (b := (X mod 2 ^ 59) mod 2 ^ 11 - (X' mod 2 ^ 59) mod 2 ^ 11).
  set (a := X / 2 ^ 59 - X' / 2 ^ 59).
  assert (DD : X - X' = a * 2 ^ 59 + b) by (subst a b; lia).
  assert (XW : X = (w * fx_seed) mod u64) by reflexivity. assert (XW' : X' = (w' * fx_seed) mod u64) by reflexivity.
  assert (DW : ((a * 2 ^ 59 + b) * fx_inverse) mod u64 = (w - w') mod u64).
  { rewrite <- DD, Z.mul_sub_distr_r, Zminus_mod, XW, XW', !seed_inverse by (apply I; assumption). reflexivity. }
  assert (AA : (b * fx_inverse) mod 2 ^ 59 = (w - w') mod 2 ^ 59).
  { apply (f_equal (fun z => z mod 2 ^ 59)) in DW. unfold u64 in DW.
    assert (Q : forall z, (z mod 2 ^ 64) mod 2 ^ 59 = z mod 2 ^ 59).
    { intros z. pose proof (Z.div_mod z (2 ^ 64) ltac:(lia)) as Dz. rewrite Dz at 2.
      replace (2 ^ 64 * (z / 2 ^ 64) + z mod 2 ^ 64) with (z mod 2 ^ 64 + (32 * (z / 2 ^ 64)) * 2 ^ 59) by ring. now rewrite Z.mod_add by lia. }
    rewrite !Q in DW. rewrite <- DW.
    replace ((a * 2 ^ 59 + b) * fx_inverse) with (b * fx_inverse + (a * fx_inverse) * 2 ^ 59) by ring. now rewrite Z.mod_add by lia. }
  assert (RB : -2048 < b < 2048) by (subst b; lia).
  pose proof (upto_ok _ _ _ all_far b ltac:(lia)) as F2. cbv beta in F2. apply orb_prop in F2.
  destruct F2 as [F2|F2].
  - apply Z.eqb_eq in F2. rewrite F2 in AA. change (0 * fx_inverse) with 0 in AA. rewrite Z.mod_0_l in AA by lia.
    symmetry in AA. apply Z.mod_divide in AA; [|lia]. destruct AA as (k & K). lia.
  - unfold far in F2. rewrite Z.land_ones in F2 by lia. rewrite AA in F2. apply andb_prop in F2. destruct F2 as (Fa & Fb). apply Z.leb_le in Fa, Fb.
    exfalso. destruct (Z_le_gt_dec 0 (w - w')).
    + rewrite Z.mod_small in Fa by lia. lia.
    + assert (E : (w - w') mod 2 ^ 59 = w - w' + 2 ^ 59).
      { symmetry. apply Zmod_unique with (-1); lia. }
      rewrite E in Fb. lia.
Qed.

(** Three words, of four, two and one byte. *)
Definition far_from (lim m z : Z) : bool := let d := Z.land z (Z.ones m) in (d =? 0) || ((lim <=? d) && (d <=? 2 ^ m - lim)).
Lemma far_from_ok lim m z d k : 0 < m -> 0 < lim -> far_from lim m z = true -> d = z + k * 2 ^ m -> - lim < d < lim -> lim <= 2 ^ m -> d = 0.
Proof.
  intros M L F E R LM. unfold far_from in F. cbv zeta in F. rewrite Z.land_ones in F by lia.
  pose proof (Z.div_mod z (2 ^ m) ltac:(lia)) as D. pose proof (Z.mod_pos_bound z (2 ^ m) ltac:(lia)) as B.
  set (q := z / 2 ^ m) in *. set (r := z mod 2 ^ m) in *. set (P := 2 ^ m) in *. clearbody q r P.
  assert (E2 : d = r + (q + k) * P) by (rewrite E, D; ring). generalize dependent (q + k). intros j E2. clear E D.
  apply orb_prop in F. destruct F as [F|F].
  - apply Z.eqb_eq in F. subst r. assert (j = 0 \/ j <= -1 \/ 1 <= j) as [->|[J|J]] by lia; nia.
  - apply andb_prop in F. destruct F as (F1 & F2). apply Z.leb_le in F1, F2.
    assert (0 <= j \/ j <= -1) as [J|J] by lia; nia.
Qed.
Lemma all_far_3 : upto 15 (-7) (fun b => upto 2 0 (fun k =>
   let q := Z.shiftr (Z.land (b * fx_inverse) (Z.ones 59)) 16 in
   upto 4095 (-2047) (fun x => far_from 4294967296 54 ((2048 * (q + k) + x) * fx_inverse)))) = true.
Proof. vm_compute. reflexivity. Qed.
Lemma all_far_1 : upto 15 (-7) (fun b => far_from 65536 59 (b * fx_inverse)) = true.
Proof. vm_compute. reflexivity. Qed.

Lemma high_part k h v : 0 <= k -> 0 <= v < 2 ^ k -> Z.lxor h v / 2 ^ k = h / 2 ^ k.
Proof.
  intros K V. rewrite <- !Z.shiftr_div_pow2 by exact K. rewrite Z.shiftr_lxor, (Z.shiftr_div_pow2 v) by exact K.
  rewrite (Z.div_small v), Z.lxor_0_r by lia. reflexivity.
Qed.
Lemma rotate_high j h : word h -> 0 <= j -> rotate_left_5 h / 2 ^ (5 + j) = (h mod 2 ^ 59) / 2 ^ j.
Proof.
  intros W J. destruct (rotate_parts h W) as (-> & Q). rewrite Z.pow_add_r by lia. change (2 ^ 5) with 32.
  rewrite <- Z.div_div by lia. rewrite (Z.add_comm (_ * 32)), Z.div_add, (Z.div_small (h / 2 ^ 59) 32) by lia. reflexivity.
Qed.
(** A product with the seed, up to multiples of the word size. *)
Lemma times_seed z : exists k, z * fx_seed = (z * fx_seed) mod u64 + k * 2 ^ 64.
Proof. exists (z * fx_seed / u64). pose proof (Z.div_mod (z * fx_seed) u64 ltac:(unfold u64; lia)). unfold u64 in *. lia. Qed.
Lemma undo_seed z d m k : 0 <= m <= 64 -> z * fx_seed = d + k * 2 ^ m -> exists j, z = d * fx_inverse + j * 2 ^ m.
Proof.
  intros M E. exists (k * fx_inverse - z * 739706870995725965 * 2 ^ (64 - m)).
  assert (P : 2 ^ (64 - m) * 2 ^ m = 2 ^ 64) by (rewrite <- Z.pow_add_r by lia; f_equal; lia).
  assert (C : fx_seed * fx_inverse = 1 + 739706870995725965 * 2 ^ 64) by (vm_compute; reflexivity).
  apply (f_equal (fun y => y * fx_inverse)) in E. rewrite <- Z.mul_assoc, C in E.
  replace (d * fx_inverse + (k * fx_inverse - z * 739706870995725965 * 2 ^ (64 - m)) * 2 ^ m)
    with ((d + k * 2 ^ m) * fx_inverse - z * 739706870995725965 * (2 ^ (64 - m) * 2 ^ m)) by ring.
  rewrite P, <- E. ring.
Qed.

Lemma three_words w v t w' v' t' : 0 <= w < 2 ^ 32 -> 0 <= w' < 2 ^ 32 -> 0 <= v < 2 ^ 16 -> 0 <= v' < 2 ^ 16 ->
  0 <= t < 2 ^ 8 -> 0 <= t' < 2 ^ 8 ->
  add_to_hash (add_to_hash (add_to_hash 0 w) v) t = add_to_hash (add_to_hash (add_to_hash 0 w') v') t' -> w = w' /\ v = v' /\ t = t'.
Proof.
  intros W W' V V' T T' H.
  assert (I : forall k, 0 <= k < 2 ^ 32 -> word k) by (unfold word, u64; intros; lia).
  pose proof H as H0. apply add_inj in H; try apply add_word; try (apply I; lia).
  (* the last word *)
  assert (HB : exists b k, -8 < b < 8 /\ add_to_hash (add_to_hash 0 w) v - add_to_hash (add_to_hash 0 w') v' = b + k * 2 ^ 59).
  { apply (f_equal (fun z => z / 2 ^ 8)) in H. rewrite !high_part in H by lia. change (2 ^ 8) with (2 ^ (5 + 3)) in H.
    rewrite !rotate_high in H by (apply add_word || lia).
    set (X := add_to_hash (add_to_hash 0 w) v) in *. set (X' := add_to_hash (add_to_hash 0 w') v') in *. clearbody X X'.
    pose proof (Z.div_mod X (2 ^ 59) ltac:(lia)). pose proof (Z.div_mod X' (2 ^ 59) ltac:(lia)).
    pose proof (Z.div_mod (X mod 2 ^ 59) (2 ^ 3) ltac:(lia)). pose proof (Z.div_mod (X' mod 2 ^ 59) (2 ^ 3) ltac:(lia)).
    pose proof (Z.mod_pos_bound (X mod 2 ^ 59) (2 ^ 3) ltac:(lia)). pose proof (Z.mod_pos_bound (X' mod 2 ^ 59) (2 ^ 3) ltac:(lia)).
    exists ((X mod 2 ^ 59) mod 2 ^ 3 - (X' mod 2 ^ 59) mod 2 ^ 3), (X / 2 ^ 59 - X' / 2 ^ 59). split; lia. }
  destruct HB as (b & k & RB & HB).
  (* the word before *)
  set (X := add_to_hash 0 w) in *. set (X' := add_to_hash 0 w') in *.
  assert (WX : word X) by apply add_word. assert (WX' : word X') by apply add_word.
  set (Y := Z.lxor (rotate_left_5 X) v). set (Y' := Z.lxor (rotate_left_5 X') v').
  assert (HY : exists j, Y - Y' = b * fx_inverse + j * 2 ^ 59).
  { destruct (times_seed Y) as (k1 & E1). destruct (times_seed Y') as (k2 & E2).
    change (add_to_hash X v) with ((Y * fx_seed) mod u64) in HB. change (add_to_hash X' v') with ((Y' * fx_seed) mod u64) in HB.
    apply (undo_seed (Y - Y') b 59 (k + (k1 - k2) * 32)); [lia|]. rewrite Z.mul_sub_distr_r, E1, E2. lia. }
  destruct HY as (j & HY).
  assert (Q1 : Y / 2 ^ 16 = (X mod 2 ^ 59) / 2 ^ 11).
  { subst Y. rewrite high_part by lia. change (2 ^ 16) with (2 ^ (5 + 11)). apply rotate_high; [exact WX|lia]. }
  assert (Q1' : Y' / 2 ^ 16 = (X' mod 2 ^ 59) / 2 ^ 11).
  { subst Y'. rewrite high_part by lia. change (2 ^ 16) with (2 ^ (5 + 11)). apply rotate_high; [exact WX'|lia]. }
  pose proof (Z.div_mod Y (2 ^ 16) ltac:(lia)) as DY. pose proof (Z.div_mod Y' (2 ^ 16) ltac:(lia)) as DY'.
  pose proof (Z.mod_pos_bound Y (2 ^ 16) ltac:(lia)) as MY. pose proof (Z.mod_pos_bound Y' (2 ^ 16) ltac:(lia)) as MY'.
  assert (E : w = w').
  { pose proof (Z.div_mod X (2 ^ 59) ltac:(lia)) as DX. pose proof (Z.div_mod X' (2 ^ 59) ltac:(lia)) as DX'.
    pose proof (Z.div_mod (X mod 2 ^ 59) (2 ^ 11) ltac:(lia)) as EX. pose proof (Z.div_mod (X' mod 2 ^ 59) (2 ^ 11) ltac:(lia)) as EX'.
    pose proof (Z.mod_pos_bound (X mod 2 ^ 59) (2 ^ 11) ltac:(lia)). pose proof (Z.mod_pos_bound (X' mod 2 ^ 59) (2 ^ 11) ltac:(lia)).
    set (x := (X mod 2 ^ 59) mod 2 ^ 11 - (X' mod 2 ^ 59) mod 2 ^ 11).
    set (Q := Y / 2 ^ 16 - Y' / 2 ^ 16). set (f := Y mod 2 ^ 16 - Y' mod 2 ^ 16).
    assert (FQ : Y - Y' = 2 ^ 16 * Q + f) by (subst Q f; lia). assert (RF : -65536 < f < 65536) by (subst f; lia).
    assert (XQ : X - X' = 2048 * Q + x + (X / 2 ^ 59 - X' / 2 ^ 59) * 2 ^ 59).
    { subst Q x. rewrite Q1, Q1'. lia. }
    assert (RX : -2048 < x < 2048) by (subst x; lia).
    pose proof (upto_ok _ _ _ all_far_3 b ltac:(lia)) as F. cbv beta in F.
    set (q0 := Z.shiftr (Z.land (b * fx_inverse) (Z.ones 59)) 16) in F.
    assert (K : exists c l, (c = 0 \/ c = 1) /\ Q = q0 + c + l * 2 ^ 43).
    { subst q0. rewrite Z.shiftr_div_pow2, Z.land_ones by lia.
      pose proof (Z.div_mod (b * fx_inverse) (2 ^ 59) ltac:(lia)) as DB. set (r := (b * fx_inverse) mod 2 ^ 59) in *.
      pose proof (Z.div_mod r (2 ^ 16) ltac:(lia)) as DR. pose proof (Z.mod_pos_bound r (2 ^ 16) ltac:(lia)) as MR.
      set (l := j + b * fx_inverse / 2 ^ 59).
      assert (EQ : 2 ^ 16 * (Q - r / 2 ^ 16 - l * 2 ^ 43) = r mod 2 ^ 16 - f) by (subst l; lia).
      exists (Q - r / 2 ^ 16 - l * 2 ^ 43), l. split; [lia|ring]. }
    destruct K as (c & l & HC & HQ).
    assert (F2 : far_from 4294967296 54 ((2048 * (q0 + c) + x) * fx_inverse) = true).
    { pose proof (upto_ok _ _ _ F c ltac:(lia)) as F1. cbv beta in F1. exact (upto_ok _ _ _ F1 x ltac:(lia)). }
    destruct (times_seed w) as (k1 & E1). destruct (times_seed w') as (k2 & E2).
    change ((w * fx_seed) mod u64) with X in E1. change ((w' * fx_seed) mod u64) with X' in E2.
    destruct (undo_seed (w - w') (2048 * (q0 + c) + x) 54 (l + (X / 2 ^ 59 - X' / 2 ^ 59) * 32 + (k1 - k2) * 1024)) as (i & EI); [lia|..].
    { rewrite Z.mul_sub_distr_r, E1, E2. replace (X + k1 * 2 ^ 64 - (X' + k2 * 2 ^ 64)) with (X - X' + (k1 - k2) * 2 ^ 64) by ring.
      rewrite XQ, HQ. ring. }
    pose proof (far_from_ok 4294967296 54 _ (w - w') i ltac:(lia) ltac:(lia) F2 EI ltac:(lia) ltac:(lia)). lia. }
  split; [exact E|].
  assert (EX : X = X') by (subst X X'; now rewrite E).
  assert (EV : Y - Y' = 0).
  { pose proof (upto_ok _ _ _ all_far_1 b ltac:(lia)) as F. cbv beta in F.
    rewrite EX in Q1. refine (far_from_ok 65536 59 _ (Y - Y') j _ _ F HY _ _); lia. }
  assert (v = v').
  { assert (EY : Y = Y') by lia. subst Y Y'. rewrite EX in EY. rewrite (Z.lxor_comm _ v), (Z.lxor_comm _ v') in EY. exact (lxor_cancel _ _ _ EY). }
  subst v'. split; [reflexivity|]. rewrite EX in H0. apply add_same_hash in H0; auto using add_word; apply I; lia.
Qed.

Lemma short_ids n m : Forall byte n -> Forall byte m -> length n = length m -> (length n <= 8)%nat ->
  generate_id_from_name n = generate_id_from_name m -> n = m.
Proof.
  intros F G L S H. unfold generate_id_from_name in H.
  assert (W0 : word 0) by (unfold word, u64; lia).
  assert (K : fx_write 0 n = fx_write 0 m).
  { assert (W : forall l, (length l <= 8)%nat -> word (fx_write 0 l)).
    { intros l Hl. do 9 (destruct l as [|? l]; [try (cbn [length] in Hl; lia); try exact W0; apply add_word|]). cbn [length] in Hl. lia. }
    apply (add_same_word _ _ 255); [apply W; exact S|apply W; rewrite <- L; exact S|unfold word, u64; lia|exact H]. }
  clear H. assert (B : forall l, Forall byte l -> (length l <= 8)%nat -> word (from_bytes l)).
  { intros l Hl Ll. pose proof (from_bytes_range l Hl). unfold word, u64.
    assert (256 ^ Z.of_nat (length l) <= 256 ^ 8) by (apply Z.pow_le_mono_r; lia). change (256 ^ 8) with (2 ^ 64) in *. lia. }
  assert (ONE : forall l l', Forall byte l -> Forall byte l' -> length l = length l' -> (length l <= 8)%nat ->
    add_to_hash 0 (from_bytes l) = add_to_hash 0 (from_bytes l') -> l = l').
  { intros l l' A A' E E' Q. apply from_bytes_inj; auto. apply (add_same_hash 0); auto. apply B; auto. lia. }
  assert (TWO : forall k l k' l', Forall byte (k ++ l) -> Forall byte (k' ++ l') -> length k = length k' -> length l = length l' ->
    (length k <= 4)%nat -> (length l <= 2)%nat ->
    add_to_hash (add_to_hash 0 (from_bytes k)) (from_bytes l) = add_to_hash (add_to_hash 0 (from_bytes k')) (from_bytes l') -> (k ++ l = k' ++ l')%list).
  { intros k l k' l' A A' Ek El Lk Ll Q. apply Forall_app in A, A'. destruct A as (Ak & Al), A' as (Ak' & Al').
    assert (R : forall q j, Forall byte q -> (length q <= j)%nat -> 0 <= from_bytes q < 256 ^ Z.of_nat j).
    { intros q j Hq Hj. pose proof (from_bytes_range q Hq).
      assert (256 ^ Z.of_nat (length q) <= 256 ^ Z.of_nat j) by (apply Z.pow_le_mono_r; lia). lia. }
    apply two_words in Q.
    - destruct Q as (Q1 & Q2). f_equal; apply from_bytes_inj; auto.
    - exact (R k 4%nat Ak Lk).
    - exact (R k' 4%nat Ak' ltac:(lia)).
    - exact (R l 2%nat Al Ll).
    - exact (R l' 2%nat Al' ltac:(lia)). }
  assert (ZZ : forall b, from_bytes [b] = b) by (intros; cbn [from_bytes]; ring).
  destruct n as [|n0 [|n1 [|n2 [|n3 [|n4 [|n5 [|n6 [|n7 [|n8 n]]]]]]]]]; cbn [length] in S; try lia;
  destruct m as [|m0 [|m1 [|m2 [|m3 [|m4 [|m5 [|m6 [|m7 [|m8 m]]]]]]]]]; try discriminate L.
  - reflexivity.
  - change (add_to_hash 0 n0 = add_to_hash 0 m0) in K. rewrite <- (ZZ n0), <- (ZZ m0) in K. apply ONE; auto; cbn [length]; lia.
  - apply ONE; auto; cbn [length]; lia.
  - change (add_to_hash (add_to_hash 0 (from_bytes [n0; n1])) n2 = add_to_hash (add_to_hash 0 (from_bytes [m0; m1])) m2) in K.
    rewrite <- (ZZ n2), <- (ZZ m2) in K. apply (TWO [n0; n1] [n2] [m0; m1] [m2]); auto; cbn [length]; lia.
  - apply ONE; auto; cbn [length]; lia.
  - change (add_to_hash (add_to_hash 0 (from_bytes [n0; n1; n2; n3])) n4 = add_to_hash (add_to_hash 0 (from_bytes [m0; m1; m2; m3])) m4) in K.
    rewrite <- (ZZ n4), <- (ZZ m4) in K. apply (TWO [n0; n1; n2; n3] [n4] [m0; m1; m2; m3] [m4]); auto; cbn [length]; lia.
  - apply (TWO [n0; n1; n2; n3] [n4; n5] [m0; m1; m2; m3] [m4; m5]); auto; cbn [length]; lia.
  - change (add_to_hash (add_to_hash (add_to_hash 0 (from_bytes [n0; n1; n2; n3])) (from_bytes [n4; n5])) n6 =
      add_to_hash (add_to_hash (add_to_hash 0 (from_bytes [m0; m1; m2; m3])) (from_bytes [m4; m5])) m6) in K.
    change [n0; n1; n2; n3; n4; n5; n6] with ([n0; n1; n2; n3] ++ [n4; n5] ++ [n6])%list in *.
    change [m0; m1; m2; m3; m4; m5; m6] with ([m0; m1; m2; m3] ++ [m4; m5] ++ [m6])%list in *.
    apply Forall_app in F, G. destruct F as (F1 & F2), G as (G1 & G2). apply Forall_app in F2, G2. destruct F2 as (F2 & F3), G2 as (G2 & G3).
    pose proof (from_bytes_range _ F1). pose proof (from_bytes_range _ F2). pose proof (from_bytes_range _ F3).
    pose proof (from_bytes_range _ G1). pose proof (from_bytes_range _ G2). pose proof (from_bytes_range _ G3).
    rewrite <- (ZZ n6), <- (ZZ m6) in K. apply three_words in K; try assumption. destruct K as (K1 & K2 & K3).
    f_equal; [now apply from_bytes_inj|]. f_equal; now apply from_bytes_inj.
  - apply ONE; auto; cbn [length]; lia.
Qed.

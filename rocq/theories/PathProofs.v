(** Proofs about frame padding. *)
From Verif Require Import Machine Loops PathModel PathSpec.

(* ---------------------------- scanning ---------------------------- *)

Lemma scan_run : forall n post i s e,
  match post with [] => True | c :: _ => c <> 35 end ->
  scan (repeat 35 n ++ post) i s e true = (s, if Nat.eqb n 0 then e else i + Z.of_nat n).
Proof.
  induction n as [|n IH]; intros post i s e HP.
  - cbn [repeat app Nat.eqb]. destruct post as [|c r]; [reflexivity|]. cbn [scan].
    unfold hash_char. replace (c =? 35) with false by lia. reflexivity.
  - cbn [repeat app scan]. unfold hash_char. rewrite Z.eqb_refl. cbn [negb].
    rewrite IH by exact HP. cbn [Nat.eqb]. f_equal. destruct n; cbn [Nat.eqb]; lia.
Qed.

Lemma scan_first : forall pre n post i s e,
  ~ In 35 pre -> match post with [] => True | c :: _ => c <> 35 end ->
  scan (pre ++ repeat 35 (S n) ++ post) i s e false = (i + zlen pre, i + zlen pre + Z.of_nat (S n)).
Proof.
  induction pre as [|c pre IH]; intros n post i s e HN HP.
  - unfold zlen. cbn [app length]. cbn [repeat app scan]. unfold hash_char. rewrite Z.eqb_refl. cbn [negb].
    rewrite scan_run by exact HP. f_equal; [lia|]. destruct n; cbn [Nat.eqb]; lia.
  - cbn [app scan]. unfold hash_char. replace (c =? 35) with false
      by (cbn [In] in HN; symmetry; apply Z.eqb_neq; intros E; apply HN; left; exact E).
    rewrite IH; [| intros H; apply HN; right; exact H | exact HP].
    unfold zlen. cbn [length]. f_equal; lia.
Qed.

Lemma scan_none : forall pre i s e, ~ In 35 pre -> scan pre i s e false = (s, e).
Proof.
  induction pre as [|c pre IH]; intros i s e HN; [reflexivity|].
  cbn [scan]. unfold hash_char. replace (c =? 35) with false
      by (cbn [In] in HN; symmetry; apply Z.eqb_neq; intros E; apply HN; left; exact E).
  apply IH. intros H; apply HN; right; exact H.
Qed.

Lemma expand_run : forall sh v frame pre n post,
  first_run (sh v) pre n post -> 1 <= n ->
  expand_string sh v frame = Ok (pre ++ frame_string n frame ++ post).
Proof.
  intros sh v frame pre n post (Hn & HE & HN & HP) H1. unfold expand_string, find_frame_padding_index_range.
  destruct (Z.to_nat n) as [|k] eqn:EK; [lia|].
  rewrite HE. rewrite scan_first by assumption.
  replace (0 + zlen pre + Z.of_nat (S k) - (0 + zlen pre)) with n by lia.
  replace (n >? 0) with true by lia. unfold create_expanded_string, replace_range.
  assert (LR : zlen (repeat 35 (S k)) = n) by (unfold zlen; rewrite repeat_length; lia).
  rewrite !zlen_app, LR. pose proof (zlen_nonneg pre). pose proof (zlen_nonneg post).
  assert (NK : Z.of_nat (S k) = n) by lia. rewrite NK. rewrite Z.add_0_l.
  replace ((0 <=? zlen pre) && (zlen pre <=? zlen pre + n) &&
    (zlen pre + n <=? zlen pre + (n + zlen post))) with true by lia.
  f_equal. f_equal.
  - replace (Z.to_nat (zlen pre)) with (length pre + 0)%nat by (unfold zlen; lia).
    rewrite firstn_app_2. cbn [firstn]. apply app_nil_r.
  - f_equal. rewrite app_assoc.
    replace (Z.to_nat (zlen pre + n)) with (length (pre ++ repeat 35%Z (S k)) + 0)%nat
      by (rewrite app_length, repeat_length; unfold zlen; lia).
    rewrite skipn_app. rewrite skipn_all2 by lia. cbn [app].
    replace (length (pre ++ repeat 35%Z (S k)) + 0 - length (pre ++ repeat 35%Z (S k)))%nat with O by lia.
    reflexivity.
Qed.

Lemma expand_none : forall sh v frame, ~ In 35 (sh v) -> expand_string sh v frame = Ok (sh v).
Proof.
  intros sh v frame HN. unfold expand_string, find_frame_padding_index_range.
  rewrite scan_none by exact HN. reflexivity.
Qed.

(** Every path has exactly one such splitting. *)
Lemma leading_run : forall s, exists k post, s = repeat 35 k ++ post /\
  match post with [] => True | c :: _ => c <> 35 end.
Proof.
  induction s as [|c s (k & post & E & HP)]; [exists O, []; split; [reflexivity|exact I]|].
  destruct (Z.eq_dec c 35) as [->|N].
  - exists (S k), post. split; [cbn [repeat app]; f_equal; exact E | exact HP].
  - exists O, (c :: s). split; [reflexivity | exact N].
Qed.

Lemma first_run_exists : forall s, exists pre n post, first_run s pre n post /\ (In 35 s -> 1 <= n).
Proof.
  induction s as [|c s (pre & n & post & (Hn & HE & HN & HP) & HI)].
  - exists [], 0, []. split; [|intros []]. split; [lia|]. split; [reflexivity|]. split; [intros []|exact I].
  - destruct (Z.eq_dec c 35) as [->|N].
    + destruct (leading_run s) as (k & q & E & HQ).
      exists [], (Z.of_nat (S k)), q. split; [|lia].
      split; [lia|]. rewrite Nat2Z.id. split; [cbn [repeat app]; f_equal; exact E|].
      split; [intros [] | exact HQ].
    + exists (c :: pre), n, post. split.
      * split; [exact Hn|]. split; [cbn [app]; f_equal; exact HE|].
        split; [intros [E|H]; [lia|auto] | exact HP].
      * intros [E|H]; [lia|auto].
Qed.

(* ---------------------------- digits ---------------------------- *)

Lemma pow10_S : forall f, 10 ^ Z.of_nat (S f) = 10 * 10 ^ Z.of_nat f.
Proof. intros. rewrite Nat2Z.inj_succ, Z.pow_succ_r by lia. reflexivity. Qed.

(** Digits written in front of [acc] read back as the number. *)
Lemma digits_fuel_read : forall fuel n acc,
  0 <= n < 10 ^ Z.of_nat fuel ->
  forall a, 0 <= a -> (exists d, digits_fuel fuel n acc = d ++ acc /\
    read_digits a (d ++ acc) = read_digits (a * 10 ^ zlen d + n) acc /\
    (forall c, In c d -> is_digit c = true) /\
    (fuel = O \/ d <> []) /\
    (n <> 0 -> match d with [] => False | c :: _ => c <> 48 end) /\
    (n = 0 -> fuel <> O -> d = [48]) /\
    n < 10 ^ zlen d /\ (1 < zlen d -> 10 ^ (zlen d - 1) <= n)).
Proof.
  induction fuel as [|f IH]; intros n acc Hn a Ha.
  - assert (n = 0) by (cbn in Hn; lia). subst n. exists []. unfold zlen. cbn [length app digits_fuel].
    split; [reflexivity|]. split; [change (10 ^ Z.of_nat 0) with 1; f_equal; lia|].
    split; [intros c []|]. split; [left; reflexivity|]. split; [intros; lia|]. split; [intros; congruence|].
    split; [change (10 ^ Z.of_nat 0) with 1; lia|]. change (Z.of_nat 0) with 0. lia.
  - cbn [digits_fuel]. rewrite pow10_S in Hn.
    pose proof (Z.div_mod n 10 ltac:(lia)) as DM. pose proof (Z.mod_pos_bound n 10 ltac:(lia)) as MB.
    assert (QP : 0 <= n / 10) by (apply Z.div_pos; lia).
    assert (IDG : is_digit (zero_char + n mod 10) = true) by (unfold is_digit, zero_char; lia).
    destruct (n / 10 =? 0) eqn:E.
    + assert (n / 10 = 0) by lia. exists [zero_char + n mod 10]. cbn [app]. unfold zlen. cbn [length].
      split; [reflexivity|]. split.
      { cbn [read_digits]. rewrite IDG. unfold zero_char. f_equal. change (10 ^ Z.of_nat 1) with 10. lia. }
      split; [intros c [<-|[]]; exact IDG|]. split; [right; discriminate|].
      split; [intros; unfold zero_char; lia|]. split; [intros -> _; reflexivity|].
      split; [change (10 ^ Z.of_nat 1) with 10; lia|]. change (Z.of_nat 1) with 1. lia.
    + destruct (IH (n / 10) ((zero_char + n mod 10) :: acc)) with (a := a)
        as (d & E1 & E2 & E3 & E4 & E5 & E6 & E7 & E8); [|exact Ha|].
      { split; [lia|]. apply Z.div_lt_upper_bound; lia. }
      exists (d ++ [zero_char + n mod 10]). rewrite <- !app_assoc. cbn [app].
      assert (LD : zlen (d ++ [zero_char + n mod 10]) = zlen d + 1) by (rewrite zlen_app; reflexivity).
      pose proof (zlen_nonneg d) as ZD.
      assert (PS : 10 ^ (zlen d + 1) = 10 * 10 ^ zlen d) by (rewrite Z.pow_add_r by lia; lia).
      split; [exact E1|]. split.
      { rewrite E2. cbn [read_digits]. rewrite IDG. rewrite LD, PS. f_equal. unfold zero_char. lia. }
      split.
      { intros c HC. apply in_app_or in HC. destruct HC as [HC|[<-|[]]]; [auto|exact IDG]. }
      split; [right; destruct d; discriminate|].
      split.
      { intros _. specialize (E5 ltac:(lia)). destruct d; [contradiction|exact E5]. }
      split; [intros; lia|]. rewrite LD. rewrite PS. split; [lia|].
      intros _. replace (zlen d + 1 - 1) with (zlen d) by lia.
      destruct (Z.eq_dec (zlen d) 1) as [L1|L1].
      * rewrite L1. cbn. lia.
      * assert (L2 : 1 < zlen d).
        { destruct d as [|x [|y d']]; unfold zlen in *; cbn [length] in *; [contradiction (E5 ltac:(lia))|lia|lia]. }
        specialize (E8 L2). replace (zlen d) with (zlen d - 1 + 1) by lia.
        rewrite Z.pow_add_r by lia. lia.
Qed.

Lemma digits_read : forall n, 0 <= n < 10 ^ 40 -> exists d, digits n = d /\
  (forall a, 0 <= a -> read_digits a d = Some (a * 10 ^ zlen d + n)) /\
  (forall c, In c d -> is_digit c = true) /\ d <> [] /\
  (n <> 0 -> match d with [] => False | c :: _ => c <> 48 end) /\ (n = 0 -> d = [48]) /\
  n < 10 ^ zlen d /\ (1 < zlen d -> 10 ^ (zlen d - 1) <= n).
Proof.
  intros n Hn. exists (digits n). split; [reflexivity|]. unfold digits.
  destruct (digits_fuel_read 40 n [] Hn 0 ltac:(lia)) as (d & E1 & E2 & E3 & E4 & E5 & E6 & E7 & E8).
  rewrite app_nil_r in E1. rewrite E1. split.
  - intros a Ha. destruct (digits_fuel_read 40 n [] Hn a Ha) as (d' & F1 & F2 & _).
    rewrite app_nil_r in F1, F2. rewrite E1 in F1. subst d'. exact F2.
  - split; [exact E3|]. split; [destruct E4; [discriminate|assumption]|]. split; [exact E5|].
    split; [intros; apply E6; [assumption|discriminate]|]. split; [exact E7|exact E8].
Qed.

Lemma read_zeros : forall k d, read_digits 0 (repeat 48 k ++ d) = read_digits 0 d.
Proof. induction k as [|k IH]; intros d; [reflexivity|]. cbn [repeat app read_digits is_digit Z.leb Z.compare Pos.compare Pos.compare_cont andb]. exact (IH d). Qed.

Lemma i32_small : forall z, in_i32 z -> 0 <= Z.abs z < 10 ^ 40.
Proof.
  intros z H. unfold in_i32 in H. assert (2 ^ 31 < 10 ^ 40) by reflexivity. lia.
Qed.

Lemma not_minus : forall d, d <> [] -> (forall c, In c d -> is_digit c = true) ->
  read_number d = read_digits 0 d.
Proof.
  intros [|c r] N H; [contradiction|]. unfold read_number.
  assert (is_digit c = true) by (apply H; left; reflexivity).
  unfold is_digit in H0. replace (c =? 45) with false by lia. reflexivity.
Qed.

Lemma format_padded : forall n frame, 1 <= n -> in_i32 frame -> padded n frame (format_zero_padded n frame).
Proof.
  intros n frame Hn HF. unfold format_zero_padded.
  destruct (digits_read (Z.abs frame) (i32_small _ HF)) as (d & -> & RD & DG & NE & NZ & ZZ & _ & _).
  unfold padded. set (pad := repeat zero_char (Z.to_nat _)).
  assert (PD : forall c, In c (pad ++ d) -> is_digit c = true).
  { intros c HC. apply in_app_or in HC. destruct HC as [HC|HC]; [|auto].
    unfold pad in HC. apply repeat_spec in HC. subst c. reflexivity. }
  assert (PN : pad ++ d <> []) by (destruct pad; [exact NE|discriminate]).
  assert (RR : read_digits 0 (pad ++ d) = Some (Z.abs frame)).
  { unfold pad. change zero_char with 48. rewrite read_zeros, RD by lia. f_equal. }
  pose proof (zlen_nonneg d) as LD.
  assert (LZ : zlen pad = Z.max 0 (n - zlen (if frame <? 0 then [minus_char] else []) - zlen d)).
  { unfold pad, zlen. rewrite repeat_length. lia. }
  destruct (frame <? 0) eqn:E.
  - cbn [app]. split; [|split].
    + unfold read_number, minus_char. cbn [Z.eqb Pos.eqb].
      destruct (pad ++ d) eqn:EP; [contradiction|]. rewrite RR. cbn [option_map]. f_equal. lia.
    + unfold zlen in *. cbn [length] in *. rewrite app_length. lia.
    + intros HL. assert (PZ : pad = []).
      { unfold zlen in *. cbn [length] in *. rewrite app_length in HL. destruct pad; [reflexivity|].
        cbn [length] in *. lia. }
      rewrite PZ. cbn [app]. specialize (NZ ltac:(lia)). destruct d as [|c r]; [contradiction|].
      unfold leading_zero, minus_char. intros H.
      destruct c as [|c|c]; try contradiction.
      do 6 (destruct c as [c|c|]; try contradiction); lia.
  - cbn [app]. split; [|split].
    + rewrite not_minus by assumption. rewrite RR. f_equal. lia.
    + unfold zlen in *. cbn [length] in *. rewrite app_length. lia.
    + intros HL. assert (PZ : pad = []).
      { unfold zlen in *. cbn [length] in *. rewrite app_length in HL. destruct pad; [reflexivity|].
        cbn [length] in *. lia. }
      rewrite PZ. cbn [app].
      destruct (Z.eq_dec frame 0) as [->|NF].
      * rewrite (ZZ eq_refl). intros H. exact H.
      * specialize (NZ ltac:(lia)). destruct d as [|c r]; [contradiction|].
        assert (DC : is_digit c = true) by (apply DG; left; reflexivity). unfold is_digit in DC.
        unfold leading_zero. intros H.
        destruct c as [|c|c]; try contradiction.
        do 6 (destruct c as [c|c|]; try contradiction); lia.
Qed.

(** The padded form is unique: the specification determines the string. *)
Lemma expand_spec : forall sh v frame pre n post,
  first_run (sh v) pre n post -> 1 <= n <= 9 -> in_i32 frame ->
  exists t, expand_string sh v frame = Ok (pre ++ t ++ post) /\ padded n frame t.
Proof.
  intros sh v frame pre n post HR Hn HF. exists (format_zero_padded n frame). split.
  - rewrite (expand_run _ _ _ _ _ _ HR) by lia. unfold frame_string.
    replace ((1 <=? n) && (n <=? 9)) with true by lia. reflexivity.
  - apply format_padded; [lia|exact HF].
Qed.

Lemma expand_inj : forall sh v f g pre n post,
  first_run (sh v) pre n post -> 1 <= n <= 9 -> in_i32 f -> in_i32 g ->
  expand_string sh v f = expand_string sh v g -> f = g.
Proof.
  intros sh v f g pre n post HR Hn HF HG E.
  destruct (expand_spec sh v f pre n post HR Hn HF) as (t & E1 & R1 & _).
  destruct (expand_spec sh v g pre n post HR Hn HG) as (u & E2 & R2 & _).
  rewrite E1, E2 in E. injection E as E. apply app_inv_head in E. apply app_inv_tail in E.
  subst u. congruence.
Qed.

Lemma expand_long : forall sh v f pre n post,
  first_run (sh v) pre n post -> 10 <= n ->
  expand_string sh v f = Ok (pre ++ post).
Proof.
  intros sh v f pre n post HR Hn. rewrite (expand_run _ _ _ _ _ _ HR) by lia.
  unfold frame_string. replace ((1 <=? n) && (n <=? 9)) with false by lia. reflexivity.
Qed.

Lemma expand_total : forall sh v frame, exists r, expand_string sh v frame = Ok r.
Proof.
  intros. destruct (first_run_exists (sh v)) as (pre & n & post & HR & HI).
  destruct (in_dec Z.eq_dec 35 (sh v)) as [H|H].
  - eexists. apply (expand_run _ _ _ _ _ _ HR). auto.
  - eexists. apply expand_none. exact H.
Qed.

(* --------------------------- ordering ---------------------------- *)

Lemma read_app : forall s t a, read_digits a (s ++ t) =
  match read_digits a s with Some b => read_digits b t | None => None end.
Proof.
  induction s as [|c s IH]; intros t a; [reflexivity|]. cbn [app read_digits].
  destruct (is_digit c); [apply IH|reflexivity].
Qed.

Lemma read_bounds : forall s a b, 0 <= a -> read_digits a s = Some b ->
  a * 10 ^ zlen s <= b < (a + 1) * 10 ^ zlen s.
Proof.
  induction s as [|c s IH]; intros a b Ha E.
  - cbn in E. injection E as <-. unfold zlen. cbn. lia.
  - cbn [read_digits] in E. destruct (is_digit c) eqn:D; [|discriminate]. unfold is_digit in D.
    assert (LC : zlen (c :: s) = zlen s + 1) by (unfold zlen; cbn [length]; lia).
    pose proof (zlen_nonneg s). rewrite LC, Z.pow_add_r by lia.
    specialize (IH (a * 10 + (c - 48)) b ltac:(lia) E). assert (0 < 10 ^ zlen s) by (apply Z.pow_pos_nonneg; lia).
    change (10 ^ 1) with 10. nia.
Qed.

(** Digit strings of equal length compare as their numbers. *)
Lemma lex_of_numbers : forall s t a b x y,
  length s = length t -> 0 <= a -> 0 <= b -> a = b ->
  read_digits a s = Some x -> read_digits b t = Some y -> x < y -> lex_lt s t.
Proof.
  induction s as [|c s IH]; intros [|d t] a b x y L Ha Hb E RX RY XY; try discriminate.
  - cbn in RX, RY. injection RX as <-. injection RY as <-. lia.
  - cbn [read_digits] in RX, RY. destruct (is_digit c) eqn:DC; [|discriminate].
    destruct (is_digit d) eqn:DD; [|discriminate]. unfold is_digit in *. injection L as L. cbn [lex_lt].
    subst b. destruct (Z.lt_trichotomy c d) as [H|[H|H]].
    + left. exact H.
    + right. split; [exact H|]. subst d. eapply IH; [exact L| | |reflexivity|exact RX|exact RY|exact XY]; lia.
    + exfalso. pose proof (fun G => read_bounds _ _ _ G RX) as B1. pose proof (fun G => read_bounds _ _ _ G RY) as B2.
      specialize (B1 ltac:(lia)). specialize (B2 ltac:(lia)).
      assert (ZL : zlen s = zlen t) by (unfold zlen; lia). rewrite ZL in B1.
      assert (0 < 10 ^ zlen t) by (apply Z.pow_pos_nonneg; unfold zlen; lia).
      nia.
Qed.

Lemma lex_app : forall pre s t post, length s = length t -> lex_lt s t -> lex_lt (pre ++ s ++ post) (pre ++ t ++ post).
Proof.
  induction pre as [|c pre IH]; intros s t post L H.
  - cbn [app]. revert t L H. induction s as [|a s IHs]; intros [|b t] L H; try discriminate; [contradiction|].
    cbn [app lex_lt] in *. destruct H as [H|[H1 H2]]; [left; exact H|right]. split; [exact H1|].
    apply IHs; [injection L; auto|exact H2].
  - cbn [app lex_lt]. right. split; [reflexivity|]. apply IH; assumption.
Qed.

Lemma format_len : forall n f, 1 <= n <= 9 -> 0 <= f < 10 ^ n -> zlen (format_zero_padded n f) = n.
Proof.
  intros n f Hn Hf. unfold format_zero_padded. replace (f <? 0) with false by lia. cbn [app].
  assert (10 ^ n <= 10 ^ 9) by (apply Z.pow_le_mono_r; lia). change (10 ^ 9) with 1000000000 in *.
  assert (B40 : 1000000000 < 10 ^ 40) by reflexivity.
  destruct (digits_read (Z.abs f)) as (d & -> & _ & _ & NE & _ & _ & _ & LB); [lia|].
  rewrite Z.abs_eq in LB by lia.
  assert (LD : zlen d <= n).
  { destruct (Z.le_gt_cases (zlen d) n) as [H0|H0]; [exact H0|exfalso].
    specialize (LB ltac:(lia)). assert (10 ^ n <= 10 ^ (zlen d - 1)) by (apply Z.pow_le_mono_r; lia). lia. }
  rewrite zlen_app. unfold zlen at 1. rewrite repeat_length. change (zlen []) with 0.
  pose proof (zlen_nonneg d). lia.
Qed.

Lemma format_reads : forall n f, 1 <= n -> 0 <= f -> in_i32 f ->
  read_digits 0 (format_zero_padded n f) = Some f.
Proof.
  intros n f Hn Hf HI. unfold format_zero_padded. replace (f <? 0) with false by lia. cbn [app].
  destruct (digits_read (Z.abs f) (i32_small _ HI)) as (d & -> & RD & _).
  change zero_char with 48. rewrite read_zeros, RD by lia. f_equal. lia.
Qed.

Lemma expand_sorted : forall sh v f g pre n post,
  first_run (sh v) pre n post -> 1 <= n <= 9 -> 0 <= f -> f < g -> g < 10 ^ n ->
  exists s t, expand_string sh v f = Ok s /\ expand_string sh v g = Ok t /\
    length s = length t /\ lex_lt s t.
Proof.
  intros sh v f g pre n post HR Hn Hf Hfg Hg.
  assert (10 ^ n <= 10 ^ 9) by (apply Z.pow_le_mono_r; lia). change (10 ^ 9) with 1000000000 in *.
  assert (2 ^ 31 = 2147483648) by reflexivity.
  exists (pre ++ format_zero_padded n f ++ post), (pre ++ format_zero_padded n g ++ post).
  split; [|split; [|split]].
  - rewrite (expand_run _ _ _ _ _ _ HR) by lia. unfold frame_string.
    replace ((1 <=? n) && (n <=? 9)) with true by lia. reflexivity.
  - rewrite (expand_run _ _ _ _ _ _ HR) by lia. unfold frame_string.
    replace ((1 <=? n) && (n <=? 9)) with true by lia. reflexivity.
  - pose proof (format_len n f Hn ltac:(lia)). pose proof (format_len n g Hn ltac:(lia)).
    rewrite !app_length. unfold zlen in *. lia.
  - pose proof (format_len n f Hn ltac:(lia)). pose proof (format_len n g Hn ltac:(lia)).
    assert (L : length (format_zero_padded n f) = length (format_zero_padded n g)) by (unfold zlen in *; lia).
    apply lex_app; [exact L|].
    eapply lex_of_numbers with (a := 0) (b := 0); [exact L|lia|lia|reflexivity| | |exact Hfg].
    + apply format_reads; unfold in_i32; lia.
    + apply format_reads; unfold in_i32; lia.
Qed.

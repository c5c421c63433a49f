From Coq Require String.
Import String.StringSyntax.
From Coq Require Import Lia.
From Verif Require Import Machine PathModel LutModel LensModel CrateProofs NameModel NameSpec.
Local Open Scope string_scope.

(* ---------------- C strings ---------------- *)
Lemma before_zero_here name r : ~ In 0 name -> before_zero (name ++ 0 :: r) = Some name.
Proof.
  induction name as [|b t IH]; intros N; cbn [app before_zero]; [reflexivity|].
  destruct (b =? 0) eqn:E; [apply Z.eqb_eq in E; exfalso; apply N; left; exact E|].
  rewrite IH; [reflexivity|]. intro I. apply N. right. exact I.
Qed.
Lemma before_zero_none s : ~ In 0 s -> before_zero s = None.
Proof.
  induction s as [|b t IH]; intros N; cbn [before_zero]; [reflexivity|].
  destruct (b =? 0) eqn:E; [apply Z.eqb_eq in E; exfalso; apply N; left; exact E|].
  rewrite IH; [reflexivity|]. intro I. apply N. right. exact I.
Qed.
Lemma heard_terminated name r beyond : ~ In 0 name -> heard beyond (name ++ 0 :: r) = name.
Proof. intro N. unfold heard. rewrite before_zero_here by exact N. reflexivity. Qed.
Lemma heard_unterminated s beyond : ~ In 0 s -> heard beyond s = (s ++ beyond)%list.
Proof. intro N. unfold heard. rewrite before_zero_none by exact N. reflexivity. Qed.

(* ---------------- UTF-8 ---------------- *)
Lemma utf8_nil : utf8 [].
Proof. exists []. split; [constructor|reflexivity]. Qed.
Lemma utf8_cons c s : scalar c -> utf8 s -> utf8 (utf8_char c ++ s).
Proof. intros C (cs & F & ->). exists (c :: cs). split; [constructor; assumption|reflexivity]. Qed.
Lemma utf8_app s t : utf8 s -> utf8 t -> utf8 (s ++ t).
Proof.
  intros (cs & F & ->) (ds & G & ->). exists (cs ++ ds)%list. split; [apply Forall_app; split; assumption|].
  rewrite map_app, concat_app. reflexivity.
Qed.
Lemma utf8_zeros n : utf8 (repeat 0 n).
Proof.
  induction n as [|n IH]; [exact utf8_nil|]. cbn [repeat].
  change (0 :: repeat 0 n) with (utf8_char 0 ++ repeat 0 n)%list. apply utf8_cons; [left; lia|exact IH].
Qed.

Ltac bools := repeat match goal with
  | H : (_ && _)%bool = true |- _ => apply andb_prop in H; destruct H
  | H : (_ <=? _) = true |- _ => apply Z.leb_le in H
  | H : (_ =? _) = true |- _ => apply Z.eqb_eq in H
  | H : (_ <? _) = true |- _ => apply Z.ltb_lt in H
  | H : (_ <? _) = false |- _ => apply Z.ltb_ge in H
  end.
Ltac decide_between := repeat match goal with
  | |- context [?a <? ?b] => destruct (Z.ltb_spec a b); try lia
  | |- context [?a <=? ?b] => destruct (Z.leb_spec a b); try lia
  | |- context [?a =? ?b] => destruct (Z.eqb_spec a b); try lia
  end; try reflexivity.

Lemma between_true lo hi b : between lo hi b = true <-> lo <= b <= hi.
Proof. unfold between. rewrite Bool.andb_true_iff, !Z.leb_le. tauto. Qed.
Lemma follows_mod c : follows (128 + c mod 64) = true.
Proof. apply between_true. pose proof (Z.mod_pos_bound c 64 ltac:(lia)). lia. Qed.

Lemma three_ok a b : second_of_three a b = true <->
  (a = 224 /\ 160 <= b <= 191) \/ (225 <= a <= 236 /\ 128 <= b <= 191) \/ (a = 237 /\ 128 <= b <= 159) \/ (238 <= a <= 239 /\ 128 <= b <= 191).
Proof.
  unfold second_of_three, follows. rewrite !Bool.orb_true_iff, !Bool.andb_true_iff, !between_true, !Z.eqb_eq. tauto.
Qed.
Lemma four_ok a b : second_of_four a b = true <->
  (a = 240 /\ 144 <= b <= 191) \/ (241 <= a <= 243 /\ 128 <= b <= 191) \/ (a = 244 /\ 128 <= b <= 143).
Proof.
  unfold second_of_four, follows. rewrite !Bool.orb_true_iff, !Bool.andb_true_iff, !between_true, !Z.eqb_eq. tauto.
Qed.
Lemma bool_false (b : bool) : (b = true -> False) -> b = false.
Proof. destruct b; [intro H; destruct (H eq_refl)|reflexivity]. Qed.

(** A character is copied. *)
Lemma lossy_char c s : scalar c -> lossy (utf8_char c ++ s) = (utf8_char c ++ lossy s)%list.
Proof.
  intro C. unfold utf8_char. destruct (Z.ltb_spec c 128) as [L|L].
  { cbn [app lossy]. destruct (Z.ltb_spec c 128); [reflexivity|lia]. }
  pose proof (Z.div_mod c 64 ltac:(lia)) as E1. pose proof (Z.mod_pos_bound c 64 ltac:(lia)) as B1.
  destruct (Z.ltb_spec c 2048) as [L2|L2].
  { cbn [app lossy]. destruct (Z.ltb_spec (192 + c / 64) 128); [lia|].
    replace (between 194 223 (192 + c / 64)) with true by (symmetry; apply between_true; lia).
    rewrite follows_mod. reflexivity. }
  pose proof (Z.div_mod (c / 64) 64 ltac:(lia)) as E2. pose proof (Z.mod_pos_bound (c / 64) 64 ltac:(lia)) as B2.
  rewrite Z.div_div in E2 by lia. change (64 * 64) with 4096 in E2.
  destruct (Z.ltb_spec c 65536) as [L3|L3].
  { cbn [app lossy]. destruct (Z.ltb_spec (224 + c / 4096) 128); [lia|].
    rewrite (bool_false (between 194 223 (224 + c / 4096))) by (rewrite between_true; lia).
    replace (between 224 239 (224 + c / 4096)) with true by (symmetry; apply between_true; lia).
    replace (second_of_three (224 + c / 4096) (128 + c / 64 mod 64)) with true by (symmetry; apply three_ok; unfold scalar in C; lia).
    rewrite follows_mod. reflexivity. }
  pose proof (Z.div_mod (c / 4096) 64 ltac:(lia)) as E3. pose proof (Z.mod_pos_bound (c / 4096) 64 ltac:(lia)) as B3.
  rewrite Z.div_div in E3 by lia. change (4096 * 64) with 262144 in E3.
  assert (Q : 0 <= c / 262144 <= 4) by (unfold scalar in C; lia).
  cbn [app lossy]. destruct (Z.ltb_spec (240 + c / 262144) 128); [lia|].
  rewrite (bool_false (between 194 223 (240 + c / 262144))) by (rewrite between_true; lia).
  rewrite (bool_false (between 224 239 (240 + c / 262144))) by (rewrite between_true; lia).
  replace (between 240 244 (240 + c / 262144)) with true by (symmetry; apply between_true; lia).
  replace (second_of_four (240 + c / 262144) (128 + c / 4096 mod 64)) with true by (symmetry; apply four_ok; unfold scalar in C; lia).
  rewrite !follows_mod. reflexivity.
Qed.
Lemma lossy_same s : utf8 s -> lossy s = s.
Proof.
  intros (cs & F & ->). induction F as [|c cs C F IH]; [reflexivity|]. cbn [map List.concat].
  rewrite lossy_char by exact C. rewrite IH. reflexivity.
Qed.

(** What comes out is UTF-8. *)
Lemma replacement_char : replacement = utf8_char 65533.
Proof. vm_compute. reflexivity. Qed.
Lemma replaced s : utf8 s -> utf8 (replacement ++ s).
Proof. intro U. rewrite replacement_char. apply utf8_cons; [right; lia|exact U]. Qed.
Lemma replaced_alone : utf8 replacement.
Proof. rewrite <- (app_nil_r replacement). apply replaced, utf8_nil. Qed.
Ltac divs := Z.div_mod_to_equations; lia.
Lemma two_char a b : 194 <= a <= 223 -> 128 <= b <= 191 -> exists c, scalar c /\ utf8_char c = [a; b].
Proof.
  intros A B. exists ((a - 192) * 64 + (b - 128)). split; [left; lia|]. unfold utf8_char.
  destruct (Z.ltb_spec ((a - 192) * 64 + (b - 128)) 128); [lia|]. destruct (Z.ltb_spec ((a - 192) * 64 + (b - 128)) 2048); [|lia].
  f_equal; [|f_equal]; divs.
Qed.
Lemma three_char a b c : second_of_three a b = true -> 128 <= c <= 191 -> exists n, scalar n /\ utf8_char n = [a; b; c].
Proof.
  intros A B. apply three_ok in A. remember ((a - 224) * 4096 + (b - 128) * 64 + (c - 128)) as n eqn:N.
  exists n. split; [unfold scalar; lia|]. unfold utf8_char.
  destruct (Z.ltb_spec n 128); [lia|]. destruct (Z.ltb_spec n 2048); [lia|]. destruct (Z.ltb_spec n 65536); [|lia].
  f_equal; [|f_equal; [|f_equal]]; divs.
Qed.
Lemma four_char a b c d : second_of_four a b = true -> 128 <= c <= 191 -> 128 <= d <= 191 -> exists n, scalar n /\ utf8_char n = [a; b; c; d].
Proof.
  intros A B C. apply four_ok in A. remember ((a - 240) * 262144 + (b - 128) * 4096 + (c - 128) * 64 + (d - 128)) as n eqn:N.
  exists n. split; [unfold scalar; lia|]. unfold utf8_char.
  destruct (Z.ltb_spec n 128); [lia|]. destruct (Z.ltb_spec n 2048); [lia|]. destruct (Z.ltb_spec n 65536); [lia|].
  f_equal; [|f_equal; [|f_equal; [|f_equal]]]; divs.
Qed.

Lemma lossy_utf8 : forall n s, (length s <= n)%nat -> Forall (fun b => 0 <= b < 256) s -> utf8 (lossy s).
Proof.
  induction n as [|n IH]; intros s LE F.
  { destruct s; [exact utf8_nil|cbn [length] in LE; lia]. }
  destruct s as [|a s1]; [exact utf8_nil|]. inversion F as [|? ? A F1]; subst. cbn [length] in LE.
  assert (U1 : utf8 (lossy s1)) by (apply IH; [lia|exact F1]).
  cbn [lossy]. destruct (Z.ltb_spec a 128) as [L|L].
  { pose proof (utf8_cons a (lossy s1)) as U. unfold utf8_char in U. destruct (Z.ltb_spec a 128); [|lia]. apply U; [left; lia|exact U1]. }
  destruct (between 194 223 a) eqn:E2; [|destruct (between 224 239 a) eqn:E3; [|destruct (between 240 244 a) eqn:E4]].
  - apply between_true in E2. destruct s1 as [|b s2]; [exact replaced_alone|]. destruct (follows b) eqn:E; [|exact (replaced _ U1)].
    apply between_true in E. inversion F1 as [|? ? _ F2]; subst. cbn [length] in LE. destruct (two_char a b E2 E) as (c & C & EC).
    pose proof (utf8_cons c (lossy s2) C) as U. rewrite EC in U. apply U. apply IH; [lia|exact F2].
  - destruct s1 as [|b s2]; [exact replaced_alone|]. destruct (second_of_three a b) eqn:E; [|exact (replaced _ U1)].
    inversion F1 as [|? ? _ F2]; subst. cbn [length] in LE. assert (U2 : utf8 (lossy s2)) by (apply IH; [lia|exact F2]).
    destruct s2 as [|c s3]; [exact replaced_alone|]. destruct (follows c) eqn:EC; [|exact (replaced _ U2)].
    apply between_true in EC. inversion F2 as [|? ? _ F3]; subst. cbn [length] in LE. destruct (three_char a b c E EC) as (m & M & EM).
    pose proof (utf8_cons m (lossy s3) M) as U. rewrite EM in U. apply U. apply IH; [lia|exact F3].
  - destruct s1 as [|b s2]; [exact replaced_alone|]. destruct (second_of_four a b) eqn:E; [|exact (replaced _ U1)].
    inversion F1 as [|? ? _ F2]; subst. cbn [length] in LE. assert (U2 : utf8 (lossy s2)) by (apply IH; [lia|exact F2]).
    destruct s2 as [|c s3]; [exact replaced_alone|]. destruct (follows c) eqn:EC; [|exact (replaced _ U2)].
    inversion F2 as [|? ? _ F3]; subst. cbn [length] in LE. assert (U3 : utf8 (lossy s3)) by (apply IH; [lia|exact F3]).
    destruct s3 as [|d s4]; [exact replaced_alone|]. destruct (follows d) eqn:ED; [|exact (replaced _ U3)].
    apply between_true in EC, ED. inversion F3 as [|? ? _ F4]; subst. cbn [length] in LE. destruct (four_char a b c d E EC ED) as (m & M & EM).
    pose proof (utf8_cons m (lossy s4) M) as U. rewrite EM in U. apply U. apply IH; [lia|exact F4].
  - exact (replaced _ U1).
Qed.
Theorem lossy_exact s : Forall (fun b => 0 <= b < 256) s -> (lossy s = s <-> utf8 s).
Proof.
  intro F. split; [|exact (lossy_same s)]. intro E. rewrite <- E. exact (lossy_utf8 (length s) s (le_n _) F).
Qed.

(** A zero byte ends whatever came before. *)
Lemma lossy_zero : forall n s r, (length s <= n)%nat -> lossy (s ++ 0 :: r) = (lossy s ++ 0 :: lossy r)%list.
Proof.
  induction n as [|n IH]; intros s r LE.
  { destruct s; [reflexivity|cbn [length] in LE; lia]. }
  destruct s as [|a s1]; [reflexivity|]. cbn [length] in LE. assert (K1 := IH s1 r ltac:(lia)).
  cbn [app lossy]. destruct (a <? 128); [rewrite K1; reflexivity|].
  destruct (between 194 223 a); [|destruct (between 224 239 a); [|destruct (between 240 244 a)]].
  - destruct s1 as [|b s2]; [reflexivity|]. cbn [app] in K1 |- *. cbn [length] in LE.
    destruct (follows b); [rewrite IH by lia; reflexivity|]. rewrite K1, app_assoc. reflexivity.
  - destruct s1 as [|b s2].
    { cbn [app]. replace (second_of_three a 0) with false; [reflexivity|]. symmetry. apply bool_false. rewrite three_ok. lia. }
    cbn [app] in K1 |- *. cbn [length] in LE. assert (K2 := IH s2 r ltac:(lia)).
    destruct (second_of_three a b); [|rewrite K1, app_assoc; reflexivity].
    destruct s2 as [|c s3]; [reflexivity|]. cbn [app] in K2 |- *. cbn [length] in LE.
    destruct (follows c); [rewrite IH by lia; reflexivity|]. rewrite K2, app_assoc. reflexivity.
  - destruct s1 as [|b s2].
    { cbn [app]. replace (second_of_four a 0) with false; [reflexivity|]. symmetry. apply bool_false. rewrite four_ok. lia. }
    cbn [app] in K1 |- *. cbn [length] in LE. assert (K2 := IH s2 r ltac:(lia)).
    destruct (second_of_four a b); [|rewrite K1, app_assoc; reflexivity].
    destruct s2 as [|c s3]; [reflexivity|]. cbn [app] in K2 |- *. cbn [length] in LE. assert (K3 := IH s3 r ltac:(lia)).
    destruct (follows c); [|rewrite K2, app_assoc; reflexivity].
    destruct s3 as [|d s4]; [reflexivity|]. cbn [app] in K3 |- *. cbn [length] in LE.
    destruct (follows d); [rewrite IH by lia; reflexivity|]. rewrite K3, app_assoc. reflexivity.
  - rewrite K1, app_assoc. reflexivity.
Qed.
Lemma lossy_no_zero : forall n s, (length s <= n)%nat -> ~ In 0 s -> ~ In 0 (lossy s).
Proof.
  assert (R : forall l, ~ In 0 l -> ~ In 0 (replacement ++ l)).
  { intros l N I. unfold replacement in I. cbn [app In] in I. destruct I as [I|[I|[I|I]]]; try discriminate I. exact (N I). }
  assert (R0 : ~ In 0 replacement) by (rewrite <- (app_nil_r replacement); apply R; intros []).
  assert (C : forall a l, a <> 0 -> ~ In 0 l -> ~ In 0 (a :: l)) by (intros a l A N [I|I]; [exact (A I)|exact (N I)]).
  induction n as [|n IH]; intros s LE N.
  { destruct s; [exact N|cbn [length] in LE; lia]. }
  destruct s as [|a s1]; [exact N|]. cbn [length] in LE.
  assert (A : a <> 0) by (intro E; apply N; left; exact E). assert (N1 : ~ In 0 s1) by (intro I; apply N; right; exact I).
  assert (K1 := IH s1 ltac:(lia) N1). cbn [lossy]. destruct (a <? 128); [exact (C _ _ A K1)|].
  destruct (between 194 223 a); [|destruct (between 224 239 a); [|destruct (between 240 244 a)]].
  - destruct s1 as [|b s2]; [exact R0|]. cbn [length] in LE. assert (B : b <> 0) by (intro E; apply N1; left; exact E).
    assert (N2 : ~ In 0 s2) by (intro I; apply N1; right; exact I).
    destruct (follows b); [|exact (R _ K1)]. apply C, C, IH; [exact A|exact B|lia|exact N2].
  - destruct s1 as [|b s2]; [exact R0|]. cbn [length] in LE. assert (B : b <> 0) by (intro E; apply N1; left; exact E).
    assert (N2 : ~ In 0 s2) by (intro I; apply N1; right; exact I). assert (K2 := IH s2 ltac:(lia) N2).
    destruct (second_of_three a b); [|exact (R _ K1)]. destruct s2 as [|c s3]; [exact R0|]. cbn [length] in LE.
    assert (D : c <> 0) by (intro E; apply N2; left; exact E). assert (N3 : ~ In 0 s3) by (intro I; apply N2; right; exact I).
    destruct (follows c); [|exact (R _ K2)]. apply C, C, C, IH; [exact A|exact B|exact D|lia|exact N3].
  - destruct s1 as [|b s2]; [exact R0|]. cbn [length] in LE. assert (B : b <> 0) by (intro E; apply N1; left; exact E).
    assert (N2 : ~ In 0 s2) by (intro I; apply N1; right; exact I). assert (K2 := IH s2 ltac:(lia) N2).
    destruct (second_of_four a b); [|exact (R _ K1)]. destruct s2 as [|c s3]; [exact R0|]. cbn [length] in LE.
    assert (D : c <> 0) by (intro E; apply N2; left; exact E). assert (N3 : ~ In 0 s3) by (intro I; apply N2; right; exact I). assert (K3 := IH s3 ltac:(lia) N3).
    destruct (follows c); [|exact (R _ K2)]. destruct s3 as [|d s4]; [exact R0|]. cbn [length] in LE.
    assert (G : d <> 0) by (intro E; apply N3; left; exact E). assert (N4 : ~ In 0 s4) by (intro I; apply N3; right; exact I).
    destruct (follows d); [|exact (R _ K3)]. apply C, C, C, C, IH; [exact A|exact B|exact D|exact G|lia|exact N4].
  - exact (R _ K1).
Qed.

(* ---------------- there and back ---------------- *)
Lemma buffer_zero name : (length name <= 99)%nat -> buffer name = Ok (filled name) /\ exists r, filled name = (name ++ 0 :: r)%list.
Proof.
  intro L. unfold buffer, filled. destruct (Nat.ltb_spec (length name) 100); [|lia]. split; [reflexivity|].
  destruct (100 - length name)%nat as [|k] eqn:E; [lia|]. exists (repeat 0 k). reflexivity.
Qed.
Lemma given_short name : ~ In 0 name -> (length name <= 99)%nat ->
  exists s, given (Some name) = Ok s /\ forall beyond, heard beyond s = lossy name.
Proof.
  intros N L. destruct (buffer_zero name L) as (B & r & E). unfold given. rewrite B. cbn [bind]. eexists. split; [reflexivity|].
  intro beyond. rewrite E, (lossy_zero (length name)) by lia. apply heard_terminated. exact (lossy_no_zero (length name) name (le_n _) N).
Qed.
Lemma given_name name : nameable name -> given (Some name) = Ok (filled name) /\ forall beyond, heard beyond (filled name) = name.
Proof.
  intros (N & U & L). destruct (buffer_zero name L) as (B & r & E). unfold given. rewrite B. cbn [bind]. split.
  - rewrite lossy_same; [reflexivity|]. unfold filled. apply utf8_app; [exact U|apply utf8_zeros].
  - intro beyond. rewrite E. exact (heard_terminated _ _ _ N).
Qed.
Lemma given_back name : c_string name -> (length name <= 99)%nat ->
  exists s, given (Some name) = Ok s /\ forall beyond, (heard beyond s = name <-> utf8 name).
Proof.
  intros (N & F) L. destruct (given_short name N L) as (s & G & H). exists s. split; [exact G|]. intro beyond. rewrite H. exact (lossy_exact name F).
Qed.
Lemma given_long name : (99 < length name)%nat -> given (Some name) = Panic.
Proof. intro L. unfold given, buffer. destruct (Nat.ltb_spec (length name) 100); [lia|reflexivity]. Qed.

(* ---------------- the description ---------------- *)
Section Text.
Variable beyond : list Z -> list Z.
Variables show_type show_f64 : Z -> list Z.
Variable I : lens_info.
Lemma parameter_line i name : li_name I i = Some name -> nameable name ->
  (exists ty, li_type I name = Some ty /\ (numeric ty -> exists dv r, li_default I name = Some dv /\ li_range I name = Some r)) ->
  exists line, parameter_text beyond show_type show_f64 I i = Ok line /\ about show_type show_f64 I name line.
Proof.
  intros E NM (ty & T & K). destruct (given_name name NM) as (G & H). unfold parameter_text. rewrite E, G. cbn [bind].
  rewrite H, T. cbn [unwrap bind]. destruct ((ty =? 1) || (ty =? 5)) eqn:Q.
  - assert (NU : numeric ty) by (apply Bool.orb_prop in Q; destruct Q as [Q|Q]; apply Z.eqb_eq in Q; [left|right]; exact Q).
    destruct (K NU) as (dv & [lo hi] & D & R). rewrite D, R. cbn [unwrap bind fst snd]. eexists. split; [reflexivity|].
    exists ty. split; [exact T|]. left. split; [exact NU|]. exists dv, lo, hi. split; [exact D|]. split; [exact R|reflexivity].
  - eexists. split; [reflexivity|]. exists ty. split; [exact T|]. right. split; [|reflexivity].
    intros [-> | ->]; discriminate Q.
Qed.
Lemma parameter_lines model count name : describable I model count name -> forall n i, (i + n = count)%nat ->
  exists lines, parameters_text beyond show_type show_f64 I (Z.of_nat i) n = Ok (List.concat lines) /\ length lines = n /\
  forall k line, nth_error lines k = Some line -> about show_type show_f64 I (name (i + k)%nat) line.
Proof.
  intros DS. induction n as [|n IH]; intros i E.
  { exists []. split; [reflexivity|]. split; [reflexivity|]. intros [|k] line H; discriminate H. }
  destruct (ds_count _ _ _ _ DS) as (_ & LT). destruct (ds_name _ _ _ _ DS i ltac:(lia)) as (EN & NM).
  destruct (parameter_line (Z.of_nat i) (name i) EN NM (ds_known _ _ _ _ DS i ltac:(lia))) as (line & PT & AB).
  destruct (IH (S i) ltac:(lia)) as (lines & PL & LN & ALL).
  cbn [parameters_text]. rewrite wrap_same by (change two31 with (2 ^ 31); lia). rewrite PT. cbn [bind].
  replace (Z.of_nat i + 1) with (Z.of_nat (S i)) by lia. rewrite PL. cbn [bind]. exists (line :: lines). split; [reflexivity|].
  split; [cbn [length]; rewrite LN; reflexivity|]. intros [|k] l H; cbn [nth_error] in H.
  - injection H as <-. rewrite Nat.add_0_r. exact AB.
  - specialize (ALL k l H). replace (i + S k)%nat with (S i + k)%nat by lia. exact ALL.
Qed.
Theorem lens_described model count name : describable I model count name ->
  exists lines, lens_text beyond show_type show_f64 I =
    Ok (ascii_bytes "Model=" ++ filled model ++ ascii_bytes " number of params=" ++ digits (Z.of_nat count) ++ List.concat lines)%list /\
  length lines = count /\ forall i line, nth_error lines i = Some line -> about show_type show_f64 I (name i) line.
Proof.
  intro DS. destruct (parameter_lines model count name DS count 0 eq_refl) as (lines & PL & LN & ALL).
  destruct (ds_model _ _ _ _ DS) as (EM & NM). destruct (ds_count _ _ _ _ DS) as (EC & LT). destruct (given_name model NM) as (G & _).
  exists lines. split; [|split; [exact LN|intros i line H; exact (ALL i line H)]].
  unfold lens_text. rewrite EM, G, EC. cbn [bind unwrap]. cbv zeta. rewrite Z.mod_small by lia.
  rewrite Nat2Z.id. change 0 with (Z.of_nat 0) at 1. rewrite PL. reflexivity.
Qed.
End Text.

(* ---------------- setting the parameters ---------------- *)
(** The eleven names end where their zero byte is. *)
Lemma heard_said beyond name field : In (name, field) parameters -> heard beyond (said name) = ascii_bytes name.
Proof.
  intro I. unfold parameters in I. repeat (destruct I as [I|I]; [injection I as <- _; vm_compute; reflexivity|]). destruct I.
Qed.
Lemma said_all {L} (hear : L -> list Z -> Z -> option L) (P : plugin L) beyond :
  (forall l n v, pg_set P l n v = hear l (ascii_bytes n) v) ->
  forall v l, say_all hear beyond v parameters l = set_all P v parameters l.
Proof.
  intros HP v. assert (K : forall ps, incl ps parameters -> forall l, say_all hear beyond v ps l = set_all P v ps l); [|apply K, incl_refl].
  induction ps as [|[name field] ps IH]; intros IN l; [reflexivity|]. cbn [say_all set_all].
  rewrite (heard_said _ name field) by (apply IN; left; reflexivity). rewrite HP.
  destruct (hear l (ascii_bytes name) (StreamModel.vf v field)) as [l'|]; [|reflexivity].
  apply IH. intros q I. apply IN. right. exact I.
Qed.

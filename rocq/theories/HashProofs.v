(** Injectivity of the hashed bytes. *)
From Coq Require String.
Import String.StringSyntax.
From Coq Require Import Floats.SpecFloat.
From Verif Require Import Machine FloatModel PathModel PathProofs EnumModel AttrModel HashModel HashSpec.

(* ------------------------------------------------------------------ *)
(** * Little-endian bytes *)

Lemma le_bytes_length n v : length (le_bytes n v) = n.
Proof. revert v; induction n as [|n IH]; intro v; cbn [le_bytes length]; [reflexivity|now rewrite IH]. Qed.

Lemma le_bytes_inj n v v' :
  0 <= v < 256 ^ Z.of_nat n -> 0 <= v' < 256 ^ Z.of_nat n -> le_bytes n v = le_bytes n v' -> v = v'.
Proof.
  revert v v'; induction n as [|n IH]; intros v v' Hv Hv' H.
  - change (256 ^ Z.of_nat 0) with 1 in *. lia.
  - cbn [le_bytes] in H. injection H as H1 H2.
    rewrite Nat2Z.inj_succ, Z.pow_succ_r in Hv, Hv' by lia.
    assert (v / 256 = v' / 256) as E.
    { apply IH; [| |exact H2]; (split; [apply Z.div_pos; lia|apply Z.div_lt_upper_bound; lia]). }
    rewrite (Z.div_mod v 256), (Z.div_mod v' 256) by lia. now rewrite E, H1.
Qed.

Lemma app_split {A} (a a' r r' : list A) :
  length a = length a' -> a ++ r = a' ++ r' -> a = a' /\ r = r'.
Proof.
  revert a'; induction a as [|x a IH]; intros [|y a'] L H; try discriminate L; cbn [app] in H.
  - now split.
  - injection H as -> H. destruct (IH a' ltac:(now injection L) H) as [-> ->]. now split.
Qed.

Lemma le_split n v v' r r' :
  0 <= v < 256 ^ Z.of_nat n -> 0 <= v' < 256 ^ Z.of_nat n ->
  le_bytes n v ++ r = le_bytes n v' ++ r' -> v = v' /\ r = r'.
Proof.
  intros Hv Hv' H. apply app_split in H; [|now rewrite !le_bytes_length].
  destruct H as [H ->]. split; [eapply le_bytes_inj; eauto|reflexivity].
Qed.

Lemma mod_inj_signed m a b :
  0 < m -> - m <= a < m -> - m <= b < m -> a mod (2 * m) = b mod (2 * m) -> a = b.
Proof.
  intros Hm Ha Hb H.
  assert (forall x, - m <= x < m -> x mod (2 * m) = if x <? 0 then x + 2 * m else x) as F.
  { intros x Hx. destruct (Z.ltb_spec x 0).
    - symmetry. apply Z.mod_unique with (-1); lia.
    - apply Z.mod_small; lia. }
  rewrite (F a Ha), (F b Hb) in H.
  destruct (Z.ltb_spec a 0), (Z.ltb_spec b 0); lia.
Qed.

Lemma hash_i32_split a b r r' :
  - 2 ^ 31 <= a < 2 ^ 31 -> - 2 ^ 31 <= b < 2 ^ 31 ->
  hash_i32 a ++ r = hash_i32 b ++ r' -> a = b /\ r = r'.
Proof.
  intros Ha Hb H. unfold hash_i32 in H.
  apply le_split in H; try (apply Z.mod_pos_bound; lia).
  destruct H as [H ->]. split; [|reflexivity].
  apply (mod_inj_signed (2 ^ 31)); [lia|assumption|assumption|exact H].
Qed.

Lemma hash_u64_split a b r r' :
  u64_value a -> u64_value b -> hash_u64 a ++ r = hash_u64 b ++ r' -> a = b /\ r = r'.
Proof.
  unfold u64_value. intros Ha Hb H. unfold hash_u64 in H.
  apply le_split in H; try (apply Z.mod_pos_bound; lia).
  destruct H as [H ->]. split; [|reflexivity]. now rewrite !Z.mod_small in H by lia.
Qed.

(* ------------------------------------------------------------------ *)
(** * Floats *)

Record decoded (bits m e s : Z) : Prop := {
  dc_m : 0 <= m < 2 ^ 24;
  dc_e : -150 <= e <= 105;
  dc_s : s = 1 \/ s = -1;
  dc_sign : (s = 1 <-> bits < 2 ^ 31);
  dc_bits : bits = (if s =? 1 then 0 else 2 ^ 31) + (e + 150) * 2 ^ 23
                   + (if e =? -150 then m / 2 else m - 2 ^ 23)
}.

Lemma decode_spec p bits :
  f32_pattern bits ->
  exists m e s, integer_decode_f32 p bits = Ok (m, e, s) /\ decoded bits m e s.
Proof.
  unfold f32_pattern, integer_decode_f32. intro Hb.
  set (S := Z.shiftr bits 31). set (E := Z.land (Z.shiftr bits 23) 255). set (F := Z.land bits 8388607).
  assert (HS : S = bits / 2 ^ 31) by (unfold S; now rewrite Z.shiftr_div_pow2 by lia).
  assert (HE : E = (bits / 2 ^ 23) mod 256).
  { unfold E. rewrite Z.shiftr_div_pow2 by lia. change 255 with (Z.ones 8). now rewrite Z.land_ones by lia. }
  assert (HF : F = bits mod 2 ^ 23).
  { unfold F. change 8388607 with (Z.ones 23). now rewrite Z.land_ones by lia. }
  assert (HFb : 0 <= F < 2 ^ 23) by (rewrite HF; apply Z.mod_pos_bound; lia).
  assert (HEb : 0 <= E < 256) by (rewrite HE; apply Z.mod_pos_bound; lia).
  assert (HD : bits = S * 2 ^ 31 + E * 2 ^ 23 + F).
  { rewrite HS, HE, HF.
    pose proof (Z.div_mod bits (2 ^ 23) ltac:(lia)).
    pose proof (Z.div_mod (bits / 2 ^ 23) 256 ltac:(lia)).
    rewrite Z.div_div in H0 by lia. change (2 ^ 23 * 256) with (2 ^ 31) in H0. lia. }
  assert (HSb : 0 <= S <= 1).
  { split; [rewrite HS; apply Z.div_pos; lia|]. lia. }
  assert (HL : Z.lor F 8388608 = F + 2 ^ 23).
  { assert (Z.land F (2 ^ 23) = 0) as H0.
    { apply Z.bits_inj'. intros k Hk. rewrite Z.land_spec, Z.bits_0, Z.pow2_bits_eqb by lia.
      destruct (Z.eqb_spec 23 k); [|apply andb_false_r].
      subst k. rewrite HF, Z.mod_pow2_bits_high by lia. reflexivity. }
    rewrite (Z.add_nocarry_lxor F (2 ^ 23) H0). now rewrite Z.lxor_lor by exact H0. }
  assert (HP : i16_of p (E - (127 + 23)) = Ok (E - 150)).
  { unfold i16_of, in_i16.
    replace ((- 2 ^ 15 <=? E - (127 + 23)) && (E - (127 + 23) <? 2 ^ 15)) with true; [reflexivity|].
    symmetry. apply andb_true_intro. split; [apply Z.leb_le|apply Z.ltb_lt]; lia. }
  cbv zeta. rewrite HP. cbn [bind].
  clearbody S E F. clear HP HS HE HF.
  assert (HH : Z.shiftl F 1 mod two32 = 2 * F).
  { rewrite Z.shiftl_mul_pow2 by lia. unfold two32. rewrite Z.mod_small by lia. lia. }
  rewrite HH, HL. clear HH HL.
  do 3 eexists. split; [reflexivity|].
  assert (S = 0 \/ S = 1) as [->| ->] by lia; cbn [Z.eqb Pos.eqb];
    destruct (Z.eqb_spec E 0) as [->|NE]; constructor; cbn [Z.eqb Pos.eqb]; try lia.
  - change (0 - 150 =? -150) with true. cbv iota. rewrite (Z.mul_comm 2 F), Z.div_mul by lia. lia.
  - replace (E - 150 =? -150) with false by (symmetry; apply Z.eqb_neq; lia). lia.
  - change (0 - 150 =? -150) with true. cbv iota. rewrite (Z.mul_comm 2 F), Z.div_mul by lia. lia.
  - replace (E - 150 =? -150) with false by (symmetry; apply Z.eqb_neq; lia). lia.
Qed.

Lemma decode_inj p a b :
  f32_pattern a -> f32_pattern b -> integer_decode_f32 p a = integer_decode_f32 p b -> a = b.
Proof.
  intros Ha Hb H.
  destruct (decode_spec p a Ha) as (m & e & s & E & D).
  destruct (decode_spec p b Hb) as (m' & e' & s' & E' & D').
  rewrite E, E' in H. injection H as -> -> ->.
  rewrite (dc_bits _ _ _ _ D), (dc_bits _ _ _ _ D'). reflexivity.
Qed.

Lemma Ok_inj {A} (a b : A) : Ok a = Ok b -> a = b.
Proof. congruence. Qed.

Lemma hash_f32_length p b h : hash_f32 p b = Ok h -> length h = 11%nat.
Proof.
  unfold hash_f32. destruct (integer_decode_f32 p b) as [[[m e] s]|]; cbn [bind]; [|discriminate].
  intro H. apply Ok_inj in H. subst h. rewrite !app_length. unfold hash_u64, hash_i16, hash_i8.
  now rewrite !le_bytes_length.
Qed.

Lemma hash_f32_ok p b : f32_pattern b -> exists h, hash_f32 p b = Ok h.
Proof.
  intro H. destruct (decode_spec p b H) as (m & e & s & E & _).
  unfold hash_f32. rewrite E. cbn [bind]. eauto.
Qed.

Lemma hash_f32_inj p a b h :
  f32_pattern a -> f32_pattern b -> hash_f32 p a = Ok h -> hash_f32 p b = Ok h -> a = b.
Proof.
  intros Ha Hb. unfold hash_f32.
  destruct (decode_spec p a Ha) as (m & e & s & E & D).
  destruct (decode_spec p b Hb) as (m' & e' & s' & E' & D').
  rewrite E, E'. cbn [bind]. intros H0 H. apply Ok_inj in H0, H. subst h.
  apply (decode_inj p); [assumption|assumption|]. rewrite E, E'. f_equal.
  pose proof (dc_m _ _ _ _ D); pose proof (dc_m _ _ _ _ D').
  pose proof (dc_e _ _ _ _ D); pose proof (dc_e _ _ _ _ D').
  pose proof (dc_s _ _ _ _ D) as Hs; pose proof (dc_s _ _ _ _ D') as Hs'.
  apply hash_u64_split in H; try (unfold u64_value; lia). destruct H as [-> H].
  unfold hash_i16 in H. apply le_split in H; try (apply Z.mod_pos_bound; lia).
  destruct H as [He H]. apply (mod_inj_signed (2 ^ 15)) in He; try lia. subst e'.
  unfold hash_i8 in H.
  rewrite <- (app_nil_r (le_bytes 1 (s' mod 2 ^ 8))), <- (app_nil_r (le_bytes 1 (s mod 2 ^ 8))) in H.
  apply le_split in H; try (apply Z.mod_pos_bound; lia).
  destruct H as [H _]. apply (mod_inj_signed (2 ^ 7)) in H; try lia. now subst s'.
Qed.

Lemma hash_f32s_ok p l : (forall b, In b l -> f32_pattern b) -> exists h, hash_f32s p l = Ok h.
Proof.
  induction l as [|b l IH]; intro H; cbn [hash_f32s]; [eauto|].
  destruct (hash_f32_ok p b) as [h E]; [apply H; now left|].
  destruct IH as [r R]; [intros; apply H; now right|].
  rewrite E, R. cbn [bind]. eauto.
Qed.

Lemma hash_f32s_split p l l' h h' r r' :
  length l = length l' -> (forall b, In b l -> f32_pattern b) -> (forall b, In b l' -> f32_pattern b) ->
  hash_f32s p l = Ok h -> hash_f32s p l' = Ok h' -> h ++ r = h' ++ r' -> l = l' /\ r = r'.
Proof.
  revert l' h h'; induction l as [|a l IH]; intros [|b l'] h h' L Hl Hl' E E' H; try discriminate L.
  - cbn [hash_f32s] in *. injection E as <-. injection E' as <-. now split.
  - cbn [hash_f32s] in E, E'.
    destruct (hash_f32 p a) as [ha|] eqn:Ea; cbn [bind] in E; [|discriminate].
    destruct (hash_f32s p l) as [hl|] eqn:El; cbn [bind] in E; [|discriminate]. injection E as <-.
    destruct (hash_f32 p b) as [hb|] eqn:Eb; cbn [bind] in E'; [|discriminate].
    destruct (hash_f32s p l') as [hl'|] eqn:El'; cbn [bind] in E'; [|discriminate]. injection E' as <-.
    rewrite <- !app_assoc in H.
    apply app_split in H; [|now rewrite (hash_f32_length _ _ _ Ea), (hash_f32_length _ _ _ Eb)].
    destruct H as [<- H].
    assert (a = b) by (eapply (hash_f32_inj p); eauto; [apply Hl|apply Hl']; now left). subst b.
    destruct (IH l' hl hl') as [-> ->]; auto; intros; [apply Hl|apply Hl']; now right.
Qed.

(* ------------------------------------------------------------------ *)
(** * Strings and inputs *)

Lemma hash_str_split s s' r r' :
  ~ In 255 s -> ~ In 255 s' -> hash_str s ++ r = hash_str s' ++ r' -> s = s' /\ r = r'.
Proof.
  unfold hash_str. revert s'; induction s as [|a s IH]; intros [|b s'] Hs Hs' H; cbn [app] in H.
  - injection H as ->. now split.
  - injection H as H _. exfalso. apply Hs'. now left.
  - injection H as H _. exfalso. apply Hs. now left.
  - injection H as -> H. destruct (IH s') as [-> ->]; auto; intro K; [apply Hs|apply Hs']; now right.
Qed.

Lemma hash_inputs_inj ins ins' :
  Forall u64_value ins -> Forall u64_value ins' ->
  concat (map hash_u64 ins) = concat (map hash_u64 ins') -> ins = ins'.
Proof.
  revert ins'; induction ins as [|a ins IH]; intros [|b ins'] Hi Hi' H; cbn [map concat] in H.
  - reflexivity.
  - apply (f_equal (@length Z)) in H. rewrite app_length in H. unfold hash_u64 in H.
    rewrite le_bytes_length in H. discriminate H.
  - apply (f_equal (@length Z)) in H. rewrite app_length in H. unfold hash_u64 in H.
    rewrite le_bytes_length in H. discriminate H.
  - inversion_clear Hi. inversion_clear Hi'. apply hash_u64_split in H; auto.
    destruct H as [-> H]. f_equal. now apply IH.
Qed.

(* ------------------------------------------------------------------ *)
(** * Attribute hashes per node type *)

Section Keys.
Variable p : profile.
Variable expand : list Z -> list Z.
Local Open Scope string_scope.

Lemma wf_f32s b l : wf_block b -> forall x, In x (map (b_f32 b) l) -> f32_pattern x.
Proof. intros (_ & H & _) x Hx. apply in_map_iff in Hx. destruct Hx as (n & <- & _). apply H. Qed.

Lemma map_f32_agree b b' l :
  map (b_f32 b) l = map (b_f32 b') l -> agree_on (map AF32 l) b b'.
Proof.
  intros H a Ha. apply in_map_iff in Ha. destruct Ha as (n & <- & Hn).
  clear -H Hn. induction l as [|m l IH]; [destruct Hn|].
  cbn [map] in H. injection H as H1 H2. destruct Hn as [->|Hn]; [exact H1|exact (IH H2 Hn)].
Qed.

Lemma agree_nil b b' : agree_on [] b b'.
Proof. intros a []. Qed.
Lemma agree_cons a l b b' :
  match a with AI32 n => b_i32 b n = b_i32 b' n | AF32 n => b_f32 b n = b_f32 b' n
             | AStr n => b_str b n = b_str b' n end ->
  agree_on l b b' -> agree_on (a :: l) b b'.
Proof. intros H K x [<-|Hx]; [exact H|exact (K x Hx)]. Qed.
Lemma agree_app l l' b b' : agree_on l b b' -> agree_on l' b b' -> agree_on (l ++ l') b b'.
Proof. intros H K x Hx. apply in_app_or in Hx. destruct Hx as [Hx|Hx]; [exact (H x Hx)|exact (K x Hx)]. Qed.

Ltac split_i32 H Hw Hw' :=
  match type of H with
  | hash_i32 (b_i32 ?b ?n) ++ _ = hash_i32 (b_i32 ?b' ?n) ++ _ =>
      let E := fresh "E" in
      apply (hash_i32_split _ _ _ _ (proj1 Hw n) (proj1 Hw' n)) in H; destruct H as [E H]
  end.

Ltac bind_f32s Hh x E :=
  match type of Hh with
  | context [hash_f32s p ?l] =>
      let x := fresh x in let E := fresh E in
      destruct (hash_f32s p l) as [x|] eqn:E; cbn [bind] in Hh; [|discriminate Hh]
  end.

Lemma names_split b b' (names : list string) h h' r r' :
  wf_block b -> wf_block b' ->
  hash_f32s p (map (b_f32 b) names) = Ok h -> hash_f32s p (map (b_f32 b') names) = Ok h' ->
  h ++ r = h' ++ r' -> agree_on (map AF32 names) b b' /\ r = r'.
Proof.
  intros Hw Hw' E E' H.
  destruct (hash_f32s_split p (map (b_f32 b) names) (map (b_f32 b') names) h h' r r') as [H1 H2]; auto.
  - now rewrite !map_length.
  - now apply wf_f32s.
  - now apply wf_f32s.
  - split; [exact (map_f32_agree b b' _ H1)|exact H2].
Qed.

Lemma transform_split b b' h h' r r' :
  wf_block b -> wf_block b' -> active TTransform b -> active TTransform b' ->
  transform_hash p b = Ok h -> transform_hash p b' = Ok h' -> h ++ r = h' ++ r' ->
  agree_on (influences TTransform b) b b' /\ r = r'.
Proof.
  intros Hw Hw' Ha Ha' Hh Hh' H. cbn [active] in Ha, Ha'.
  unfold transform_hash in Hh, Hh'. rewrite Ha in Hh. rewrite Ha' in Hh'. cbn [Z.eqb] in Hh, Hh'.
  bind_f32s Hh x E. bind_f32s Hh' y F. apply Ok_inj in Hh, Hh'. subst h h'.
  rewrite <- !app_assoc in H. apply app_split in H; [|reflexivity]. destruct H as [_ H].
  split_i32 H Hw Hw'.
  apply (names_split b b' _ _ _ _ _ Hw Hw' E F) in H.
  destruct H as [H ->]. split; [|reflexivity].
  cbn [influences]. apply agree_cons; [assumption|]. exact H.
Qed.

Lemma lens_split b b' h h' r r' :
  wf_block b -> wf_block b' -> active TLens b -> active TLens b' ->
  lens_hash p b = Ok h -> lens_hash p b' = Ok h' -> h ++ r = h' ++ r' ->
  agree_on (tl (influences TLens b)) b b' /\ r = r'.
Proof.
  intros Hw Hw' Ha Ha' Hh Hh' H. cbn [active] in Ha, Ha'.
  unfold lens_hash in Hh, Hh'. rewrite Ha in Hh. rewrite Ha' in Hh'. cbn [Z.eqb] in Hh, Hh'.
  bind_f32s Hh x E. bind_f32s Hh' y F. apply Ok_inj in Hh, Hh'. subst h h'.
  rewrite <- !app_assoc in H. apply app_split in H; [|reflexivity]. destruct H as [_ H].
  apply (names_split b b' _ _ _ _ _ Hw Hw' E F) in H.
  destruct H as [H ->]. split; [|reflexivity].
  exact H.
Qed.

Lemma merge_split b b' h h' r r' :
  wf_block b -> wf_block b' -> active TMerge b -> active TMerge b' ->
  merge_hash p b = Ok h -> merge_hash p b' = Ok h' -> h ++ r = h' ++ r' ->
  agree_on (influences TMerge b) b b' /\ r = r'.
Proof.
  intros Hw Hw' Ha Ha' Hh Hh' H. cbn [active] in Ha, Ha'.
  unfold merge_hash in Hh, Hh'. rewrite Ha in Hh. rewrite Ha' in Hh'. cbn [Z.eqb Pos.eqb] in Hh, Hh'.
  bind_f32s Hh x E. bind_f32s Hh' y F. apply Ok_inj in Hh, Hh'. subst h h'.
  rewrite <- !app_assoc in H. apply app_split in H; [|reflexivity]. destruct H as [_ H].
  split_i32 H Hw Hw'.
  change [b_f32 b "mix"] with (map (b_f32 b) ["mix"]) in E.
  change [b_f32 b' "mix"] with (map (b_f32 b') ["mix"]) in F.
  apply (names_split b b' _ _ _ _ _ Hw Hw' E F) in H.
  destruct H as [H ->]. split; [|reflexivity].
  cbn [influences]. apply agree_cons; [assumption|]. exact H.
Qed.

Lemma crop_split b b' h h' r r' :
  wf_block b -> wf_block b' -> active TCrop b -> active TCrop b' ->
  crop_hash b = Ok h -> crop_hash b' = Ok h' -> h ++ r = h' ++ r' ->
  agree_on (influences TCrop b) b b' /\ r = r'.
Proof.
  intros Hw Hw' Ha Ha' Hh Hh' H. cbn [active] in Ha, Ha'.
  unfold crop_hash in Hh, Hh'. rewrite Ha in Hh. rewrite Ha' in Hh'. cbn [Z.eqb] in Hh, Hh'.
  apply Ok_inj in Hh, Hh'. subst h h'.
  rewrite <- !app_assoc in H. apply app_split in H; [|reflexivity]. destruct H as [_ H].
  do 7 split_i32 H Hw Hw'. split; [|assumption].
  cbn [influences]. repeat (apply agree_cons; [assumption|]). apply agree_nil.
Qed.

Lemma resample_split b b' h h' r r' :
  wf_block b -> wf_block b' -> active TResample b -> active TResample b' ->
  resample_hash b = Ok h -> resample_hash b' = Ok h' -> h ++ r = h' ++ r' ->
  agree_on (influences TResample b) b b' /\ r = r'.
Proof.
  intros Hw Hw' [Ha Hf] [Ha' Hf'] Hh Hh' H.
  unfold resample_hash in Hh, Hh'. rewrite Ha in Hh. rewrite Ha' in Hh'.
  cbn [Z.eqb Pos.eqb] in Hh, Hh'.
  apply Z.eqb_neq in Hf, Hf'. rewrite Hf in Hh. rewrite Hf' in Hh'. cbn [negb] in Hh, Hh'.
  apply Ok_inj in Hh, Hh'. subst h h'.
  rewrite <- !app_assoc in H. apply app_split in H; [|reflexivity]. destruct H as [_ H].
  do 2 split_i32 H Hw Hw'. split; [|assumption].
  cbn [influences]. repeat (apply agree_cons; [assumption|]). apply agree_nil.
Qed.

Lemma bake_from_nothing v : bake_from v = BakeNothing -> v = 0.
Proof.
  unfold bake_from. destruct v as [|[[q|q|]|[q|q|]|]|]; intro H; try reflexivity; discriminate H.
Qed.

Lemma viewer_split b b' h h' r r' :
  wf_block b -> wf_block b' -> active TViewer b -> active TViewer b' ->
  viewer_hash b = Ok h -> viewer_hash b' = Ok h' -> h ++ r = h' ++ r' ->
  agree_on (influences TViewer b) b b' /\ r = r'.
Proof.
  intros Hw Hw' [Ha Hb] [Ha' Hb'] Hh Hh' H.
  unfold viewer_hash in Hh, Hh'. rewrite Ha in Hh. rewrite Ha' in Hh'. cbn [Z.eqb] in Hh, Hh'.
  assert (h = hash_i32 1 ++ hash_i32 (b_i32 b "bake_option") ++ hash_i32 (b_i32 b "crop_to_format")
             ++ hash_i32 (b_i32 b "bake_pixel_data_type") ++ hash_str (b_str b "bake_color_space")) as ->.
  { destruct (bake_from (b_i32 b "bake_option")) eqn:K; try (apply Ok_inj in Hh; now subst h).
    apply bake_from_nothing in K. contradiction. }
  assert (h' = hash_i32 1 ++ hash_i32 (b_i32 b' "bake_option") ++ hash_i32 (b_i32 b' "crop_to_format")
             ++ hash_i32 (b_i32 b' "bake_pixel_data_type") ++ hash_str (b_str b' "bake_color_space")) as ->.
  { destruct (bake_from (b_i32 b' "bake_option")) eqn:K; try (apply Ok_inj in Hh'; now subst h').
    apply bake_from_nothing in K. contradiction. }
  clear Hh Hh'. rewrite <- !app_assoc in H. apply app_split in H; [|reflexivity]. destruct H as [_ H].
  do 3 split_i32 H Hw Hw'.
  apply hash_str_split in H.
  - destruct H as [H ->]. split; [|reflexivity].
    cbn [influences]. repeat (apply agree_cons; [assumption|]). apply agree_nil.
  - intro K. destruct Hw as (_ & _ & Hs). specialize (Hs _ _ K). lia.
  - intro K. destruct Hw' as (_ & _ & Hs). specialize (Hs _ _ K). lia.
Qed.

Lemma channel_split b b' flag (names : list string) h h' r r' :
  wf_block b -> wf_block b' -> b_i32 b flag = b_i32 b' flag ->
  (if negb (b_i32 b flag =? 0) then hash_f32s p (map (b_f32 b) names) else Ok []) = Ok h ->
  (if negb (b_i32 b' flag =? 0) then hash_f32s p (map (b_f32 b') names) else Ok []) = Ok h' ->
  h ++ r = h' ++ r' ->
  agree_on (if b_i32 b flag =? 0 then [] else map AF32 names) b b' /\ r = r'.
Proof.
  intros Hw Hw' Ef Hh Hh' H. rewrite <- Ef in Hh'.
  destruct (b_i32 b flag =? 0); cbn [negb] in Hh, Hh'.
  - apply Ok_inj in Hh, Hh'. subst h h'. split; [apply agree_nil|exact H].
  - exact (names_split b b' _ _ _ _ _ Hw Hw' Hh Hh' H).
Qed.

Lemma grade_split_all b b' h h' r r' :
  wf_block b -> wf_block b' -> active TGrade b -> active TGrade b' ->
  grade_hash p b = Ok h -> grade_hash p b' = Ok h' -> h ++ r = h' ++ r' ->
  agree_on (influences TGrade b) b b' /\
  agree_on (if (b_i32 b "process_r" =? 0) && (b_i32 b "process_g" =? 0)
               && (b_i32 b "process_b" =? 0) && (b_i32 b "process_a" =? 0)
            then [] else [AI32 "clamp_black"; AI32 "clamp_white"; AI32 "premult"]) b b' /\ r = r'.
Proof.
  intros Hw Hw' Ha Ha' Hh Hh' H. cbn [active] in Ha, Ha'.
  unfold grade_hash in Hh, Hh'. rewrite Ha in Hh. rewrite Ha' in Hh'. cbn [Z.eqb] in Hh, Hh'.
  cbv zeta in Hh, Hh'. unfold grade_channel in Hh, Hh'.
  set (nr := ["black_point_r"; "white_point_r"; "lift_r"; "gain_r"; "multiply_r"; "offset_r"; "gamma_r"]) in *.
  set (ng := ["black_point_g"; "white_point_g"; "lift_g"; "gain_g"; "multiply_g"; "offset_g"; "gamma_g"]) in *.
  set (nb := ["black_point_b"; "white_point_b"; "lift_b"; "gain_b"; "multiply_b"; "offset_b"; "gamma_b"]) in *.
  set (na := ["black_point_a"; "white_point_a"; "lift_a"; "gain_a"; "multiply_a"; "offset_a"; "gamma_a"]) in *.
  Local Ltac step Hh X E :=
    match type of Hh with
    | bind ?m _ = _ => destruct m as [X|] eqn:E; cbn [bind] in Hh; [|discriminate Hh]
    end.
  step Hh hr E1. step Hh hg E2. step Hh hb E3. step Hh ha E4. step Hh hl E5.
  step Hh' hr' F1. step Hh' hg' F2. step Hh' hb' F3. step Hh' ha' F4. step Hh' hl' F5.
  apply Ok_inj in Hh, Hh'. subst h h'.
  rewrite <- !app_assoc in H. apply app_split in H; [|reflexivity]. destruct H as [_ H].
  do 4 split_i32 H Hw Hw'.
  eapply (channel_split b b' "process_r" nr) in H; eauto. destruct H as [G1 H].
  eapply (channel_split b b' "process_g" ng) in H; eauto. destruct H as [G2 H].
  eapply (channel_split b b' "process_b" nb) in H; eauto. destruct H as [G3 H].
  eapply (channel_split b b' "process_a" na) in H; eauto. destruct H as [G4 H].
  assert (agree_on (if (b_i32 b "process_r" =? 0) && (b_i32 b "process_g" =? 0)
             && (b_i32 b "process_b" =? 0) && (b_i32 b "process_a" =? 0)
          then [] else [AI32 "reverse"; AF32 "mix"]) b b' /\
     agree_on (if (b_i32 b "process_r" =? 0) && (b_i32 b "process_g" =? 0)
             && (b_i32 b "process_b" =? 0) && (b_i32 b "process_a" =? 0)
          then [] else [AI32 "clamp_black"; AI32 "clamp_white"; AI32 "premult"]) b b' /\ r = r') as (G5 & G6 & Gr).
  { rewrite <- E, <- E0, <- E6, <- E7 in F5.
    replace ((b_i32 b "process_r" =? 0) && (b_i32 b "process_g" =? 0)
             && (b_i32 b "process_b" =? 0) && (b_i32 b "process_a" =? 0))
      with (negb (negb (b_i32 b "process_r" =? 0) || negb (b_i32 b "process_g" =? 0)
             || negb (b_i32 b "process_b" =? 0) || negb (b_i32 b "process_a" =? 0))).
    2: { now rewrite !negb_orb, !negb_involutive. }
    destruct (negb (b_i32 b "process_r" =? 0) || negb (b_i32 b "process_g" =? 0)
             || negb (b_i32 b "process_b" =? 0) || negb (b_i32 b "process_a" =? 0)); cbn [negb].
    - step E5 hm E8. step F5 hm' F8. apply Ok_inj in E5, F5. subst hl hl'.
      rewrite <- !app_assoc in H. do 4 split_i32 H Hw Hw'.
      change [b_f32 b "mix"] with (map (b_f32 b) ["mix"]) in E8.
      change [b_f32 b' "mix"] with (map (b_f32 b') ["mix"]) in F8.
      apply (names_split b b' _ _ _ _ _ Hw Hw' E8 F8) in H.
      destruct H as [H ->]. split; [apply agree_cons; [assumption|]; exact H|]. split; [|reflexivity].
      repeat (apply agree_cons; [assumption|]). apply agree_nil.
    - apply Ok_inj in E5, F5. subst hl hl'. split; [apply agree_nil|]. split; [apply agree_nil|exact H]. }
  split; [|split; [exact G6|exact Gr]]. cbn [influences].
  apply agree_app; [repeat (apply agree_cons; [assumption|]); apply agree_nil|].
  apply agree_app; [exact G1|]. apply agree_app; [exact G2|].
  apply agree_app; [exact G3|]. apply agree_app; [exact G4|]. exact G5.
Qed.

Lemma grade_split b b' h h' r r' :
  wf_block b -> wf_block b' -> active TGrade b -> active TGrade b' ->
  grade_hash p b = Ok h -> grade_hash p b' = Ok h' -> h ++ r = h' ++ r' ->
  agree_on (influences TGrade b) b b' /\ r = r'.
Proof.
  intros Hw Hw' Ha Ha' Hh Hh' H.
  destruct (grade_split_all b b' h h' r r' Hw Hw' Ha Ha' Hh Hh' H) as (A & _ & B). now split.
Qed.

Lemma type_id_byte t : 0 <= type_id t < 10.
Proof. destruct t; cbn [type_id]; lia. Qed.
Lemma type_id_inj t t' : type_id t = type_id t' -> t = t'.
Proof. destruct t, t'; cbn [type_id]; intro H; try reflexivity; discriminate H. Qed.

Lemma key_type t t' b b' fr fr' ins ins' k :
  cache_hash_bytes p expand t b fr ins = Ok k -> cache_hash_bytes p expand t' b' fr' ins' = Ok k -> t = t'.
Proof.
  unfold cache_hash_bytes. intros H H'.
  destruct (attr_hash p expand t b fr) as [h|]; cbn [bind] in H; [|discriminate].
  destruct (attr_hash p expand t' b' fr') as [h'|]; cbn [bind] in H'; [|discriminate].
  apply Ok_inj in H, H'. rewrite <- H' in H. unfold hash_u8 in H.
  apply le_split in H; try (apply Z.mod_pos_bound; lia).
  destruct H as [H _]. pose proof (type_id_byte t). pose proof (type_id_byte t').
  rewrite !Z.mod_small in H by lia. now apply type_id_inj.
Qed.

Lemma digits_fuel_small : forall fuel n acc, 0 <= n -> (forall c, In c acc -> c < 255) ->
  forall c, In c (digits_fuel fuel n acc) -> c < 255.
Proof.
  induction fuel as [|fuel IH]; intros n acc Hn Ha c Hc; cbn [digits_fuel] in Hc; [auto|].
  assert (forall c, In c ((zero_char + n mod 10) :: acc) -> c < 255) as Ha'.
  { intros x [<-|Hx]; [|auto]. unfold zero_char. pose proof (Z.mod_pos_bound n 10). lia. }
  destruct (n / 10 =? 0); [auto|].
  assert (0 <= n / 10) as Hq by (apply Z.div_pos; lia).
  exact (IH (n / 10) _ Hq Ha' c Hc).
Qed.

Lemma frame_string_small k n c : In c (frame_string k n) -> c < 255.
Proof.
  unfold frame_string. destruct (_ && _); [|intros []].
  unfold format_zero_padded. rewrite !in_app_iff. intros [H|[H|H]].
  - destruct (n <? 0); [|destruct H]. destruct H as [<-|[]]. unfold minus_char. lia.
  - apply repeat_spec in H. subst c. unfold zero_char. lia.
  - unfold digits in H. revert H. apply digits_fuel_small; [apply Z.abs_nonneg|intros ? []].
Qed.

Lemma expand_string_clean v n s :
  ~ In 255 (expand v) -> expand_string expand v n = Ok s -> ~ In 255 s.
Proof.
  intros Hv. unfold expand_string.
  destruct (find_frame_padding_index_range (expand v)) as [[a e] k].
  destruct (k >? 0).
  - unfold create_expanded_string, replace_range. destruct (_ && _); [|discriminate].
    intro H. apply Ok_inj in H. subst s. rewrite !in_app_iff. intros [H|[H|H]].
    + apply Hv. rewrite <- (firstn_skipn (Z.to_nat a)). apply in_or_app. now left.
    + apply frame_string_small in H. lia.
    + apply Hv. rewrite <- (firstn_skipn (Z.to_nat e)). apply in_or_app. now right.
  - intro H. apply Ok_inj in H. now subst s.
Qed.

Lemma path_split b b' fr fr' h h' r r' :
  clean_paths expand -> wf_block b -> wf_block b' -> b_i32 b "enable" = 1 -> b_i32 b' "enable" = 1 ->
  path_hash expand b fr = Ok h -> path_hash expand b' fr' = Ok h' -> h ++ r = h' ++ r' ->
  same_path expand TRead b b' fr fr' /\ r = r'.
Proof.
  intros Hc0 Hw Hw' Ha Ha' Hh Hh' H. unfold path_hash in Hh, Hh'.
  assert (Hc : ~ In 255 (expand (b_str b "file_path"))) by exact (Hc0 _ (proj2 (proj2 Hw) _)).
  assert (Hc' : ~ In 255 (expand (b_str b' "file_path"))) by exact (Hc0 _ (proj2 (proj2 Hw') _)).
  rewrite Ha in Hh. rewrite Ha' in Hh'. cbn [Z.eqb Pos.eqb] in Hh, Hh'.
  destruct (expand_string expand (b_str b "file_path") (frame_number fr)) as [s|] eqn:E;
    cbn [bind] in Hh; [|discriminate].
  destruct (expand_string expand (b_str b' "file_path") (frame_number fr')) as [s'|] eqn:E';
    cbn [bind] in Hh'; [|discriminate].
  apply Ok_inj in Hh, Hh'. subst h h'. rewrite <- !app_assoc in H.
  apply app_split in H; [|reflexivity]. destruct H as [_ H].
  apply hash_str_split in H; [|exact (expand_string_clean _ _ _ Hc E)|exact (expand_string_clean _ _ _ Hc' E')].
  destruct H as [-> ->]. split; [|reflexivity]. cbn [same_path]. now rewrite E, E'.
Qed.

(** Equal keys: same influencing attributes (all but [direction] for a lens),
    same file and same inputs. *)
Lemma key_settings t b b' fr fr' ins ins' k :
  clean_paths expand -> wf_block b -> wf_block b' -> active t b -> active t b' ->
  Forall u64_value ins -> Forall u64_value ins' ->
  cache_hash_bytes p expand t b fr ins = Ok k -> cache_hash_bytes p expand t b' fr' ins' = Ok k ->
  agree_on (match t with TLens => tl (influences t b) | _ => influences t b end) b b' /\
  same_path expand t b b' fr fr' /\ ins = ins'.
Proof.
  intros Hc Hw Hw' Ha Ha' Hi Hi' H H'. unfold cache_hash_bytes in H, H'.
  destruct (attr_hash p expand t b fr) as [h|] eqn:E; cbn [bind] in H; [|discriminate].
  destruct (attr_hash p expand t b' fr') as [h'|] eqn:E'; cbn [bind] in H'; [|discriminate].
  apply Ok_inj in H, H'. rewrite <- H' in H. clear H' k.
  apply app_split in H; [|reflexivity]. destruct H as [_ H].
  destruct t; cbn [attr_hash active same_path] in *.
  - apply Ok_inj in E, E'. subst h h'. split; [apply agree_nil|]. split; [exact I|].
    now apply hash_inputs_inj.
  - destruct (path_split _ _ _ _ _ _ _ _ Hc Hw Hw' Ha Ha' E E' H) as [H1 H2].
    split; [apply agree_nil|]. split; [exact H1|now apply hash_inputs_inj].
  - destruct (path_split _ _ _ _ _ _ _ _ Hc Hw Hw' Ha Ha' E E' H) as [H1 H2].
    split; [apply agree_nil|]. split; [exact H1|now apply hash_inputs_inj].
  - destruct (grade_split _ _ _ _ _ _ Hw Hw' Ha Ha' E E' H) as [H1 H2]; split; [exact H1|split; [exact I|now apply hash_inputs_inj]].
  - destruct (lens_split _ _ _ _ _ _ Hw Hw' Ha Ha' E E' H) as [H1 H2]; split; [exact H1|split; [exact I|now apply hash_inputs_inj]].
  - destruct (transform_split _ _ _ _ _ _ Hw Hw' Ha Ha' E E' H) as [H1 H2]; split; [exact H1|split; [exact I|now apply hash_inputs_inj]].
  - destruct (merge_split _ _ _ _ _ _ Hw Hw' Ha Ha' E E' H) as [H1 H2]; split; [exact H1|split; [exact I|now apply hash_inputs_inj]].
  - destruct (crop_split _ _ _ _ _ _ Hw Hw' Ha Ha' E E' H) as [H1 H2]; split; [exact H1|split; [exact I|now apply hash_inputs_inj]].
  - destruct (viewer_split _ _ _ _ _ _ Hw Hw' Ha Ha' E E' H) as [H1 H2]; split; [exact H1|split; [exact I|now apply hash_inputs_inj]].
  - destruct (resample_split _ _ _ _ _ _ Hw Hw' Ha Ha' E E' H) as [H1 H2]; split; [exact H1|split; [exact I|now apply hash_inputs_inj]].
Qed.

(** Hashing never panics on blocks a Rust struct can hold (Grade, lens, ...). *)
Lemma grade_hash_ok b : wf_block b -> exists h, grade_hash p b = Ok h.
Proof.
  intro Hw. unfold grade_hash. cbv zeta.
  destruct (b_i32 b "enable" =? 0); [eauto|].
  unfold grade_channel.
  Local Ltac okf Hw :=
    match goal with
    | |- context [if ?c then hash_f32s ?p (map (b_f32 ?b) ?l) else Ok []] =>
        let H := fresh in
        assert (exists h, (if c then hash_f32s p (map (b_f32 b) l) else Ok []) = Ok h) as [? H]
          by (destruct c; [apply hash_f32s_ok, wf_f32s; exact Hw|eauto]);
        rewrite H; cbn [bind]
    end.
  okf Hw. okf Hw. okf Hw. okf Hw.
  destruct (hash_f32s_ok p [b_f32 b "mix"]) as [hm Em].
  { change [b_f32 b "mix"] with (map (b_f32 b) ["mix"]). now apply wf_f32s. }
  rewrite Em. cbn [bind].
  match goal with |- context [if ?c then _ else _] => destruct c end; cbn [bind]; eauto.
Qed.

Lemma attr_hash_ok t b fr :
  wf_block b -> (t = TRead \/ t = TWrite ->
    exists s, expand_string expand (b_str b "file_path") (frame_number fr) = Ok s) ->
  exists h, attr_hash p expand t b fr = Ok h.
Proof.
  intros Hw Hp. destruct t; cbn [attr_hash].
  - eauto.
  - unfold path_hash. destruct (_ =? 1); [|eauto]. destruct Hp as [s ->]; [now left|]. cbn [bind]. eauto.
  - unfold path_hash. destruct (_ =? 1); [|eauto]. destruct Hp as [s ->]; [now right|]. cbn [bind]. eauto.
  - now apply grade_hash_ok.
  - unfold lens_hash. cbv zeta. destruct (_ =? 0); [eauto|].
    match goal with |- context [hash_f32s p ?l] => destruct (hash_f32s_ok p l) as [h ->] end;
      [now apply wf_f32s|]. cbn [bind]. eauto.
  - unfold transform_hash. cbv zeta. destruct (_ =? 0); [eauto|].
    match goal with |- context [hash_f32s p ?l] => destruct (hash_f32s_ok p l) as [h ->] end;
      [now apply wf_f32s|]. cbn [bind]. eauto.
  - unfold merge_hash. cbv zeta. destruct (_ =? 1); [|eauto].
    destruct (hash_f32s_ok p [b_f32 b "mix"]) as [hm ->].
    { change [b_f32 b "mix"] with (map (b_f32 b) ["mix"]). now apply wf_f32s. }
    cbn [bind]. eauto.
  - unfold crop_hash. cbv zeta. destruct (_ =? 0); eauto.
  - unfold viewer_hash. cbv zeta. destruct (_ =? 0); [eauto|]. destruct (bake_from _); eauto.
  - unfold resample_hash. cbv zeta. destruct (_ =? 1); [|eauto]. destruct (negb _); eauto.
Qed.
End Keys.

(* ------------------------------------------------------------------ *)
(** * Statements for the properties file *)
Local Open Scope string_scope.

Lemma key_settings_no_lens p expand t b b' fr fr' ins ins' k :
  t <> TLens ->
  clean_paths expand -> wf_block b -> wf_block b' -> active t b -> active t b' ->
  Forall u64_value ins -> Forall u64_value ins' ->
  cache_hash_bytes p expand t b fr ins = Ok k -> cache_hash_bytes p expand t b' fr' ins' = Ok k ->
  agree_on (influences t b) b b' /\ same_path expand t b b' fr fr' /\ ins = ins'.
Proof.
  intros Ht Hc Hw Hw' Ha Ha' Hi Hi' H H'.
  destruct (key_settings p expand t b b' fr fr' ins ins' k Hc Hw Hw' Ha Ha' Hi Hi' H H') as (A & B).
  split; [|exact B]. destruct t; try exact A. now elim Ht.
Qed.

Lemma lens_key p expand b b' fr fr' ins ins' k :
  clean_paths expand -> wf_block b -> wf_block b' -> active TLens b -> active TLens b' ->
  Forall u64_value ins -> Forall u64_value ins' ->
  cache_hash_bytes p expand TLens b fr ins = Ok k -> cache_hash_bytes p expand TLens b' fr' ins' = Ok k ->
  agree_on [AF32 "lens_center_offset_x"; AF32 "lens_center_offset_y"; AF32 "distortion";
            AF32 "anamorphic_squeeze"; AF32 "curvature_x"; AF32 "curvature_y"; AF32 "quartic_distortion"] b b'
  /\ ins = ins'.
Proof.
  intros Hc Hw Hw' Ha Ha' Hi Hi' H H'.
  destruct (key_settings p expand TLens b b' fr fr' ins ins' k Hc Hw Hw' Ha Ha' Hi Hi' H H') as (A & _ & B).
  split; [exact A|exact B].
Qed.

Lemma key_exists p expand t b fr ins : wf_block b ->
  exists k, cache_hash_bytes p expand t b fr ins = Ok k.
Proof.
  intro Hw. destruct (attr_hash_ok p expand t b fr Hw) as [h E].
  - intros _. apply expand_total.
  - unfold cache_hash_bytes. rewrite E. cbn [bind]. eauto.
Qed.

Lemma decode_fits p bits : f32_pattern bits ->
  exists m e s, integer_decode_f32 p bits = Ok (m, e, s) /\
    0 <= m < 2 ^ 64 /\ - 2 ^ 15 <= e < 2 ^ 15 /\ - 2 ^ 7 <= s < 2 ^ 7.
Proof.
  intro H. destruct (decode_spec p bits H) as (m & e & s & E & [Hm He Hs _ _]).
  exists m, e, s. split; [exact E|]. lia.
Qed.

Lemma read_enable_two p expand b fr path path' ins :
  b_i32 b "enable" = 2 ->
  cache_hash_bytes p expand TRead (put_str b "file_path" path) fr ins
  = cache_hash_bytes p expand TRead (put_str b "file_path" path') fr ins.
Proof.
  intro H. unfold cache_hash_bytes. cbn [attr_hash]. unfold path_hash.
  cbn [put_str b_i32]. rewrite H. reflexivity.
Qed.

Lemma lens_direction p expand b fr d d' ins :
  cache_hash_bytes p expand TLens (put_i32 b "direction" d) fr ins
  = cache_hash_bytes p expand TLens (put_i32 b "direction" d') fr ins.
Proof. reflexivity. Qed.

Lemma table_all {A} (P : A -> Prop) d l k : P d -> Forall P (map snd l) -> P (table d l k).
Proof.
  intros Hd H. induction l as [|[k' v] l IH]; cbn [table]; [exact Hd|].
  cbn [map snd] in H. inversion H as [|? ? H1 H2]; subst. destruct (seqb k k'); [exact H1|exact (IH H2)].
Qed.

Lemma default_wf t : wf_block (default_attrs t).
Proof.
  repeat split; destruct t; cbn [default_attrs];
    repeat match goal with |- context [?b] =>
      match b with null_new => unfold b | read_new => unfold b | write_new => unfold b | grade_new => unfold b
      | lens_new => unfold b | transform_new => unfold b | merge_new => unfold b | crop_new => unfold b
      | viewer_new => unfold b | resample_new => unfold b end end;
    unfold struct; cbn [b_i32 b_f32 b_str];
    try (apply (table_all (fun v => - 2 ^ 31 <= v)); [lia|repeat constructor; cbn; unfold f0, f1, fhalf; lia]);
    try (apply (table_all (fun v => v < 2 ^ 31)); [lia|repeat constructor; cbn; unfold f0, f1, fhalf; lia]);
    try (apply (table_all (fun v => 0 <= v)); [lia|repeat constructor; cbn; unfold f0, f1, fhalf; lia]);
    try (apply (table_all (fun v => v < 2 ^ 32)); [lia|repeat constructor; cbn; unfold f0, f1, fhalf; lia]).
  all: revert H;
    first [apply (table_all (fun v => In c v -> 0 <= c))|apply (table_all (fun v => In c v -> c < 255))];
    [intros []|]; repeat constructor; cbn; unfold linear_name; cbn; lia.
Qed.

Lemma put_i32_wf b k v : wf_block b -> - 2 ^ 31 <= v < 2 ^ 31 -> wf_block (put_i32 b k v).
Proof.
  intros (H1 & H2 & H3) Hv. split; [|split; assumption].
  intro n. cbn [put_i32 b_i32]. unfold upd. destruct (seqb n k); auto.
Qed.
Lemma put_f32_wf b k v : wf_block b -> 0 <= v < 2 ^ 32 -> wf_block (put_f32 b k v).
Proof.
  intros (H1 & H2 & H3) Hv. split; [assumption|split; [|assumption]].
  intro n. cbn [put_f32 b_f32]. unfold upd. destruct (seqb n k); auto.
Qed.
Lemma put_str_wf b k v : wf_block b -> (forall c, In c v -> 0 <= c < 255) -> wf_block (put_str b k v).
Proof.
  intros (H1 & H2 & H3) Hv. split; [assumption|split; [assumption|]].
  intros n c. cbn [put_str b_str]. unfold upd. destruct (seqb n k); [apply Hv|apply H3].
Qed.

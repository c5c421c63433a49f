(** Proofs about frame numbers. *)
From Coq Require String.
Import String.StringSyntax.
From Coq Require Import Floats.SpecFloat.
From Verif Require Import Machine FloatModel PixelModel PathModel PathSpec PathProofs AttrModel HashModel StreamModel GraphModel
  GraphSpec GraphWalk NodeModel NodeSpec RunSpec ChainSpec ChainProofs RenderProofs FrameModel FrameSpec UncachedSpec.

Lemma shiftr_div m k : 0 <= k -> Z.shiftr m k = m / 2 ^ k.
Proof. intros. now apply Z.shiftr_div_pow2. Qed.

(** The magnitude is rounded to the nearest, halves up. *)
Lemma mag_round_spec m e :
  let P := 2 ^ Z.max 0 (- e) in let M := Zpos m * 2 ^ Z.max 0 e in
  0 <= mag_round m e /\ - P <= 2 * (M - mag_round m e * P) < P.
Proof.
  cbv zeta. unfold mag_round. destruct (0 <=? e) eqn:E; [apply Z.leb_le in E|apply Z.leb_gt in E].
  - rewrite Z.shiftl_mul_pow2 by lia. rewrite (Z.max_r 0 e), (Z.max_l 0 (- e)) by lia. change (2 ^ 0) with 1.
    assert (0 < 2 ^ e) by (apply Z.pow_pos_nonneg; lia). nia.
  - rewrite (Z.max_l 0 e), (Z.max_r 0 (- e)) by lia. change (2 ^ 0) with 1.
    rewrite Z.shiftl_mul_pow2, shiftr_div, Z.mul_1_l, Z.mul_1_r by lia.
    assert (D : 2 ^ (- e) = 2 * 2 ^ (- e - 1)) by (rewrite <- Z.pow_succ_r by lia; f_equal; lia).
    assert (0 < 2 ^ (- e - 1)) by (apply Z.pow_pos_nonneg; lia).
    set (h := 2 ^ (- e - 1)) in *. rewrite D.
    pose proof (Z.div_mod (Zpos m + h) (2 * h) ltac:(lia)).
    pose proof (Z.mod_pos_bound (Zpos m + h) (2 * h) ltac:(lia)).
    set (q := (Zpos m + h) / (2 * h)) in *. split; [apply Z.div_pos; lia|]. lia.
Qed.

Lemma round_unique M P k n : 0 < P -> 0 <= M -> 0 <= k ->
  - P <= 2 * (M - k * P) < P ->
  2 * Z.abs (M - n * P) <= P -> (2 * Z.abs (M - n * P) = P -> Z.abs M < Z.abs (n * P)) -> k = n.
Proof.
  intros HP HM Hk Hr Hn Ht.
  assert (A : -2 * P < 2 * ((k - n) * P) <= 2 * P) by lia.
  assert (B : 0 <= k - n <= 1) by nia.
  destruct (Z.eq_dec k n) as [E|E]; [exact E|]. exfalso. assert (k = n + 1) by lia. subst k.
  assert (2 * (M - n * P) = P) by lia.
  assert (Z.abs M < Z.abs (n * P)) by (apply Ht; lia).
  assert (n = -1 \/ 0 <= n) as [->|N] by lia; [lia|]. assert (0 <= n * P) by nia. lia.
Qed.

Lemma nearest_opp a b n : nearest a b n -> nearest (- a) b (- n).
Proof.
  intros (A & B). assert (E : Z.abs (- a - - n * b) = Z.abs (a - n * b)) by lia.
  split; rewrite E; [exact A|]. intros H. specialize (B H). lia.
Qed.

Lemma nearest_scale a b n k : 0 < k -> nearest a b n <-> nearest (a * k) (b * k) n.
Proof.
  intros K. unfold nearest. replace (a * k - n * (b * k)) with ((a - n * b) * k) by ring.
  replace (n * (b * k)) with (n * b * k) by ring. rewrite !Z.abs_mul, (Z.abs_eq k) by lia. split; intros (A & B).
  - split; [nia|]. intros H. assert (2 * Z.abs (a - n * b) = b) by nia. specialize (B H0). nia.
  - split; [nia|]. intros H. assert (H' : 2 * (Z.abs (a - n * b) * k) = b * k) by nia. specialize (B H'). nia.
Qed.

Lemma round_nearest s m e a b n : is_fraction (S754_finite s m e) a b -> nearest a b n ->
  cond_Zopp s (mag_round m e) = n.
Proof.
  intros (HB & E) HN. pose proof (mag_round_spec m e) as R. cbv zeta in R. destruct R as (R0 & R1).
  set (P := 2 ^ Z.max 0 (- e)) in *. set (M := Zpos m * 2 ^ Z.max 0 e) in *.
  assert (HP : 0 < P) by (apply Z.pow_pos_nonneg; lia).
  assert (HM : 0 <= M) by (unfold M; pose proof (Z.pow_nonneg 2 (Z.max 0 e)); nia).
  assert (E' : (if s then - 1 else 1) * M * b = a * P) by (rewrite <- E; unfold M; ring). clear E.
  clearbody P M. apply (proj1 (nearest_scale a b n P HP)) in HN. rewrite <- E', (Z.mul_comm b P) in HN.
  apply (proj2 (nearest_scale _ _ n b HB)) in HN.
  destruct s; unfold cond_Zopp.
  - apply nearest_opp in HN. replace (- (- 1 * M)) with M in HN by ring. destruct HN as (N1 & N2).
    rewrite (round_unique M P (mag_round m e) (- n)); [ring|assumption..].
  - rewrite Z.mul_1_l in HN. destruct HN as (N1 & N2). apply (round_unique M P); assumption.
Qed.

(** Rust's [round() as i32] on any fraction. *)
Lemma number_nearest fr a b n : is_fraction fr a b -> nearest a b n ->
  frame_number fr = Z.max (- 2 ^ 31) (Z.min (2 ^ 31 - 1) n).
Proof.
  intros F N. unfold frame_number, f32_round_as_i32. destruct fr as [s|s| |s m e]; try (destruct F; contradiction).
  - destruct F as (HB & ->). destruct N as (N & _). assert (n = 0) by nia. subst n. reflexivity.
  - rewrite (round_nearest s m e a b n F N). reflexivity.
Qed.

Lemma nearest_exists a b : 0 < b -> exists n, nearest a b n.
Proof.
  intros HB. unfold nearest.
  assert (G : forall a, 0 <= a -> exists n, 0 <= n /\ - b <= 2 * (a - n * b) < b).
  { intros c Hc. exists ((2 * c + b) / (2 * b)). split; [apply Z.div_pos; lia|].
    pose proof (Z.div_mod (2 * c + b) (2 * b) ltac:(lia)). pose proof (Z.mod_pos_bound (2 * c + b) (2 * b) ltac:(lia)).
    set (q := (2 * c + b) / (2 * b)) in *. lia. }
  destruct (Z.le_gt_cases 0 a) as [H|H].
  - destruct (G a H) as (n & N0 & N). exists n. split; [lia|]. intros T.
    assert (a - n * b < 0) by lia. assert (0 <= n * b) by nia. lia.
  - destruct (G (- a) ltac:(lia)) as (n & N0 & N). exists (- n).
    replace (a - - n * b) with (- (- a - n * b)) by ring. rewrite Z.abs_opp. split; [lia|]. intros T.
    assert (- a - n * b < 0) by lia. assert (0 <= n * b) by nia. lia.
Qed.

Lemma nearest_whole n : nearest n 1 n.
Proof. split; replace (n - n * 1) with 0 by ring; cbn; lia. Qed.

(* ------------------------------------------------------------------ *)
(** * Whole frames *)

Lemma digits_shift n p : Zpos (digits2_pos (shift_pos n p)) = Zpos n + Zpos (digits2_pos p).
Proof.
  unfold shift_pos. induction n as [|n IH] using Pos.peano_ind;
    [cbn [Pos.iter digits2_pos]; rewrite Pos2Z.inj_succ; lia|].
  rewrite Pos.iter_succ. change (digits2_pos (Pos.iter xO p n)~0) with (Pos.succ (digits2_pos (Pos.iter xO p n))).
  rewrite !Pos2Z.inj_succ, IH. lia.
Qed.

Lemma digits_bound p : Zpos p < 2 ^ Zpos (digits2_pos p) /\ 2 ^ Zpos (digits2_pos p) <= 2 * Zpos p.
Proof.
  induction p as [p IH|p IH|]; [| |split; [reflexivity|discriminate]]; cbn [digits2_pos];
    rewrite Pos2Z.inj_succ, Z.pow_succ_r by lia; lia.
Qed.

Lemma shift_value n p : Zpos (shift_pos n p) = Zpos p * 2 ^ Zpos n.
Proof.
  unfold shift_pos. induction n as [|n IH] using Pos.peano_ind; [cbn [Pos.iter]; lia|].
  rewrite Pos.iter_succ, Pos2Z.inj_xO, IH, Pos2Z.inj_succ, Z.pow_succ_r by lia. lia.
Qed.

Lemma round_whole s m : Zpos m < 2 ^ 52 ->
  exists k, binary_round 53 1024 s m 0 = S754_finite s (shift_pos k m) (Zneg k).
Proof.
  intros H. destruct (digits_bound m) as (B1 & B2). set (d := Zpos (digits2_pos m)) in *.
  assert (D : 1 <= d <= 52).
  { split; [unfold d; lia|]. destruct (Z.le_gt_cases d 52) as [L|L]; [exact L|].
    assert (2 ^ 53 <= 2 ^ d) by (apply Z.pow_le_mono_r; lia). change (2 ^ 53) with (2 * 2 ^ 52) in *. lia. }
  assert (K : exists k, 53 - d = Zpos k) by (destruct (53 - d) eqn:E; try lia; eauto). destruct K as (k & K).
  exists k. unfold binary_round, shl_align.
  fold d. rewrite Z.add_0_r. unfold fexp, emin. change (3 - 1024 - 53) with (-1074). rewrite Z.max_l by lia.
  replace (d - 53 - 0) with (Zneg k) by lia.
  assert (S1 : forall l, shr_fexp 53 1024 (Zpos (shift_pos k m)) (d - 53) l = (shr_record_of_loc (Zpos (shift_pos k m)) l, d - 53)).
  { intros l. unfold shr_fexp, Zdigits2. rewrite digits_shift. fold d. unfold fexp, emin. rewrite Z.max_l by lia.
    replace (Zpos k + d + (d - 53) - 53 - (d - 53)) with 0 by lia. reflexivity. }
  unfold binary_round_aux. rewrite S1. cbn [shr_record_of_loc loc_of_shr_record shr_m shr_r shr_s round_nearest_even].
  rewrite S1. cbn [shr_record_of_loc shr_m]. replace (d - 53 <=? 1024 - 53) with true by (symmetry; apply Z.leb_le; lia).
  f_equal. lia.
Qed.

Lemma whole_fraction n : Z.abs n < 2 ^ 52 -> is_fraction (f64_of_Z n) n 1.
Proof.
  intros H. unfold f64_of_Z, binary_normalize. split; [lia|]. destruct n as [|m|m]; [reflexivity| |];
    destruct (round_whole false m ltac:(lia)) as (k & E); destruct (round_whole true m ltac:(lia)) as (k' & E');
    rewrite ?E, ?E'; rewrite shift_value; cbn [Z.opp Z.max]; rewrite ?(Z.max_l 0 (Zneg _)), ?(Z.max_r 0 (Zpos _)) by lia;
    change (2 ^ 0) with 1; lia.
Qed.

Lemma whole_number n : in_i32 n -> frame_number (f64_of_Z n) = n.
Proof.
  unfold in_i32. intros H. assert (A : Z.abs n < 2 ^ 52) by (change (2 ^ 52) with 4503599627370496; lia).
  rewrite (number_nearest _ n 1 n (whole_fraction n A) (nearest_whole n)). lia.
Qed.

(* ------------------------------------------------------------------ *)
(** * Sequences of files *)
Local Open Scope string_scope.

Lemma rendered_sequence {D} p (x : externals D) n input pre w post ks : Forall in_i32 ks ->
  first_run (x_expand x (node_get_str n "file_path")) pre w post -> 1 <= w <= 9 ->
  forall d d', rendered p x n input (map f64_of_Z ks) d d' -> sequence p x n input f64_of_Z pre w post ks d d'.
Proof.
  intros K F W. induction K as [|k ks Hk K IH]; intros d d' R; inversion R; subst; [constructor|].
  match goal with H : written _ _ _ _ _ ?q _ _ |- _ => rename H into WR; pose proof (wr_path _ _ _ _ _ _ _ _ WR) as EP end.
  rewrite (whole_number k Hk) in EP. destruct (expand_spec _ _ k pre w post F W Hk) as (t & E & P).
  rewrite E in EP. injection EP as <-. unfold in_i32 in Hk. econstructor; try eassumption.
  - apply whole_fraction. change (2 ^ 52) with 4503599627370496. lia.
  - apply IH. assumption.
Qed.

Lemma written_name {D} p (x : externals D) n fr s path img co a b k pre w post :
  written p x n fr s path img co -> is_fraction fr a b -> nearest a b k -> in_i32 k ->
  first_run (x_expand x (node_get_str n "file_path")) pre w post -> 1 <= w <= 9 ->
  exists t, path = (pre ++ t ++ post)%list /\ padded w k t.
Proof.
  intros WR F N K R W. pose proof (wr_path _ _ _ _ _ _ _ _ WR) as EP.
  rewrite (number_nearest fr a b k F N) in EP. unfold in_i32 in K. rewrite Z.min_r, Z.max_r in EP by lia.
  destruct (expand_spec _ _ k pre w post R W K) as (t & E & P). rewrite E in EP. injection EP as <-. eauto.
Qed.

Lemma read_name {D} (x : externals D) n d fr s a b k pre w post :
  source x n d fr s -> is_fraction fr a b -> nearest a b k -> in_i32 k ->
  first_run (x_expand x (node_get_str n "file_path")) pre w post -> 1 <= w <= 9 ->
  exists t, padded w k t /\
    match x_kind x d (pre ++ t ++ post)%list with
    | RegularFile => shows (x_read x d (pre ++ t ++ post)%list empty_image) s
    | NoEntry => s = stream_new
    | OtherEntry => True
    end.
Proof.
  intros (path & EP & S) F N K R W.
  rewrite (number_nearest fr a b k F N) in EP. unfold in_i32 in K. rewrite Z.min_r, Z.max_r in EP by lia.
  destruct (expand_spec _ _ k pre w post R W K) as (t & E & P). rewrite E in EP. injection EP as <-.
  exists t. split; [exact P|]. destruct (x_kind x d (pre ++ t ++ post)%list); auto.
Qed.

Lemma beyond fr a b k : is_fraction fr a b -> nearest a b k -> 2 ^ 31 <= k -> frame_number fr = 2 ^ 31 - 1.
Proof. intros F N K. rewrite (number_nearest fr a b k F N). lia. Qed.

Lemma whole_sequence {D} p (x : externals D) srt : sorts srt ->
  forall fuel id start src l a nr nw ks (g : graph node stream) w g' w' pre width post,
  wf_graph (node_ops p x) g -> find_index g id = Some start ->
  leads (g_graph g) src l a -> only_input (g_graph g) a start -> (forall m, ~ link (g_graph g) m src) ->
  nth_error (g_nodes g) src = Some nr -> nd_type nr = TRead ->
  node_get_i32 nr "enable" <> 0 -> node_get_i32 nr "use_cache" = 0 \/ uncached w ->
  (forall i n, In i l -> nth_error (g_nodes g) i = Some n -> adding (nd_type n)) ->
  nth_error (g_nodes g) start = Some nw -> nd_type nw = TWrite ->
  node_get_i32 nw "enable" <> 0 -> node_get_i32 nw "execute" <> 0 ->
  first_run (x_expand x (node_get_str nw "file_path")) pre width post -> 1 <= width <= 9 -> Forall in_i32 ks ->
  execute_whole (node_ops p x) srt fuel g id ks w = Some (Ok (g', w', ExSuccess)) ->
  sequence p x nw (processed x (g_nodes g) nr l) f64_of_Z pre width post ks (w_disk w) (w_disk w').
Proof.
  intros S fuel id start src l a nr nw ks g w g' w' pre width post. intros.
  apply rendered_sequence; try assumption. eapply render_run; eassumption.
Qed.

Lemma subframes_collide : exists fr fr',
  is_fraction fr 2 1 /\ is_fraction fr' 9 4 /\
  forall (D : Type) p (x : externals D) n s path img co s' path' img' co',
  written p x n fr s path img co -> written p x n fr' s' path' img' co' -> path = path'.
Proof.
  exists (f64_of_Z 2), (binary_normalize 53 1024 9 (-2) false).
  split; [split; [lia|reflexivity]|]. split; [split; [lia|reflexivity]|].
  intros D p x n s path img co s' path' img' co' W W'.
  pose proof (wr_path _ _ _ _ _ _ _ _ W) as E. pose proof (wr_path _ _ _ _ _ _ _ _ W') as E'.
  change (frame_number (f64_of_Z 2)) with 2 in E. change (frame_number (binary_normalize 53 1024 9 (-2) false)) with 2 in E'.
  rewrite E in E'. now injection E'.
Qed.

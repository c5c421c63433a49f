(** Proofs for C96 (uses the axioms of Coq's real numbers). *)
From Coq Require Import Reals Floats.SpecFloat Psatz.
From Flocq Require Import Core.Core.
From Verif Require Import Machine FloatModel FloatReal GeomReal UndoReal BBoxModel PixelModel AttrModel StreamModel GradeModel DeformModel
  EnumModel BakeModel MergeSpec BakeSpec BakeProofs LineReal LineSpec LineProofs TintModel TintSpec MoveReal.
Local Open Scope R_scope.

Lemma modest_num v : modest v -> num v (R32 v) /\ Rabs (R32 v) <= K20.
Proof. intros H. destruct (modest_small v H) as (V & F & B). split; [now split|exact B]. Qed.
Lemma four i : (i < 4)%nat -> i = 0%nat \/ i = 1%nat \/ i = 2%nat \/ i = 3%nat.
Proof. lia. Qed.

(** A row of things that are close, times a pixel. *)
Lemma row_close (a b c d x y z w : f32) A B C D MA MB MC MD k N :
  stands a A k MA N (K20 * K20) -> stands b B k MB N (K20 * K20) -> stands c C k MC N (K20 * K20) -> stands d D k MD N (K20 * K20) ->
  modest x -> modest y -> modest z -> modest w -> 0 <= k <= 2 -> 0 <= N <= 1 ->
  stands (f32_add (f32_add (f32_add (f32_mul a x) (f32_mul b y)) (f32_mul c z)) (f32_mul d w))
    (A * R32 x + B * R32 y + C * R32 z + D * R32 w) (k + 4005 / 1000)
    (MA * Rabs (R32 x) + MB * Rabs (R32 y) + MC * Rabs (R32 z) + MD * Rabs (R32 w))
    (14 * (4 * (N * K20) + 1) + 8 * (4 * (N * K20) + 1) + 7) (4 * (K20 * K20 * K20)).
Proof.
  intros SA SB SC SD Hx Hy Hz Hw Hk HN. pose proof huge_big as HU. pose proof big90 as H90. pose proof big98 as H98. assert (HK : K20 = 1048576) by reflexivity.
  assert (S : forall v, modest v -> stands v (R32 v) 0 (Rabs (R32 v)) 0 K20).
  { intros v Hv. destruct (modest_num v Hv) as ((V & F & _) & L). now apply stands_exact. }
  assert (HNN : 0 <= N <= huge) by (rewrite HU; lra). assert (H0 : 0 <= 0 <= huge) by (rewrite HU; lra).
  assert (P : forall u v U M, stands u U k M N (K20 * K20) -> modest v ->
    stands (f32_mul u v) (U * R32 v) (k + 1002 / 1000) (M * Rabs (R32 v)) (4 * (N * K20) + 1) (K20 * K20 * K20)).
  { intros u v U M Su Hv.
    pose proof (stands_mul u v _ _ _ _ _ _ _ _ _ _ Su (S v Hv) ltac:(lra) ltac:(lra) HNN H0 ltac:(lra) ltac:(rewrite HK; lra) ltac:(rewrite HK; lra) ltac:(rewrite HK; lra) ltac:(rewrite HK; lra) ltac:(rewrite HK; lra)) as Q.
    replace (k + 0 + 1002 / 1000) with (k + 1002 / 1000) in Q by ring. replace (4 * (N * K20 + 0 * (K20 * K20)) + 1) with (4 * (N * K20) + 1) in Q by ring. exact Q. }
  pose proof (P _ _ _ _ SA Hx) as P1. pose proof (P _ _ _ _ SB Hy) as P2. pose proof (P _ _ _ _ SC Hz) as P3. pose proof (P _ _ _ _ SD Hw) as P4.
  set (n := 4 * (N * K20) + 1) in *. assert (Hn : 0 <= n <= 5000000) by (unfold n; rewrite HK; lra).
  set (T := K20 * K20 * K20) in *. assert (HT : T = 1152921504606846976) by (unfold T; rewrite HK; lra).
  pose proof (stands_add _ _ _ _ _ _ _ _ _ _ _ _ P1 P2 ltac:(lra) ltac:(lra) ltac:(rewrite HU; lra) ltac:(rewrite HU; lra) (k + 1002 / 1000) ltac:(lra) ltac:(lra) ltac:(lra) ltac:(lra)) as Q1.
  pose proof (stands_add _ _ _ _ _ _ _ _ _ _ _ _ Q1 P3 ltac:(lra) ltac:(lra) ltac:(rewrite HU; lra) ltac:(rewrite HU; lra) (k + 1002 / 1000 + 1001 / 1000) ltac:(lra) ltac:(lra) ltac:(lra) ltac:(lra)) as Q2.
  pose proof (stands_add _ _ _ _ _ _ _ _ _ _ _ _ Q2 P4 ltac:(lra) ltac:(lra) ltac:(rewrite HU; lra) ltac:(rewrite HU; lra) (k + 1002 / 1000 + 1001 / 1000 + 1001 / 1000) ltac:(lra) ltac:(lra) ltac:(lra) ltac:(lra)) as Q3.
  replace (k + 1002 / 1000 + 1001 / 1000 + 1001 / 1000 + 1001 / 1000) with (k + 4005 / 1000) in Q3 by lra.
  replace (2 * (2 * (2 * (n + n) + 1 + n) + 1 + n) + 1) with (14 * n + 8 * n + 7) in Q3 by ring.
  replace (T + T + T + T) with (4 * T) in Q3 by ring. exact Q3.
Qed.

Lemma eta_140 : 35 * eta32 <= / 2 ^ 140.
Proof.
  unfold eta32. change (-150)%Z with (- (150))%Z. rewrite bpow_opp. change (bpow radix2 150) with (IZR (2 ^ 150)). rewrite pow_IZR.
  change (2 ^ 150)%Z with 1427247692705959881058285969449495136382746624%Z.
  change (2 ^ Z.of_nat 140)%Z with 1393796574908163946345982392040522594123776%Z. lra.
Qed.
Lemma eta_100 : 100000000 * eta32 <= / 2 ^ 120.
Proof.
  unfold eta32. change (-150)%Z with (- (150))%Z. rewrite bpow_opp. change (bpow radix2 150) with (IZR (2 ^ 150)). rewrite pow_IZR.
  change (2 ^ 150)%Z with 1427247692705959881058285969449495136382746624%Z.
  change (2 ^ Z.of_nat 120)%Z with 1329227995784915872903807060280344576%Z. lra.
Qed.

Lemma total_abs (f : nat -> R) (g : nat -> R) : total (fun j => Rabs (f j * g j)) = total (fun j => Rabs (f j) * Rabs (g j)).
Proof. unfold total. now rewrite !Rabs_mult. Qed.

Lemma row_multiplied m v i : modest_matrix m -> modest_pixel v -> (i < 4)%nat ->
  stands (mat_row m i v) (product m v i) (4005 / 1000) (terms m v i) 29 (4 * (K20 * K20 * K20)).
Proof.
  intros Hm Hv Hi. assert (HK : K20 = 1048576) by reflexivity.
  assert (S : forall j, (j < 4)%nat -> stands (mat m i j) (R32 (mat m i j)) 0 (Rabs (R32 (mat m i j))) 0 (K20 * K20)).
  { intros j Hj. destruct (modest_num _ (Hm i j Hi Hj)) as ((V & F & _) & L). apply stands_exact; auto. rewrite HK in *. lra. }
  destruct v as [[[x y] z] w]. pose proof (Hv 0%nat ltac:(lia)) as X. pose proof (Hv 1%nat ltac:(lia)) as Y. pose proof (Hv 2%nat ltac:(lia)) as Z. pose proof (Hv 3%nat ltac:(lia)) as W.
  cbn [comp nth] in X, Y, Z, W.
  pose proof (row_close _ _ _ _ x y z w _ _ _ _ _ _ _ _ _ _ (S 0%nat ltac:(lia)) (S 1%nat ltac:(lia)) (S 2%nat ltac:(lia)) (S 3%nat ltac:(lia)) X Y Z W ltac:(lra) ltac:(lra)) as Q.
  replace (0 + 4005 / 1000) with (4005 / 1000) in Q by ring. replace (14 * (4 * (0 * K20) + 1) + 8 * (4 * (0 * K20) + 1) + 7) with 29 in Q by ring.
  unfold product, terms. rewrite total_abs. unfold total. cbn [comp nth]. exact Q.
Qed.

Lemma through_multiplied m v : modest_matrix m -> modest_pixel v -> multiplied m v (through m v).
Proof.
  intros Hm Hv i Hi.
  assert (E : comp (through m v) i = mat_row m i v).
  { destruct v as [[[x y] z] w]. destruct (four i Hi) as [-> | [-> | [-> | ->]]]; reflexivity. }
  rewrite E. destruct (row_multiplied m v i Hm Hv Hi) as (V & F & D & _ & _).
  split; [split; [exact V|now apply fin_iff]|]. eapply Rle_trans; [exact D|].
  assert (P : 0 <= terms m v i) by (unfold terms, total; repeat apply Rplus_le_le_0_compat; apply Rabs_pos).
  pose proof eta_140. pose proof eta_pos. assert (4005 / 1000 * eps32 * terms m v i <= terms m v i / 4000000) by (unfold eps32, Rdiv; rewrite (Rmult_comm (terms m v i)); apply Rmult_le_compat_r; lra). lra.
Qed.

(** ** Baking *)
Lemma Forall2_map {A B} (P : A -> Prop) (Q : A -> B -> Prop) f l : (forall v, P v -> Q v (f v)) -> Forall P l -> Forall2 Q l (map f l).
Proof. intros H L. induction L; cbn [map]; constructor; auto. Qed.

Section Bake.
Variables (p : profile) (nx : numerics) (convert : list f32 -> Z -> Z -> Z -> Z -> bool -> list Z -> list Z -> option (list f32)).
Variables (w h : Z) (disp data : bbox) (sp : image_spec) (s : stream).
Hypothesis no_ops : st_ops s = [].
Hypothesis no_defs : st_deformers s = [].
Hypothesis modest_m : modest_matrix (st_matrix s).
Let spent := Stream (st_state s) (st_hash s) (st_display s) (st_data s) identity4 (st_spec s) (st_block s) [] [].

Lemma bake_rgba ps : Forall modest_pixel ps -> exists ps',
  do_process p nx convert BakeAll (PB (BS w h 4) (DF32 (flat4 ps))) disp data sp s linear_name linear_name Float32 =
  Ok (Baked (PB (BS w h 4) (DF32 (flat4 ps'))) data (set_color_space sp linear_name) spent) /\
  Forall2 (multiplied (st_matrix s)) ps ps'.
Proof.
  intros H. exists (map (through (st_matrix s)) ps). split.
  - rewrite bake_order_4, no_ops, no_defs. unfold deform_pixels, enabled. cbn [filter bind pb_convert pb_data db_convert pb_size]. reflexivity.
  - apply (Forall2_map modest_pixel); [|exact H]. intros v Hv. now apply through_multiplied.
Qed.
Lemma one_modest : modest f32_one.
Proof. exact (modest_Z 1 ltac:(lia)). Qed.
Lemma bake_rgb ps : Forall modest_rgb ps -> exists ps',
  do_process p nx convert BakeAll (PB (BS w h 3) (DF32 (flat3 ps))) disp data sp s linear_name linear_name Float32 =
  Ok (Baked (PB (BS w h 3) (DF32 (flat3 ps'))) data (set_color_space sp linear_name) spent) /\
  Forall2 (multiplied_rgb (st_matrix s)) ps ps'.
Proof.
  intros H. exists (map (opaque_step (through (st_matrix s))) ps). split.
  - rewrite bake_order_3, no_ops, no_defs. unfold deform_pixels, enabled. cbn [filter bind pb_convert pb_data db_convert pb_size]. reflexivity.
  - apply (Forall2_map modest_rgb); [|exact H]. intros [[r g] b] (Hr & Hg & Hb). 
    pose proof (through_multiplied (st_matrix s) (r, g, b, f32_one) modest_m) as T. unfold opaque_step, multiplied_rgb.
    destruct (through (st_matrix s) (r, g, b, f32_one)) as [[[r' g'] b'] a']. exists a'. apply T.
    intros i Hi. pose proof one_modest. destruct (four i Hi) as [-> | [-> | [-> | ->]]]; assumption.
Qed.
Lemma bake_alpha l : Forall modest l -> exists l',
  do_process p nx convert BakeAll (PB (BS w h 1) (DF32 l)) disp data sp s linear_name linear_name Float32 =
  Ok (Baked (PB (BS w h 1) (DF32 l')) data (set_color_space sp linear_name) spent) /\
  Forall2 (multiplied_alpha (st_matrix s)) l l'.
Proof.
  intros H. exists (map (alpha_step (through (st_matrix s))) l). split.
  - rewrite bake_order_1, no_ops, no_defs. unfold deform_pixels, enabled. cbn [filter bind pb_convert pb_data db_convert pb_size]. reflexivity.
  - apply (Forall2_map modest); [|exact H]. intros a Ha. 
    pose proof (through_multiplied (st_matrix s) (f32_one, f32_one, f32_one, a) modest_m) as T. unfold alpha_step, multiplied_alpha.
    destruct (through (st_matrix s) (f32_one, f32_one, f32_one, a)) as [[[r' g'] b'] a']. exists r', g', b'. apply T.
    intros i Hi. pose proof one_modest. destruct (four i Hi) as [-> | [-> | [-> | ->]]]; assumption.
Qed.
End Bake.

(** ** Scaled matrices *)
Lemma scaled_entry m r g b a i j : modest_matrix m -> modest_pixel (r, g, b, a) -> (i < 4)%nat -> (j < 4)%nat ->
  let s := comp (r, g, b, a) i in
  num (mat (apply_scale_rgba m r g b a) i j) (R32 (f32_mul s (mat m i j))) /\
  stands (f32_mul s (mat m i j)) (R32 s * R32 (mat m i j)) (1002 / 1000) (Rabs (R32 s) * Rabs (R32 (mat m i j))) 1 (K20 * K20).
Proof.
  intros Hm Hs Hi Hj s. assert (HK : K20 = 1048576) by reflexivity. pose proof huge_big as HU. pose proof big90 as H90.
  assert (St : stands (f32_mul s (mat m i j)) (R32 s * R32 (mat m i j)) (1002 / 1000) (Rabs (R32 s) * Rabs (R32 (mat m i j))) 1 (K20 * K20)).
  { destruct (modest_num _ (Hs i Hi)) as ((V & F & _) & L). destruct (modest_num _ (Hm i j Hi Hj)) as ((V' & F' & _) & L'). fold s in V, F, L.
    pose proof (stands_mul s (mat m i j) _ _ _ _ _ _ _ _ _ _ (stands_exact s K20 V F L) (stands_exact _ K20 V' F' L') ltac:(lra) ltac:(lra) ltac:(rewrite HU; lra) ltac:(rewrite HU; lra) ltac:(lra) ltac:(rewrite HK; lra) ltac:(rewrite HK; lra) ltac:(rewrite HK; lra) ltac:(rewrite HK; lra) ltac:(rewrite HK; lra)) as Q.
    replace (0 + 0 + 1002 / 1000) with (1002 / 1000) in Q by ring. replace (4 * (0 * K20 + 0 * K20) + 1) with 1 in Q by ring. exact Q. }
  split; [|exact St]. pose proof (stands_self _ _ _ _ _ _ St) as Q.
  assert (E : mat (apply_scale_rgba m r g b a) i j = mat_row (diagonal4 r g b a) i (mat m 0 j, mat m 1 j, mat m 2 j, mat m 3 j)).
  { destruct (four i Hi) as [-> | [-> | [-> | ->]]]; destruct (four j Hj) as [-> | [-> | [-> | ->]]]; reflexivity. }
  rewrite E. clear E. unfold mat_row.
  assert (Z : forall k, (k < 4)%nat -> num (f32_mul f32_zero (mat m k j)) 0).
  { intros k Hk. destruct (modest_num _ (Hm k j Hk Hj)) as (V & _). exact (mul0_l _ _ _ num_f0 V). }
  pose proof (Z 0%nat ltac:(lia)) as Z0. pose proof (Z 1%nat ltac:(lia)) as Z1. pose proof (Z 2%nat ltac:(lia)) as Z2. pose proof (Z 3%nat ltac:(lia)) as Z3.
  unfold s in *. clear - Hi Q Z0 Z1 Z2 Z3.
  destruct (four i Hi) as [-> | [-> | [-> | ->]]]; cbn [comp nth] in Q.
  - exact (add0_r _ _ _ (add0_r _ _ _ (add0_r _ _ _ Q Z1) Z2) Z3).
  - exact (add0_r _ _ _ (add0_r _ _ _ (add0_l _ _ _ Z0 Q) Z2) Z3).
  - exact (add0_r _ _ _ (add0_l _ _ _ (add0_r _ _ _ Z0 Z1) Q) Z3).
  - exact (add0_l _ _ _ (add0_r _ _ _ (add0_r _ _ _ Z0 Z1) Z2) Q).
Qed.

Lemma scale_close m r g b a v i : modest_matrix m -> modest_pixel (r, g, b, a) -> modest_pixel v -> (i < 4)%nat ->
  let s := R32 (comp (r, g, b, a) i) in let u := mat_row (apply_scale_rgba m r g b a) i v in
  plain_value u /\ Rabs (R32 u - s * product m v i) <= Rabs s * terms m v i / 3300000 + / 2 ^ 120.
Proof.
  intros Hm Hs Hv Hi s u. assert (HK : K20 = 1048576) by reflexivity.
  assert (S : forall j, (j < 4)%nat -> stands (mat (apply_scale_rgba m r g b a) i j) (s * R32 (mat m i j)) (1002 / 1000) (Rabs s * Rabs (R32 (mat m i j))) 1 (K20 * K20)).
  { intros j Hj. destruct (scaled_entry m r g b a i j Hm Hs Hi Hj) as (N & St). exact (stands_num _ _ _ _ _ _ _ St N). }
  unfold u. destruct v as [[[x y] z] w]. pose proof (Hv 0%nat ltac:(lia)) as X. pose proof (Hv 1%nat ltac:(lia)) as Y. pose proof (Hv 2%nat ltac:(lia)) as Z. pose proof (Hv 3%nat ltac:(lia)) as W.
  cbn [comp nth] in X, Y, Z, W.
  pose proof (row_close _ _ _ _ x y z w _ _ _ _ _ _ _ _ _ _ (S 0%nat ltac:(lia)) (S 1%nat ltac:(lia)) (S 2%nat ltac:(lia)) (S 3%nat ltac:(lia)) X Y Z W ltac:(lra) ltac:(lra)) as Q.
  destruct Q as (V & F & D & _ & _). split; [split; [exact V|now apply fin_iff]|].
  assert (E1 : s * product m (x, y, z, w) i = s * R32 (mat m i 0) * R32 x + s * R32 (mat m i 1) * R32 y + s * R32 (mat m i 2) * R32 z + s * R32 (mat m i 3) * R32 w).
  { unfold product, total. cbn [comp nth]. ring. }
  assert (E2 : Rabs s * terms m (x, y, z, w) i = Rabs s * Rabs (R32 (mat m i 0)) * Rabs (R32 x) + Rabs s * Rabs (R32 (mat m i 1)) * Rabs (R32 y) + Rabs s * Rabs (R32 (mat m i 2)) * Rabs (R32 z) + Rabs s * Rabs (R32 (mat m i 3)) * Rabs (R32 w)).
  { unfold terms. rewrite total_abs. unfold total. cbn [comp nth]. ring. }
  rewrite <- E1, <- E2 in D. unfold mat_row. eapply Rle_trans; [exact D|].
  set (T := Rabs s * terms m (x, y, z, w) i).
  assert (P : 0 <= T) by (unfold T; rewrite E2; repeat apply Rplus_le_le_0_compat; repeat apply Rmult_le_pos; apply Rabs_pos).
  pose proof eta_100. pose proof eta_pos.
  assert ((1002 / 1000 + 4005 / 1000) * eps32 * T <= T / 3300000) by (unfold eps32, Rdiv; rewrite (Rmult_comm T); apply Rmult_le_compat_r; lra).
  assert ((14 * (4 * (1 * K20) + 1) + 8 * (4 * (1 * K20) + 1) + 7) * eta32 <= 100000000 * eta32) by (apply Rmult_le_compat_r; [lra|rewrite HK; lra]). lra.
Qed.

(** Scaling what was the identity multiplies, exactly as a float product does. *)
Lemma identity_modest : modest_matrix identity4.
Proof.
  intros i j Hi Hj. pose proof (modest_Z 0 ltac:(lia)). pose proof one_modest.
  destruct (four i Hi) as [-> | [-> | [-> | ->]]]; destruct (four j Hj) as [-> | [-> | [-> | ->]]]; assumption.
Qed.
Lemma scale_identity r g b a v i : modest_pixel (r, g, b, a) -> modest_pixel v -> (i < 4)%nat ->
  R32 (mat_row (apply_scale_rgba identity4 r g b a) i v) = R32 (f32_mul (comp (r, g, b, a) i) (comp v i)).
Proof.
  intros Hs Hv Hi. set (m := apply_scale_rgba identity4 r g b a). set (s := comp (r, g, b, a) i).
  assert (Ns : num s (R32 s)) by (exact (proj1 (modest_num _ (Hs i Hi)))).
  assert (D : num (mat m i i) (R32 s)).
  { destruct (scaled_entry identity4 r g b a i i identity_modest Hs Hi Hi) as ((V & F & E) & _). unfold m. split; [exact V|]. split; [exact F|]. rewrite E.
    replace (mat identity4 i i) with f32_one by (destruct (four i Hi) as [-> | [-> | [-> | ->]]]; reflexivity). exact (proj2 (proj2 (mul1_r _ _ _ Ns num_one))). }
  assert (Z : forall j, (j < 4)%nat -> i <> j -> num (mat m i j) 0).
  { intros j Hj N. destruct (scaled_entry identity4 r g b a i j identity_modest Hs Hi Hj) as ((V & F & E) & _). unfold m. split; [exact V|]. split; [exact F|]. rewrite E.
    replace (mat identity4 i j) with f32_zero by (destruct (four i Hi) as [-> | [-> | [-> | ->]]]; destruct (four j Hj) as [-> | [-> | [-> | ->]]]; congruence || reflexivity).
    exact (proj2 (proj2 (mul0_r _ _ _ Ns num_f0))). }
  assert (Nv : forall j, (j < 4)%nat -> num (comp v j) (R32 (comp v j))) by (intros j Hj; exact (proj1 (modest_num _ (Hv j Hj)))).
  (* the product is finite *)
  assert (HK : K20 = 1048576) by reflexivity. pose proof huge_big as HU. pose proof big90 as H90.
  assert (P : num (f32_mul (mat m i i) (comp v i)) (R32 (f32_mul s (comp v i)))).
  { destruct D as (Vd & Fd & Ed). destruct Ns as (Vs & Fs & _). destruct (modest_num _ (Hs i Hi)) as (_ & Ls). fold s in Ls. destruct (modest_num _ (Hv i Hi)) as ((Vv & Fv & _) & Lv).
    assert (O : in_range32 (R32 s * R32 (comp v i))).
    { apply in_range_bpow with (e := 60%Z); [reflexivity|discriminate|]. rewrite Rabs_mult. apply Rle_trans with (K20 * K20); [apply Rmult_le_compat; auto using Rabs_pos|]. rewrite HK. change (bpow radix2 60) with 1152921504606846976. lra. }
    destruct (mul_real s (comp v i) Vs Vv Fs Fv O) as (F1 & E1).
    assert (O' : in_range32 (R32 (mat m i i) * R32 (comp v i))) by now rewrite Ed.
    destruct (mul_real (mat m i i) (comp v i) Vd Vv Fd Fv O') as (F2 & E2).
    split; [now apply mul_valid|]. split; [exact F2|]. now rewrite E2, E1, Ed. }
  assert (ZZ : forall j, (j < 4)%nat -> i <> j -> num (f32_mul (mat m i j) (comp v j)) 0) by (intros j Hj N; exact (mul0_l _ _ _ (Z j Hj N) (Nv j Hj))).
  destruct v as [[[x y] z] w]. clear - Hi P ZZ. unfold mat_row.
  destruct (four i Hi) as [-> | [-> | [-> | ->]]]; cbn [comp nth] in P, ZZ |- *.
  - exact (proj2 (proj2 (add0_r _ _ _ (add0_r _ _ _ (add0_r _ _ _ P (ZZ 1%nat ltac:(lia) ltac:(lia))) (ZZ 2%nat ltac:(lia) ltac:(lia))) (ZZ 3%nat ltac:(lia) ltac:(lia))))).
  - exact (proj2 (proj2 (add0_r _ _ _ (add0_r _ _ _ (add0_l _ _ _ (ZZ 0%nat ltac:(lia) ltac:(lia)) P) (ZZ 2%nat ltac:(lia) ltac:(lia))) (ZZ 3%nat ltac:(lia) ltac:(lia))))).
  - exact (proj2 (proj2 (add0_r _ _ _ (add0_l _ _ _ (add0_r _ _ _ (ZZ 0%nat ltac:(lia) ltac:(lia)) (ZZ 1%nat ltac:(lia) ltac:(lia))) P) (ZZ 3%nat ltac:(lia) ltac:(lia))))).
  - exact (proj2 (proj2 (add0_l _ _ _ (add0_r _ _ _ (add0_r _ _ _ (ZZ 0%nat ltac:(lia) ltac:(lia)) (ZZ 1%nat ltac:(lia) ltac:(lia))) (ZZ 2%nat ltac:(lia) ltac:(lia))) P))).
Qed.

Lemma map4_flat4 f ps : map4 f (flat4 ps) = flat4 (map f ps).
Proof.
  induction ps as [|[[[r g] b] a] ps IH]; [reflexivity|]. change (flat4 ((r, g, b, a) :: ps)) with (r :: g :: b :: a :: flat4 ps).
  cbn [map4 map]. rewrite IH. destruct (f (r, g, b, a)) as [[[r' g'] b'] a']. reflexivity.
Qed.
Lemma comp_mat_vec m v i : (i < 4)%nat -> comp (mat_vec m v) i = mat_row m i v.
Proof. intros Hi. destruct (four i Hi) as [-> | [-> | [-> | ->]]]; reflexivity. Qed.
Lemma scale_applied m r g b a ps : modest_matrix m -> modest_pixel (r, g, b, a) -> Forall modest_pixel ps ->
  exists ps', apply_color_matrix (apply_scale_rgba m r g b a) 4 (flat4 ps) = Ok (flat4 ps') /\ Forall2 (scaled_by m r g b a) ps ps'.
Proof.
  intros Hm Hs Hp. exists (map (mat_vec (apply_scale_rgba m r g b a)) ps). split.
  - unfold apply_color_matrix, per_pixel. cbn [Z.leb Z.eqb Z.compare Pos.compare Pos.compare_cont Pos.eqb]. now rewrite map4_flat4.
  - apply (Forall2_map modest_pixel); [|exact Hp]. intros v Hv i Hi s. rewrite comp_mat_vec by exact Hi. exact (scale_close m r g b a v i Hm Hs Hv Hi).
Qed.
Lemma scale_plain r g b a ps : modest_pixel (r, g, b, a) -> Forall modest_pixel ps ->
  exists ps', apply_color_matrix (apply_scale_rgba identity4 r g b a) 4 (flat4 ps) = Ok (flat4 ps') /\ Forall2 (float_scaled r g b a) ps ps'.
Proof.
  intros Hs Hp. exists (map (mat_vec (apply_scale_rgba identity4 r g b a)) ps). split.
  - unfold apply_color_matrix, per_pixel. cbn [Z.leb Z.eqb Z.compare Pos.compare Pos.compare_cont Pos.eqb]. now rewrite map4_flat4.
  - apply (Forall2_map modest_pixel); [|exact Hp]. intros v Hv i Hi. rewrite comp_mat_vec by exact Hi. exact (scale_identity r g b a v i Hs Hv Hi).
Qed.

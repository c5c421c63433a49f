(** Lemmas about the plane mesh. *)
From Coq Require Import Floats.SpecFloat.
From Verif Require Import Machine Loops FloatModel GeomModel GeomSpec.

(** ** Writing blocks one after the other *)

(** [splice b i l]: [b] with [l] written at [i]. *)
Definition splice {A} (b : list A) (i : Z) (l : list A) : list A :=
  firstn (Z.to_nat i) b ++ l ++ skipn (Z.to_nat (i + zlen l)) b.

Lemma splice_len {A} (b l : list A) i : 0 <= i -> i + zlen l <= zlen b -> zlen (splice b i l) = zlen b.
Proof.
  intros H H0. unfold splice, zlen in *. rewrite !app_length, firstn_length, skipn_length. lia.
Qed.

Lemma splice_at {A} (b l : list A) i j : 0 <= i -> i + zlen l <= zlen b ->
  at_z (splice b i l) j = if (i <=? j) && (j <? i + zlen l) then at_z l (j - i) else at_z b j.
Proof.
  intros H H0. unfold splice.
  assert (L : zlen (firstn (Z.to_nat i) b) = i).
  { unfold zlen in *. rewrite firstn_length. lia. }
  pose proof (zlen_nonneg l).
  destruct ((i <=? j) && (j <? i + zlen l)) eqn:E.
  - rewrite at_z_app2 by lia. rewrite L. apply at_z_app1. lia.
  - destruct (Z.ltb_spec j i).
    + rewrite at_z_app1 by lia. apply at_z_firstn. lia.
    + rewrite at_z_app2 by lia. rewrite at_z_app2 by lia. rewrite L. rewrite at_z_skipn by lia. f_equal. lia.
Qed.

Lemma splice_nil {A} (b : list A) i : 0 <= i <= zlen b -> splice b i [] = b.
Proof.
  intro H. unfold splice. cbn [app]. change (zlen (@nil A)) with 0. rewrite Z.add_0_r. apply firstn_skipn.
Qed.

Lemma splice_splice {A} (b l r : list A) i : 0 <= i -> i + zlen l + zlen r <= zlen b ->
  splice (splice b i l) (i + zlen l) r = splice b i (l ++ r).
Proof.
  intros H H0. pose proof (zlen_nonneg l). pose proof (zlen_nonneg r).
  assert (L : zlen (splice b i l) = zlen b) by (apply splice_len; lia).
  apply at_z_ext.
  - rewrite splice_len by lia. rewrite L. symmetry. apply splice_len; [lia|]. rewrite zlen_app. lia.
  - intros j _. rewrite splice_at by lia. rewrite splice_at by lia.
    rewrite splice_at by (rewrite ?zlen_app; lia). rewrite zlen_app.
    destruct (Z.ltb_spec j i).
    { replace ((i + zlen l <=? j) && (j <? i + zlen l + zlen r)) with false by lia.
      replace ((i <=? j) && (j <? i + zlen l)) with false by lia.
      replace ((i <=? j) && (j <? i + (zlen l + zlen r))) with false by lia. reflexivity. }
    destruct (Z.ltb_spec j (i + zlen l)).
    { replace ((i + zlen l <=? j) && (j <? i + zlen l + zlen r)) with false by lia.
      replace ((i <=? j) && true) with true by lia.
      replace ((i <=? j) && (j <? i + (zlen l + zlen r))) with true by lia.
      symmetry. apply at_z_app1. lia. }
    rewrite andb_false_r.
    destruct (Z.ltb_spec j (i + zlen l + zlen r)).
    { replace ((i + zlen l <=? j) && true) with true by lia.
      replace ((i <=? j) && (j <? i + (zlen l + zlen r))) with true by lia.
      rewrite at_z_app2 by lia. f_equal. lia. }
    rewrite andb_false_r.
    replace ((i <=? j) && (j <? i + (zlen l + zlen r))) with false by lia. reflexivity.
Qed.

Lemma set_idx_splice {A} (b : list A) i a : 0 <= i < zlen b -> set_idx b i a = Ok (splice b i [a]).
Proof.
  intro H. destruct (set_idx_ok b i a H) as (r & E & L & W). rewrite E. f_equal.
  assert (Z1 : zlen [a] = 1) by reflexivity.
  apply at_z_ext.
  - rewrite L. symmetry. apply splice_len; lia.
  - intros j _. rewrite W. rewrite splice_at by lia. rewrite Z1.
    destruct (Z.eqb_spec j i).
    + subst. replace ((i <=? i) && (i <? i + 1)) with true by lia. rewrite Z.sub_diag. reflexivity.
    + replace ((i <=? j) && (j <? i + 1)) with false by lia. reflexivity.
Qed.

Lemma put_ok {A} (l : list A) : forall b i, 0 <= i -> i + zlen l <= zlen b ->
  put l (b, i) = Ok (splice b i l, i + zlen l).
Proof.
  induction l as [|a t IH]; intros b i H H0.
  - cbn [put]. change (zlen (@nil A)) with 0 in *. rewrite splice_nil by lia. now rewrite Z.add_0_r.
  - assert (Z1 : zlen (a :: t) = 1 + zlen t) by (unfold zlen; cbn [length]; lia).
    pose proof (zlen_nonneg t). rewrite Z1 in *.
    cbn [put fst snd]. rewrite set_idx_splice by lia. cbn [bind].
    rewrite IH.
    + pose proof (splice_splice b [a] t i H) as S. change (zlen [a]) with 1 in S.
      rewrite S by lia. cbn [app]. f_equal. f_equal. lia.
    + lia.
    + change (zlen [a]) with 1. rewrite splice_len; [lia|lia|change (zlen [a]) with 1; lia].
Qed.


(** A loop whose rounds write one block each. *)
Lemma loop_put {A} (blocks : Z -> list A) f n : forall lo b i,
  0 <= i -> i + zlen (flat_map blocks (zseq lo n)) <= zlen b ->
  (forall r b i, lo <= r < lo + Z.of_nat n -> 0 <= i -> i + zlen (blocks r) <= zlen b ->
     f r (b, i) = Ok (splice b i (blocks r), i + zlen (blocks r))) ->
  for_loop n lo f (b, i)
  = Ok (splice b i (flat_map blocks (zseq lo n)), i + zlen (flat_map blocks (zseq lo n))).
Proof.
  induction n as [|n IH]; intros lo b i H H0 F; cbn [for_loop zseq flat_map] in *.
  - change (zlen (@nil A)) with 0 in *. rewrite splice_nil by lia. now rewrite Z.add_0_r.
  - rewrite zlen_app in *. pose proof (zlen_nonneg (flat_map blocks (zseq (lo + 1) n))).
    pose proof (zlen_nonneg (blocks lo)).
    rewrite F by lia. cbn [bind]. rewrite IH.
    + rewrite splice_splice by lia. f_equal. f_equal. lia.
    + lia.
    + rewrite splice_len by lia. lia.
    + intros r b' i' Hr. apply F. lia.
Qed.

Lemma range_put {A} (blocks : Z -> list A) f lo hi b i :
  0 <= i -> i + zlen (flat_map blocks (zrange lo hi)) <= zlen b ->
  (forall r b i, lo <= r < hi -> 0 <= i -> i + zlen (blocks r) <= zlen b ->
     f r (b, i) = Ok (splice b i (blocks r), i + zlen (blocks r))) ->
  for_range lo hi f (b, i)
  = Ok (splice b i (flat_map blocks (zrange lo hi)), i + zlen (flat_map blocks (zrange lo hi))).
Proof.
  intros H H0 F. unfold for_range, zrange in *. apply loop_put; [exact H|exact H0|].
  intros r b' i' Hr. apply F. lia.
Qed.

(** Blocks of one length [m]. *)
Lemma flat_len {A} (blocks : Z -> list A) m n : forall lo,
  (forall r, lo <= r < lo + Z.of_nat n -> zlen (blocks r) = m) ->
  zlen (flat_map blocks (zseq lo n)) = Z.of_nat n * m.
Proof.
  induction n as [|n IH]; intros lo H; cbn [zseq flat_map].
  - reflexivity.
  - rewrite zlen_app, H by lia. rewrite IH by (intros; apply H; lia). lia.
Qed.

Lemma flat_at {A} (blocks : Z -> list A) m n : forall lo r j,
  (forall r, lo <= r < lo + Z.of_nat n -> zlen (blocks r) = m) ->
  0 <= r < Z.of_nat n -> 0 <= j < m ->
  at_z (flat_map blocks (zseq lo n)) (r * m + j) = at_z (blocks (lo + r)) j.
Proof.
  induction n as [|n IH]; intros lo r j H Hr Hj; cbn [zseq flat_map]; [lia|].
  destruct (Z.eq_dec r 0) as [->|NZ].
  - rewrite Z.add_0_r, Z.mul_0_l, Z.add_0_l. apply at_z_app1. rewrite H; lia.
  - assert (m <= r * m) by nia.
    rewrite at_z_app2 by (rewrite H; lia). rewrite H by lia.
    replace (r * m + j - m) with ((r - 1) * m + j) by ring.
    rewrite IH; [f_equal; f_equal; lia| |lia|lia]. intros; apply H; lia.
Qed.

Lemma range_len {A} (blocks : Z -> list A) m n : 0 <= n ->
  (forall r, 0 <= r < n -> zlen (blocks r) = m) ->
  zlen (flat_map blocks (zrange 0 n)) = n * m.
Proof.
  intros H F. unfold zrange. rewrite Z.sub_0_r, (flat_len blocks m); [rewrite Z2Nat.id by lia; reflexivity|]. intros; apply F; lia.
Qed.

Lemma range_at {A} (blocks : Z -> list A) m n r j :
  (forall r, 0 <= r < n -> zlen (blocks r) = m) -> 0 <= r < n -> 0 <= j < m ->
  at_z (flat_map blocks (zrange 0 n)) (r * m + j) = at_z (blocks r) j.
Proof.
  intros F Hr Hj. unfold zrange. rewrite Z.sub_0_r, (flat_at blocks m); try lia; [reflexivity|].
  intros; apply F; lia.
Qed.

Lemma splice_all {A} (b l : list A) : zlen l = zlen b -> splice b 0 l = l.
Proof.
  intro H. unfold splice. rewrite Z.add_0_l, H. cbn [Z.to_nat firstn app].
  rewrite skipn_all2 by (unfold zlen; lia). apply app_nil_r.
Qed.

(** ** The buffers *)
Section Buffers.
Variable p : profile.
Variable g : plane.
Local Notation dx := (divisions_x g).
Local Notation dy := (divisions_y g).
Hypothesis SP : index_space dx dy.

Lemma u32_ok z : 0 <= z < two32 -> u32_of p z = Ok z.
Proof. intro H. unfold u32_of, in_u32. replace ((0 <=? z) && (z <? two32)) with true by lia. reflexivity. Qed.

Lemma u64_ok z : 0 <= z < two64 -> u64_of p z = Ok z.
Proof. intro H. unfold u64_of, in_u64. replace ((0 <=? z) && (z <? two64)) with true by lia. reflexivity. Qed.

Lemma indexes_ok row col : 0 <= row < dy -> 0 <= col < dx -> row < dy - 1 \/ col < dx - 1 ->
  get_indexes p g row col = Ok (row * dx + col, (row + 1) * dx + col, row * dx + col + 1, (row + 1) * dx + col + 1).
Proof.
  intros Hr Hc Hx. destruct SP as (A & B & C & _). unfold get_indexes.
  assert (0 <= row * dx) by nia. assert (row * dx <= (dy - 1) * dx) by nia.
  assert ((row + 1) * dx = row * dx + dx) by ring.
  assert (row * dx + dx + col + 1 < two32).
  { destruct Hx; [assert (row * dx <= (dy - 2) * dx) by nia|]; nia. }
  rewrite u32_ok by lia. cbn [bind]. rewrite u32_ok by lia. cbn [bind]. rewrite u32_ok by lia. cbn [bind].
  rewrite u32_ok by lia. cbn [bind]. rewrite u32_ok by lia. cbn [bind]. f_equal. f_equal; [f_equal; f_equal|]; lia.
Qed.

(** A buffer of [m] indexes per face. *)
Definition faces {A} (blk : Z -> Z -> list A) : list A :=
  flat_map (fun row => flat_map (blk row) (zrange 0 (dx - 1))) (zrange 0 (dy - 1)).

Lemma faces_len {A} (blk : Z -> Z -> list A) m : (forall r c, zlen (blk r c) = m) ->
  zlen (faces blk) = (dy - 1) * ((dx - 1) * m).
Proof.
  intro H. destruct SP as (? & ? & _). unfold faces. apply range_len; [lia|]. intros r _.
  apply range_len; [lia|]. intros c _. apply H.
Qed.

Lemma faces_at {A} (blk : Z -> Z -> list A) m r c j : (forall r c, zlen (blk r c) = m) ->
  0 <= r < dy - 1 -> 0 <= c < dx - 1 -> 0 <= j < m ->
  at_z (faces blk) ((r * (dx - 1) + c) * m + j) = at_z (blk r c) j.
Proof.
  intros H Hr Hc Hj. unfold faces.
  replace ((r * (dx - 1) + c) * m + j) with (r * ((dx - 1) * m) + (c * m + j)) by ring.
  rewrite (range_at _ ((dx - 1) * m)).
  - apply range_at; auto.
  - intros r' _. apply range_len; [lia|]. intros c' _. apply H.
  - exact Hr.
  - nia.
Qed.

Lemma faces_loop {A} (blk : Z -> Z -> list A) m (f : Z -> Z -> list A * Z -> Res (list A * Z)) b :
  (forall r c, zlen (blk r c) = m) -> zlen b = (dy - 1) * ((dx - 1) * m) ->
  (forall r c b i, 0 <= r < dy - 1 -> 0 <= c < dx - 1 -> 0 <= i -> i + zlen (blk r c) <= zlen b ->
     f r c (b, i) = Ok (splice b i (blk r c), i + zlen (blk r c))) ->
  for_range 0 (dy - 1) (fun row st =>
    let* nx := u32_of p (dx - 1) in for_range 0 nx (f row) st) (b, 0)
  = Ok (faces blk, zlen b).
Proof.
  intros H L F. pose proof (faces_len blk m H) as FL.
  destruct SP as (A1 & A2 & A3 & A4). unfold two31, two32 in *.
  rewrite (range_put (fun row => flat_map (blk row) (zrange 0 (dx - 1)))).
  - fold (faces blk). rewrite splice_all by lia. rewrite FL, L. reflexivity.
  - lia.
  - fold (faces blk). lia.
  - intros r b' i Hr Hi Hl. rewrite u32_ok by (unfold two32; lia). cbn [bind].
    apply range_put; [exact Hi|exact Hl|]. intros c b'' i' Hc Hi' Hl'. now apply F.
Qed.

Definition tri_block (r c : Z) : list Z :=
  [r * dx + c; (r + 1) * dx + c; (r + 1) * dx + c + 1; r * dx + c; (r + 1) * dx + c + 1; r * dx + c + 1].
Definition wire_block (r c : Z) : list Z :=
  [r * dx + c; (r + 1) * dx + c; (r + 1) * dx + c; (r + 1) * dx + c + 1;
   (r + 1) * dx + c + 1; r * dx + c + 1; r * dx + c + 1; r * dx + c].

Lemma fill_tris_ok b : zlen b = (dy - 1) * ((dx - 1) * 6) -> fill_tris p g b = Ok (faces tri_block).
Proof.
  intro L. pose proof SP as (A1 & A2 & A3 & A4). unfold fill_tris.
  unfold two31, two32 in *. rewrite u32_ok by (unfold two32; nia). cbn [bind].
  rewrite (faces_loop tri_block 6); [reflexivity|reflexivity|exact L|].
  intros r c b' i Hr Hc Hi Hl. rewrite indexes_ok by lia. cbn [bind]. apply (put_ok (tri_block r c)); assumption.
Qed.

Lemma fill_wire_ok b : zlen b = (dy - 1) * ((dx - 1) * 8) -> fill_wire p g b = Ok (faces wire_block).
Proof.
  intro L. pose proof SP as (A1 & A2 & A3 & A4). unfold fill_wire.
  unfold two31, two32 in *. rewrite u32_ok by (unfold two32; nia). cbn [bind].
  rewrite (faces_loop wire_block 8); [reflexivity|reflexivity|exact L|].
  intros r c b' i Hr Hc Hi Hl. rewrite indexes_ok by lia. cbn [bind]. apply (put_ok (wire_block r c)); assumption.
Qed.

(** The four sides, in the order they are written. *)
Definition side_left (r : Z) : list Z := [r * dx + 0; (r + 1) * dx + 0].
Definition side_right (r : Z) : list Z := [r * dx + (dx - 1); (r + 1) * dx + (dx - 1)].
Definition side_top (c : Z) : list Z := [(dy - 1) * dx + c; (dy - 1) * dx + c + 1].
Definition side_bottom (c : Z) : list Z := [0 * dx + c; 0 * dx + c + 1].
Definition border : list Z :=
  flat_map side_left (zrange 0 (dy - 1)) ++ flat_map side_right (zrange 0 (dy - 1))
  ++ flat_map side_top (zrange 0 (dx - 1)) ++ flat_map side_bottom (zrange 0 (dx - 1)).

Lemma side_len (f : Z -> list Z) n : 0 <= n -> (forall r, zlen (f r) = 2) ->
  zlen (flat_map f (zrange 0 n)) = n * 2.
Proof. intros H F. apply range_len; [exact H|]. intros; apply F. Qed.

Lemma fill_border_ok b : zlen b = 4 * (dx - 1) + 4 * (dy - 1) -> fill_border p g b = Ok border.
Proof.
  intro L. pose proof SP as (A1 & A2 & A3 & A4). unfold two31, two32 in A3, A4.
  assert (L1 : zlen (flat_map side_left (zrange 0 (dy - 1))) = (dy - 1) * 2) by (apply side_len; [lia|reflexivity]).
  assert (L2 : zlen (flat_map side_right (zrange 0 (dy - 1))) = (dy - 1) * 2) by (apply side_len; [lia|reflexivity]).
  assert (L3 : zlen (flat_map side_top (zrange 0 (dx - 1))) = (dx - 1) * 2) by (apply side_len; [lia|reflexivity]).
  assert (L4 : zlen (flat_map side_bottom (zrange 0 (dx - 1))) = (dx - 1) * 2) by (apply side_len; [lia|reflexivity]).
  unfold fill_border.
  rewrite (u32_ok (dy - 1)) by (unfold two32; lia). rewrite (u32_ok (dx - 1)) by (unfold two32; lia). cbn [bind].
  rewrite (range_put side_left); [|lia|lia|].
  2:{ intros r b' i Hr Hi Hl. rewrite indexes_ok by lia. cbn [bind]. now apply (put_ok (side_left r)). }
  cbn [bind]. rewrite Z.add_0_l.
  rewrite (range_put side_right); [|lia|rewrite splice_len by lia; lia|].
  2:{ intros r b' i Hr Hi Hl. rewrite indexes_ok by lia. cbn [bind]. now apply (put_ok (side_right r)). }
  cbn [bind].
  pose proof (splice_splice b (flat_map side_left (zrange 0 (dy - 1)))
                (flat_map side_right (zrange 0 (dy - 1))) 0) as S1.
  rewrite Z.add_0_l in S1. rewrite S1 by lia. clear S1.
  rewrite <- (zlen_app (flat_map side_left (zrange 0 (dy - 1)))).
  set (l2 := flat_map side_left (zrange 0 (dy - 1)) ++ flat_map side_right (zrange 0 (dy - 1))).
  assert (L12 : zlen l2 = (dy - 1) * 4) by (unfold l2; rewrite zlen_app; lia).
  rewrite (range_put side_top); [|lia|rewrite splice_len by lia; lia|].
  2:{ intros r b' i Hr Hi Hl. rewrite indexes_ok by lia. cbn [bind]. now apply (put_ok (side_top r)). }
  cbn [bind].
  pose proof (splice_splice b l2 (flat_map side_top (zrange 0 (dx - 1))) 0) as S1.
  rewrite Z.add_0_l in S1. rewrite S1 by lia. clear S1. rewrite <- (zlen_app l2).
  set (l3 := l2 ++ flat_map side_top (zrange 0 (dx - 1))).
  assert (L13 : zlen l3 = (dy - 1) * 4 + (dx - 1) * 2) by (unfold l3; rewrite zlen_app; lia).
  rewrite (range_put side_bottom); [|lia|rewrite splice_len by lia; lia|].
  2:{ intros r b' i Hr Hi Hl. rewrite indexes_ok by lia. cbn [bind]. now apply (put_ok (side_bottom r)). }
  cbn [bind fst].
  pose proof (splice_splice b l3 (flat_map side_bottom (zrange 0 (dx - 1))) 0) as S1.
  rewrite Z.add_0_l in S1. rewrite S1 by lia. clear S1.
  rewrite splice_all by (rewrite zlen_app; lia).
  unfold l3, l2, border. now rewrite !app_assoc.
Qed.
End Buffers.

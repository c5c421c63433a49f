(** What the filled index buffers draw. *)
From Verif Require Import Machine Loops FloatModel GeomModel GeomSpec GeomProofs.

Section Draw.
Variable g : plane.
Local Notation dx := (divisions_x g).
Local Notation dy := (divisions_y g).
Hypothesis SP : index_space dx dy.

Lemma point_at r c i : 0 <= c < dx -> i = r * dx + c -> grid_point dx i = (c, r).
Proof.
  intros H ->. unfold grid_point. f_equal.
  - rewrite Z.add_comm, Z.mod_add by lia. apply Z.mod_small. lia.
  - rewrite Z.div_add_l by lia. rewrite Z.div_small by lia. lia.
Qed.

(** Block [q] belongs to row [q / (dx-1)], column [q mod (dx-1)]. *)
Lemma face_of q : 0 <= q < (dy - 1) * (dx - 1) ->
  exists r c, 0 <= r < dy - 1 /\ 0 <= c < dx - 1 /\ q = r * (dx - 1) + c.
Proof.
  intro H. destruct SP as (A & B & _).
  assert (0 < dx - 1) by nia.
  exists (q / (dx - 1)), (q mod (dx - 1)).
  pose proof (Z.div_mod q (dx - 1) ltac:(lia)). pose proof (Z.mod_pos_bound q (dx - 1) ltac:(lia)).
  split; [|split; [lia|lia]].
  split; [apply Z.div_pos; lia|]. apply Z.div_lt_upper_bound; nia.
Qed.

Lemma at_faces_inv {A} (blk : Z -> Z -> list A) m k v : 0 < m -> (forall r c, zlen (blk r c) = m) ->
  at_z (faces g blk) k = Some v ->
  exists r c j, 0 <= r < dy - 1 /\ 0 <= c < dx - 1 /\ 0 <= j < m
    /\ k = (r * (dx - 1) + c) * m + j /\ at_z (blk r c) j = Some v.
Proof.
  intros M L H. pose proof (at_z_range _ _ _ H) as R. rewrite (faces_len g SP blk m L) in R.
  pose proof (Z.div_mod k m ltac:(lia)) as D. pose proof (Z.mod_pos_bound k m M) as B.
  destruct (face_of (k / m)) as (r & c & Hr & Hc & E).
  { split; [apply Z.div_pos; lia|]. apply Z.div_lt_upper_bound; [lia|]. nia. }
  exists r, c, (k mod m). split; [exact Hr|]. split; [exact Hc|]. split; [exact B|]. split; [rewrite <- E; lia|].
  rewrite <- (faces_at g blk m r c (k mod m) L Hr Hc B), <- E, (Z.mul_comm (k / m)), <- D. exact H.
Qed.

(** ** Triangles *)
Lemma tri_inv k a b c : triangle dx (faces g (tri_block g)) k a b c ->
  exists r cc h, 0 <= r < dy - 1 /\ 0 <= cc < dx - 1 /\ k = 2 * (r * (dx - 1) + cc) + h
    /\ ((h = 0 /\ a = (cc, r) /\ b = (cc, r + 1) /\ c = (cc + 1, r + 1))
        \/ (h = 1 /\ a = (cc, r) /\ b = (cc + 1, r + 1) /\ c = (cc + 1, r))).
Proof.
  intros (i & j & l & Ei & Ej & El & -> & -> & ->).
  destruct (at_faces_inv (tri_block g) 6 _ _ ltac:(lia) ltac:(reflexivity) Ei) as (r & cc & o & Hr & Hc & Ho & E & V).
  exists r, cc.
  assert (F : forall o', 0 <= o' < 6 -> at_z (faces g (tri_block g)) ((r * (dx - 1) + cc) * 6 + o') = at_z (tri_block g r cc) o').
  { intros o' Ho'. apply (faces_at g (tri_block g) 6); [reflexivity|exact Hr|exact Hc|exact Ho']. }
  assert (O : o = 0 \/ o = 3) by lia.
  destruct O as [-> | ->].
  - exists 0. split; [exact Hr|]. split; [exact Hc|]. split; [lia|]. left. split; [reflexivity|].
    replace (3 * k + 1) with ((r * (dx - 1) + cc) * 6 + 1) in Ej by lia.
    replace (3 * k + 2) with ((r * (dx - 1) + cc) * 6 + 2) in El by lia.
    rewrite F in Ej by lia. rewrite F in El by lia. cbn in V, Ej, El.
    injection V as <-. injection Ej as <-. injection El as <-.
    repeat split; apply point_at; lia.
  - exists 1. split; [exact Hr|]. split; [exact Hc|]. split; [lia|]. right. split; [reflexivity|].
    replace (3 * k + 1) with ((r * (dx - 1) + cc) * 6 + 4) in Ej by lia.
    replace (3 * k + 2) with ((r * (dx - 1) + cc) * 6 + 5) in El by lia.
    rewrite F in Ej by lia. rewrite F in El by lia. cbn in V, Ej, El.
    injection V as <-. injection Ej as <-. injection El as <-.
    repeat split; apply point_at; lia.
Qed.

Lemma tri_ex r c h : 0 <= r < dy - 1 -> 0 <= c < dx - 1 -> h = 0 \/ h = 1 ->
  exists k, triangle dx (faces g (tri_block g)) k (c, r)
    (if h =? 0 then (c, r + 1) else (c + 1, r + 1)) (if h =? 0 then (c + 1, r + 1) else (c + 1, r)).
Proof.
  intros Hr Hc Hh. exists (2 * (r * (dx - 1) + c) + h).
  assert (F : forall o', 0 <= o' < 6 -> at_z (faces g (tri_block g)) ((r * (dx - 1) + c) * 6 + o') = at_z (tri_block g r c) o').
  { intros o' Ho'. apply (faces_at g (tri_block g) 6); [reflexivity|exact Hr|exact Hc|exact Ho']. }
  unfold triangle.
  replace (3 * (2 * (r * (dx - 1) + c) + h) + 2) with ((r * (dx - 1) + c) * 6 + (3 * h + 2)) by ring.
  replace (3 * (2 * (r * (dx - 1) + c) + h) + 1) with ((r * (dx - 1) + c) * 6 + (3 * h + 1)) by ring.
  replace (3 * (2 * (r * (dx - 1) + c) + h)) with ((r * (dx - 1) + c) * 6 + 3 * h) by ring.
  rewrite !F by lia.
  destruct Hh as [-> | ->]; cbn [Z.eqb]; cbn [Z.mul Z.add Pos.add Pos.mul Pos.add_carry Pos.succ];
    eexists _, _, _; split; [reflexivity| |reflexivity| ]; (split; [reflexivity|]; split; [reflexivity|]);
    repeat split; symmetry; apply point_at; lia.
Qed.

Lemma tri_area k a b c : triangle dx (faces g (tri_block g)) k a b c -> area2 a b c = -1.
Proof.
  intro T. destruct (tri_inv _ _ _ _ T) as (r & cc & h & _ & _ & _ & [(_ & -> & -> & ->)|(_ & -> & -> & ->)]);
    unfold area2; cbn [fst snd]; ring.
Qed.

(** Every point of the plane is covered. *)
Lemma tri_cover n x y : 2 <= dx -> 2 <= dy -> 0 < n -> 0 <= x <= n * (dx - 1) -> 0 <= y <= n * (dy - 1) ->
  exists k a b c, triangle dx (faces g (tri_block g)) k a b c /\ inside Z.le n (x, y) a b c.
Proof.
  intros Dx Dy N X Y.
  assert (C : exists c, 0 <= c < dx - 1 /\ n * c <= x <= n * (c + 1)).
  { destruct (Z.eq_dec x (n * (dx - 1))) as [E|NE].
    - exists (dx - 2). nia.
    - exists (x / n). pose proof (Z.div_mod x n ltac:(lia)). pose proof (Z.mod_pos_bound x n N).
      split; [|lia]. split; [apply Z.div_pos; lia|apply Z.div_lt_upper_bound; lia]. }
  assert (R : exists r, 0 <= r < dy - 1 /\ n * r <= y <= n * (r + 1)).
  { destruct (Z.eq_dec y (n * (dy - 1))) as [E|NE].
    - exists (dy - 2). nia.
    - exists (y / n). pose proof (Z.div_mod y n ltac:(lia)). pose proof (Z.mod_pos_bound y n N).
      split; [|lia]. split; [apply Z.div_pos; lia|apply Z.div_lt_upper_bound; lia]. }
  destruct C as (c & Hc & X'). destruct R as (r & Hr & Y').
  destruct (Z_le_gt_dec (x - n * c) (y - n * r)) as [D|D].
  - destruct (tri_ex r c 0 Hr Hc ltac:(auto)) as (k & T). cbn [Z.eqb] in T.
    exists k, (c, r), (c, r + 1), (c + 1, r + 1). split; [exact T|].
    unfold inside, area2, scale. cbn [fst snd]. clear - N D X' Y'. nia.
  - destruct (tri_ex r c 1 Hr Hc ltac:(auto)) as (k & T). cbn [Z.eqb] in T.
    exists k, (c, r), (c + 1, r + 1), (c + 1, r). split; [exact T|].
    unfold inside, area2, scale. cbn [fst snd]. clear - N D X' Y'. nia.
Qed.

Lemma inside_lower n x y c r : 0 < n ->
  inside Z.lt n (x, y) (c, r) (c, r + 1) (c + 1, r + 1) -> n * c < x /\ x - n * c < y - n * r /\ y < n * (r + 1).
Proof. intros N (A & B & C). unfold area2, scale in *. cbn [fst snd] in *. nia. Qed.

Lemma inside_upper n x y c r : 0 < n ->
  inside Z.lt n (x, y) (c, r) (c + 1, r + 1) (c + 1, r) -> n * r < y /\ y - n * r < x - n * c /\ x < n * (c + 1).
Proof. intros N (A & B & C). unfold area2, scale in *. cbn [fst snd] in *. nia. Qed.

Lemma between n u v x : 0 < n -> n * u < x < n * (u + 1) -> n * v < x < n * (v + 1) -> u = v.
Proof. intros. assert (u < v + 1) by nia. assert (v < u + 1) by nia. lia. Qed.

(** No two triangles overlap. *)
Lemma tri_disjoint n q k a b c k' a' b' c' : 0 < n ->
  triangle dx (faces g (tri_block g)) k a b c -> triangle dx (faces g (tri_block g)) k' a' b' c' ->
  inside Z.lt n q a b c -> inside Z.lt n q a' b' c' -> k = k'.
Proof.
  intros N T T' I I'. destruct q as [x y].
  destruct (tri_inv _ _ _ _ T) as (r & cc & h & _ & _ & K & E).
  destruct (tri_inv _ _ _ _ T') as (r' & cc' & h' & _ & _ & K' & E').
  assert (P : (n * cc < x < n * (cc + 1) /\ n * r < y < n * (r + 1))
              /\ ((h = 0 /\ x - n * cc < y - n * r) \/ (h = 1 /\ y - n * r < x - n * cc))).
  { destruct E as [(-> & -> & -> & ->)|(-> & -> & -> & ->)].
    - apply (inside_lower n) in I; [|exact N]. lia.
    - apply (inside_upper n) in I; [|exact N]. lia. }
  assert (P' : (n * cc' < x < n * (cc' + 1) /\ n * r' < y < n * (r' + 1))
              /\ ((h' = 0 /\ x - n * cc' < y - n * r') \/ (h' = 1 /\ y - n * r' < x - n * cc'))).
  { destruct E' as [(-> & -> & -> & ->)|(-> & -> & -> & ->)].
    - apply (inside_lower n) in I'; [|exact N]. lia.
    - apply (inside_upper n) in I'; [|exact N]. lia. }
  destruct P as ((P1 & P2) & P3). destruct P' as ((P1' & P2') & P3').
  assert (cc = cc') by (eapply between; eassumption).
  assert (r = r') by (eapply between; eassumption).
  subst. assert (h = h') by lia. subst. reflexivity.
Qed.

Lemma block_range r c j v (blk : list Z) : 0 <= r < dy - 1 -> 0 <= c < dx - 1 ->
  (forall x, In x blk -> x = r * dx + c \/ x = r * dx + c + 1 \/ x = (r + 1) * dx + c \/ x = (r + 1) * dx + c + 1) ->
  at_z blk j = Some v -> 0 <= v < dx * dy.
Proof.
  intros Hr Hc H V.
  assert (I : In v blk). { unfold at_z in V. destruct (0 <=? j); [|discriminate]. eapply nth_error_In, V. }
  apply H in I. assert (0 <= r * dx) by nia. assert ((r + 1) * dx <= (dy - 1) * dx) by nia.
  assert ((r + 1) * dx = r * dx + dx) by ring. assert ((dy - 1) * dx = dx * dy - dx) by ring. lia.
Qed.

Lemma tris_in_range : in_range dx dy (faces g (tri_block g)).
Proof.
  intros i v H.
  destruct (at_faces_inv (tri_block g) 6 _ _ ltac:(lia) ltac:(reflexivity) H) as (r & c & j & Hr & Hc & _ & _ & V).
  eapply (block_range r c); try eassumption. cbn [In tri_block]. intros x Hx. intuition lia.
Qed.

(** ** Wire lines *)
Lemma wire_in_range : in_range dx dy (faces g (wire_block g)).
Proof.
  intros i v H.
  destruct (at_faces_inv (wire_block g) 8 _ _ ltac:(lia) ltac:(reflexivity) H) as (r & c & j & Hr & Hc & _ & _ & V).
  eapply (block_range r c); try eassumption. cbn [In wire_block]. intros x Hx. intuition lia.
Qed.

Lemma wire_inv k a b : line dx (faces g (wire_block g)) k a b -> grid_edge dx dy a b.
Proof.
  intros (i & j & Ei & Ej & -> & ->).
  destruct (at_faces_inv (wire_block g) 8 _ _ ltac:(lia) ltac:(reflexivity) Ei) as (r & c & o & Hr & Hc & Ho & E & V).
  replace (2 * k + 1) with ((r * (dx - 1) + c) * 8 + (o + 1)) in Ej by lia.
  assert (O : o = 0 \/ o = 2 \/ o = 4 \/ o = 6) by lia.
  rewrite (faces_at g (wire_block g) 8 r c (o + 1) ltac:(reflexivity) Hr Hc ltac:(lia)) in Ej.
  destruct O as [-> |[-> |[-> | ->]]]; cbn in V, Ej; injection V as <-; injection Ej as <-;
    unfold grid_edge, on_grid.
  - rewrite (point_at r c), (point_at (r + 1) c) by lia. cbn [fst snd]. lia.
  - rewrite (point_at (r + 1) c), (point_at (r + 1) (c + 1)) by lia. cbn [fst snd]. lia.
  - rewrite (point_at (r + 1) (c + 1)), (point_at r (c + 1)) by lia. cbn [fst snd]. lia.
  - rewrite (point_at r (c + 1)), (point_at r c) by lia. cbn [fst snd]. lia.
Qed.

Lemma wire_ex r c o a b : 0 <= r < dy - 1 -> 0 <= c < dx - 1 ->
  (o = 0 /\ a = (c, r) /\ b = (c, r + 1)) \/ (o = 1 /\ a = (c, r + 1) /\ b = (c + 1, r + 1))
  \/ (o = 2 /\ a = (c + 1, r + 1) /\ b = (c + 1, r)) \/ (o = 3 /\ a = (c + 1, r) /\ b = (c, r)) ->
  exists k, line dx (faces g (wire_block g)) k a b.
Proof.
  intros Hr Hc H. exists (4 * (r * (dx - 1) + c) + o).
  assert (F : forall o', 0 <= o' < 8 -> at_z (faces g (wire_block g)) ((r * (dx - 1) + c) * 8 + o') = at_z (wire_block g r c) o').
  { intros o' Ho'. apply (faces_at g (wire_block g) 8); [reflexivity|exact Hr|exact Hc|exact Ho']. }
  unfold line.
  replace (2 * (4 * (r * (dx - 1) + c) + o) + 1) with ((r * (dx - 1) + c) * 8 + (2 * o + 1)) by ring.
  replace (2 * (4 * (r * (dx - 1) + c) + o)) with ((r * (dx - 1) + c) * 8 + 2 * o) by ring.
  assert (0 <= o < 4) by lia.
  rewrite !F by lia.
  destruct H as [(-> & -> & ->)|[(-> & -> & ->)|[(-> & -> & ->)|(-> & -> & ->)]]];
    eexists _, _; (split; [reflexivity|]); (split; [reflexivity|]); split; symmetry; apply point_at; lia.
Qed.

(** Every edge of the grid is drawn, in one direction or the other. *)
Lemma wire_cover a b : 2 <= dx -> 2 <= dy -> grid_edge dx dy a b ->
  exists k, line dx (faces g (wire_block g)) k a b \/ line dx (faces g (wire_block g)) k b a.
Proof.
  intros Dx Dy (A & B & D). destruct a as [ax ay], b as [bx by_]. unfold on_grid in *. cbn [fst snd] in *.
  assert (L : forall c r, 0 <= c < dx -> 0 <= r < dy - 1 ->
    exists k, line dx (faces g (wire_block g)) k (c, r) (c, r + 1) \/ line dx (faces g (wire_block g)) k (c, r + 1) (c, r)).
  { intros c r Hc Hr. destruct (Z_lt_ge_dec c (dx - 1)).
    - destruct (wire_ex r c 0 (c, r) (c, r + 1) ltac:(lia) ltac:(lia) ltac:(auto)) as (k & K). exists k. now left.
    - destruct (wire_ex r (c - 1) 2 (c, r + 1) (c, r) ltac:(lia) ltac:(lia)) as (k & K).
      + right; right; left. replace (c - 1 + 1) with c by lia. auto.
      + exists k. now right. }
  assert (M : forall c r, 0 <= c < dx - 1 -> 0 <= r < dy ->
    exists k, line dx (faces g (wire_block g)) k (c, r) (c + 1, r) \/ line dx (faces g (wire_block g)) k (c + 1, r) (c, r)).
  { intros c r Hc Hr. destruct (Z_lt_ge_dec r (dy - 1)).
    - destruct (wire_ex r c 3 (c + 1, r) (c, r) ltac:(lia) ltac:(lia)) as (k & K); [tauto|]. exists k. now right.
    - destruct (wire_ex (r - 1) c 1 (c, r) (c + 1, r) ltac:(lia) ltac:(lia)) as (k & K).
      + right; left. replace (r - 1 + 1) with r by lia. auto.
      + exists k. now left. }
  assert (Cs : (bx = ax /\ by_ = ay + 1) \/ (bx = ax /\ ay = by_ + 1) \/ (by_ = ay /\ bx = ax + 1) \/ (by_ = ay /\ ax = bx + 1)) by lia.
  destruct Cs as [(-> & ->)|[(-> & ->)|[(-> & ->)|(-> & ->)]]].
  - apply L; lia.
  - destruct (L ax by_ ltac:(lia) ltac:(lia)) as (k & [K|K]); exists k; auto.
  - apply M; lia.
  - destruct (M bx ay ltac:(lia) ltac:(lia)) as (k & [K|K]); exists k; auto.
Qed.

(** ** Border lines *)
Local Notation B := (border g).

Lemma side_at (f : Z -> list Z) n r j : (forall r, zlen (f r) = 2) -> 0 <= r < n -> 0 <= j < 2 ->
  at_z (flat_map f (zrange 0 n)) (2 * r + j) = at_z (f r) j.
Proof. intros F Hr Hj. rewrite (Z.mul_comm 2). apply (range_at f 2); [intros; apply F|exact Hr|exact Hj]. Qed.

(** Which side line [k] lies on. *)
Definition side_of (k r : Z) (a b : Z * Z) : Prop :=
  (0 <= r < dy - 1 /\ k = r /\ a = (0, r) /\ b = (0, r + 1))
  \/ (0 <= r < dy - 1 /\ k = (dy - 1) + r /\ a = (dx - 1, r) /\ b = (dx - 1, r + 1))
  \/ (0 <= r < dx - 1 /\ k = 2 * (dy - 1) + r /\ a = (r, dy - 1) /\ b = (r + 1, dy - 1))
  \/ (0 <= r < dx - 1 /\ k = 2 * (dy - 1) + (dx - 1) + r /\ a = (r, 0) /\ b = (r + 1, 0)).

Lemma border_at r j : 0 <= j < 2 ->
  (0 <= r < dy - 1 -> at_z B (2 * r + j) = at_z (side_left g r) j)
  /\ (0 <= r < dy - 1 -> at_z B (2 * ((dy - 1) + r) + j) = at_z (side_right g r) j)
  /\ (0 <= r < dx - 1 -> at_z B (2 * (2 * (dy - 1) + r) + j) = at_z (side_top g r) j)
  /\ (0 <= r < dx - 1 -> at_z B (2 * (2 * (dy - 1) + (dx - 1) + r) + j) = at_z (side_bottom g r) j).
Proof.
  intro Hj. destruct SP as (A1 & A2 & _).
  assert (L1 : zlen (flat_map (side_left g) (zrange 0 (dy - 1))) = (dy - 1) * 2) by (apply side_len; [lia|reflexivity]).
  assert (L2 : zlen (flat_map (side_right g) (zrange 0 (dy - 1))) = (dy - 1) * 2) by (apply side_len; [lia|reflexivity]).
  assert (L3 : zlen (flat_map (side_top g) (zrange 0 (dx - 1))) = (dx - 1) * 2) by (apply side_len; [lia|reflexivity]).
  unfold border. split; [|split; [|split]]; intro Hr.
  - rewrite at_z_app1 by lia. now apply side_at.
  - rewrite at_z_app2 by lia. rewrite L1, at_z_app1 by lia.
    replace (2 * (dy - 1 + r) + j - (dy - 1) * 2) with (2 * r + j) by ring. now apply side_at.
  - rewrite at_z_app2 by lia. rewrite L1, at_z_app2 by lia. rewrite L2, at_z_app1 by lia.
    replace (2 * (2 * (dy - 1) + r) + j - (dy - 1) * 2 - (dy - 1) * 2) with (2 * r + j) by ring. now apply side_at.
  - rewrite at_z_app2 by lia. rewrite L1, at_z_app2 by lia. rewrite L2, at_z_app2 by lia. rewrite L3.
    replace (2 * (2 * (dy - 1) + (dx - 1) + r) + j - (dy - 1) * 2 - (dy - 1) * 2 - (dx - 1) * 2) with (2 * r + j) by ring.
    now apply side_at.
Qed.

Lemma border_len : zlen B = 4 * (dx - 1) + 4 * (dy - 1).
Proof.
  destruct SP as (A1 & A2 & _). unfold border. rewrite !zlen_app.
  rewrite !side_len by (try lia; reflexivity). lia.
Qed.

Local Ltac fin := repeat split; try lia; f_equal; lia.

Lemma border_index k : 0 <= k < 2 * (dx - 1) + 2 * (dy - 1) ->
  exists r a b, side_of k r a b.
Proof.
  intro H.
  destruct (Z_lt_ge_dec k (dy - 1)); [exists k, (0, k), (0, k + 1); left; fin|].
  destruct (Z_lt_ge_dec k (2 * (dy - 1))).
  { exists (k - (dy - 1)), (dx - 1, k - (dy - 1)), (dx - 1, k - (dy - 1) + 1). right; left. fin. }
  destruct (Z_lt_ge_dec k (2 * (dy - 1) + (dx - 1))).
  { exists (k - 2 * (dy - 1)), (k - 2 * (dy - 1), dy - 1), (k - 2 * (dy - 1) + 1, dy - 1). right; right; left. fin. }
  exists (k - 2 * (dy - 1) - (dx - 1)), (k - 2 * (dy - 1) - (dx - 1), 0), (k - 2 * (dy - 1) - (dx - 1) + 1, 0).
  right; right; right. fin.
Qed.

Lemma border_line k r a b : side_of k r a b -> line dx B k a b
  /\ forall j v, 0 <= j < 2 -> at_z B (2 * k + j) = Some v -> 0 <= v < dx * dy.
Proof.
  intro S. pose proof SP as (A1 & A2 & _).
  pose proof (border_at r 0 ltac:(lia)) as (F1 & F2 & F3 & F4).
  pose proof (border_at r 1 ltac:(lia)) as (G1 & G2 & G3 & G4).
  rewrite Z.add_0_r in *.
  assert (J : forall j, 0 <= j < 2 -> j = 0 \/ j = 1) by lia.
  assert (M : 0 <= (dy - 1) * dx) by nia. assert (N : (dy - 1) * dx = dx * dy - dx) by ring.
  destruct S as [(Hr & -> & -> & ->)|[(Hr & -> & -> & ->)|[(Hr & -> & -> & ->)|(Hr & -> & -> & ->)]]].
  - specialize (F1 Hr). specialize (G1 Hr). change (at_z (side_left g r) 0) with (Some (r * dx + 0)) in F1.
    change (at_z (side_left g r) 1) with (Some ((r + 1) * dx + 0)) in G1. split.
    + eexists _, _. split; [exact F1|]. split; [exact G1|].
      split; symmetry; [apply (point_at r 0)|apply (point_at (r + 1) 0)]; lia.
    + assert (0 <= r * dx) by nia. assert ((r + 1) * dx <= (dy - 1) * dx) by nia.
      intros j v Hj. destruct (J j Hj) as [-> | ->]; [rewrite Z.add_0_r, F1|rewrite G1]; intros [= <-]; lia.
  - specialize (F2 Hr). specialize (G2 Hr). change (at_z (side_right g r) 0) with (Some (r * dx + (dx - 1))) in F2.
    change (at_z (side_right g r) 1) with (Some ((r + 1) * dx + (dx - 1))) in G2. split.
    + eexists _, _. split; [exact F2|]. split; [exact G2|].
      split; symmetry; [apply (point_at r (dx - 1))|apply (point_at (r + 1) (dx - 1))]; lia.
    + assert (0 <= r * dx) by nia. assert ((r + 1) * dx <= (dy - 1) * dx) by nia.
      intros j v Hj. destruct (J j Hj) as [-> | ->]; [rewrite Z.add_0_r, F2|rewrite G2]; intros [= <-]; lia.
  - specialize (F3 Hr). specialize (G3 Hr). change (at_z (side_top g r) 0) with (Some ((dy - 1) * dx + r)) in F3.
    change (at_z (side_top g r) 1) with (Some ((dy - 1) * dx + r + 1)) in G3. split.
    + eexists _, _. split; [exact F3|]. split; [exact G3|].
      split; symmetry; [apply (point_at (dy - 1) r)|apply (point_at (dy - 1) (r + 1))]; lia.
    + intros j v Hj. destruct (J j Hj) as [-> | ->]; [rewrite Z.add_0_r, F3|rewrite G3]; intros [= <-]; lia.
  - specialize (F4 Hr). specialize (G4 Hr). change (at_z (side_bottom g r) 0) with (Some (0 * dx + r)) in F4.
    change (at_z (side_bottom g r) 1) with (Some (0 * dx + r + 1)) in G4. split.
    + eexists _, _. split; [exact F4|]. split; [exact G4|].
      split; symmetry; [apply (point_at 0 r)|apply (point_at 0 (r + 1))]; lia.
    + intros j v Hj. destruct (J j Hj) as [-> | ->]; [rewrite Z.add_0_r, F4|rewrite G4]; intros [= <-]; lia.
Qed.

Lemma line_fun k a b a' b' : line dx B k a b -> line dx B k a' b' -> a = a' /\ b = b'.
Proof.
  intros (i & j & E1 & E2 & -> & ->) (i' & j' & E1' & E2' & -> & ->). split; congruence.
Qed.

Lemma border_inv k a b : line dx B k a b -> exists r, side_of k r a b.
Proof.
  intro L. pose proof L as (i & j & E1 & E2 & _ & _).
  apply at_z_range in E1. apply at_z_range in E2. rewrite border_len in *.
  destruct (border_index k ltac:(lia)) as (r & a' & b' & S). exists r.
  destruct (border_line _ _ _ _ S) as (L' & _). destruct (line_fun _ _ _ _ _ L L') as (-> & ->). exact S.
Qed.

Lemma border_in_range : in_range dx dy B.
Proof.
  intros i v H. pose proof (at_z_range _ _ _ H) as R. rewrite border_len in R.
  pose proof (Z.div_mod i 2 ltac:(lia)) as D. pose proof (Z.mod_pos_bound i 2 ltac:(lia)) as M.
  destruct (border_index (i / 2) ltac:(lia)) as (r & a & b & S).
  destruct (border_line _ _ _ _ S) as (_ & Q). apply (Q (i mod 2)); [exact M|]. now rewrite <- D.
Qed.

(** Lines run along the outline, ... *)
Lemma border_sound k a b : line dx B k a b -> border_edge dx dy a b.
Proof.
  intro L. destruct (border_inv _ _ _ L) as (r & S). pose proof SP as (A1 & A2 & _).
  unfold border_edge, grid_edge, on_grid.
  destruct S as [(Hr & -> & -> & ->)|[(Hr & -> & -> & ->)|[(Hr & -> & -> & ->)|(Hr & -> & -> & ->)]]]; cbn [fst snd]; lia.
Qed.

(** ... cover it ... *)
Lemma border_cover a b : border_edge dx dy a b -> exists k, line dx B k a b \/ line dx B k b a.
Proof.
  intros ((A & C & D) & E). destruct a as [ax ay], b as [bx by_]. unfold on_grid in *. cbn [fst snd] in *.
  assert (W : forall k r a b, side_of k r a b -> exists k, line dx B k a b) by
    (intros k r a b S; exists k; apply (border_line _ _ _ _ S)).
  assert (X : exists k r, side_of k r (ax, ay) (bx, by_) \/ side_of k r (bx, by_) (ax, ay)).
  { assert (by_ = ay + 1 \/ ay = by_ + 1 \/ bx = ax + 1 \/ ax = bx + 1) as Q by lia.
    destruct Q as [-> |[-> |[-> | ->]]].
    - assert (bx = ax) as -> by lia. assert (ax = 0 \/ ax = dx - 1) as [-> | ->] by lia.
      + exists ay, ay. left. left. fin.
      + exists (dy - 1 + ay), ay. left. right; left. fin.
    - assert (bx = ax) as -> by lia. assert (ax = 0 \/ ax = dx - 1) as [-> | ->] by lia.
      + exists by_, by_. right. left. fin.
      + exists (dy - 1 + by_), by_. right. right; left. fin.
    - assert (by_ = ay) as -> by lia. assert (ay = 0 \/ ay = dy - 1) as [-> | ->] by lia.
      + exists (2 * (dy - 1) + (dx - 1) + ax), ax. left. right; right; right. fin.
      + exists (2 * (dy - 1) + ax), ax. left. right; right; left. fin.
    - assert (by_ = ay) as -> by lia. assert (ay = 0 \/ ay = dy - 1) as [-> | ->] by lia.
      + exists (2 * (dy - 1) + (dx - 1) + bx), bx. right. right; right; right. fin.
      + exists (2 * (dy - 1) + bx), bx. right. right; right; left. fin. }
  destruct X as (k & r & [S|S]); destruct (W _ _ _ _ S) as (k' & K'); exists k'; auto.
Qed.

(** ... and never repeat. *)
Lemma border_once k k' a b : 2 <= dx -> 2 <= dy ->
  line dx B k a b -> line dx B k' a b \/ line dx B k' b a -> k = k'.
Proof.
  intros Dx Dy L L'. destruct (border_inv _ _ _ L) as (r & S).
  assert (S' : exists r', side_of k' r' a b \/ side_of k' r' b a).
  { destruct L' as [L'|L']; destruct (border_inv _ _ _ L') as (r' & S'); exists r'; auto. }
  destruct S' as (r' & S').
  destruct S as [(Hr & -> & -> & ->)|[(Hr & -> & -> & ->)|[(Hr & -> & -> & ->)|(Hr & -> & -> & ->)]]];
  destruct S' as [S'|S'];
  destruct S' as [(Hr' & -> & E1 & E2)|[(Hr' & -> & E1 & E2)|[(Hr' & -> & E1 & E2)|(Hr' & -> & E1 & E2)]]];
  pose proof (f_equal fst E1); pose proof (f_equal snd E1); pose proof (f_equal fst E2); pose proof (f_equal snd E2);
  cbn [fst snd] in *; lia.
Qed.
End Draw.

(** ** Buffer sizes *)
Section Sizes.
Variable p : profile.
Variable g : plane.
Local Notation dx := (divisions_x g).
Local Notation dy := (divisions_y g).
Hypothesis SP : index_space dx dy.

Lemma size_tris : buffer_size_tris p g = Ok ((dy - 1) * ((dx - 1) * 6)).
Proof.
  destruct SP as (A & B & C & D). unfold two31, two32 in *. unfold buffer_size_tris, mul_u64.
  rewrite (u32_ok p (dx - 1)) by (unfold two32; lia). rewrite (u32_ok p (dy - 1)) by (unfold two32; lia). cbn [bind].
  assert (0 <= (dx - 1) * (dy - 1) < 2 ^ 32) by nia.
  rewrite u32_ok by (unfold two32; lia). cbn [bind]. rewrite u64_ok by (unfold two64; lia). f_equal. ring.
Qed.

Lemma size_wire : buffer_size_wire p g = Ok ((dy - 1) * ((dx - 1) * 8)).
Proof.
  destruct SP as (A & B & C & D). unfold two31, two32 in *. unfold buffer_size_wire, mul_u64.
  rewrite (u32_ok p (dx - 1)) by (unfold two32; lia). rewrite (u32_ok p (dy - 1)) by (unfold two32; lia). cbn [bind].
  assert (0 <= (dx - 1) * (dy - 1) < 2 ^ 32) by nia.
  rewrite u32_ok by (unfold two32; lia). cbn [bind]. rewrite u64_ok by (unfold two64; lia). f_equal. ring.
Qed.

Lemma size_border : buffer_size_border p g = Ok (4 * (dx - 1) + 4 * (dy - 1)).
Proof.
  destruct SP as (A & B & C & D). unfold two31, two32 in *. unfold buffer_size_border, mul_u64.
  rewrite (u32_ok p (dx - 1)) by (unfold two32; lia). rewrite (u32_ok p (dy - 1)) by (unfold two32; lia). cbn [bind].
  rewrite u32_ok by (unfold two32; lia). cbn [bind]. rewrite u32_ok by (unfold two32; lia). cbn [bind].
  rewrite u32_ok by (unfold two32; lia). cbn [bind]. rewrite u64_ok by (unfold two64; lia). f_equal. ring.
Qed.

Theorem triangles_spec b : buffer_size_tris p g = Ok (zlen b) ->
  exists out, fill_tris p g b = Ok out /\ zlen out = zlen b /\ in_range dx dy out
    /\ zlen out = 3 * (2 * ((dx - 1) * (dy - 1)))
    /\ (forall k u v w, triangle dx out k u v w -> area2 u v w = -1)
    /\ (2 <= dx -> 2 <= dy -> forall n x y, 0 < n -> 0 <= x <= n * (dx - 1) -> 0 <= y <= n * (dy - 1) ->
         exists k u v w, triangle dx out k u v w /\ inside Z.le n (x, y) u v w)
    /\ (forall n q k u v w k' u' v' w', 0 < n -> triangle dx out k u v w -> triangle dx out k' u' v' w' ->
         inside Z.lt n q u v w -> inside Z.lt n q u' v' w' -> k = k').
Proof.
  rewrite size_tris. intros [= L]. symmetry in L. exists (faces g (tri_block g)).
  split; [apply fill_tris_ok; assumption|].
  assert (FL : zlen (faces g (tri_block g)) = (dy - 1) * ((dx - 1) * 6)) by (apply faces_len; [assumption|reflexivity]).
  split; [lia|]. split; [now apply tris_in_range|]. split; [rewrite FL; ring|].
  split; [intros k u v w; now apply tri_area|].
  split; [intros; now apply tri_cover|]. intros n q k u v w k' u' v' w'. now apply tri_disjoint.
Qed.

Theorem wire_spec b : buffer_size_wire p g = Ok (zlen b) ->
  exists out, fill_wire p g b = Ok out /\ zlen out = zlen b /\ in_range dx dy out
    /\ (forall k u v, line dx out k u v -> grid_edge dx dy u v)
    /\ (2 <= dx -> 2 <= dy -> forall u v, grid_edge dx dy u v -> exists k, line dx out k u v \/ line dx out k v u).
Proof.
  rewrite size_wire. intros [= L]. symmetry in L. exists (faces g (wire_block g)).
  split; [apply fill_wire_ok; assumption|].
  assert (FL : zlen (faces g (wire_block g)) = (dy - 1) * ((dx - 1) * 8)) by (apply faces_len; [assumption|reflexivity]).
  split; [lia|]. split; [now apply wire_in_range|]. split; [intros k u v; now apply wire_inv|].
  intros; now apply wire_cover.
Qed.

Theorem border_spec b : buffer_size_border p g = Ok (zlen b) ->
  exists out, fill_border p g b = Ok out /\ zlen out = zlen b /\ in_range dx dy out
    /\ (forall k u v, line dx out k u v -> border_edge dx dy u v)
    /\ (forall u v, border_edge dx dy u v -> exists k, line dx out k u v \/ line dx out k v u)
    /\ (2 <= dx -> 2 <= dy -> forall k k' u v, line dx out k u v -> line dx out k' u v \/ line dx out k' v u -> k = k').
Proof.
  rewrite size_border. intro H. assert (L : zlen b = 4 * (dx - 1) + 4 * (dy - 1)) by congruence. exists (border g).
  split; [apply fill_border_ok; assumption|].
  pose proof (border_len g SP) as FL.
  split; [lia|]. split; [now apply border_in_range|]. split; [intros k u v; now apply border_sound|].
  split; [intros u v; now apply border_cover|]. intros D1 D2 k k' u v. now apply border_once.
Qed.
End Sizes.

(** Proofs about pixel boxes. *)
From Coq Require Import Sorting.Sorted.
From Verif Require Import Machine Loops BBoxModel BBoxSpec.

Ltac bb := unfold in_box, well_formed, width, height in *; cbn [min_x min_y max_x max_y] in *.

Lemma in_boxb_spec : forall b x y, in_boxb b x y = true <-> in_box b x y.
Proof. intros. unfold in_boxb, in_box. lia. Qed.

Lemma intersection_spec : forall a b x y,
  in_box (intersection a b) x y <-> in_box a x y /\ in_box b x y.
Proof.
  intros [ax ay bx by_] [cx cy dx dy] x y. unfold intersection. bb.
  destruct ((ax >? dx) || (cx >? bx) || (ay >? dy) || (cy >? by_)) eqn:E; bb; lia.
Qed.

Lemma intersection_wf : forall a b, well_formed (intersection a b).
Proof.
  intros [ax ay bx by_] [cx cy dx dy]. unfold intersection. bb.
  destruct ((ax >? dx) || (cx >? bx) || (ay >? dy) || (cy >? by_)) eqn:E; bb; lia.
Qed.

Lemma combine_contains : forall a b x y,
  in_box a x y \/ in_box b x y -> in_box (combine a b) x y.
Proof. intros [ax ay bx by_] [cx cy dx dy] x y. unfold combine. bb. lia. Qed.

Lemma combine_least : forall a b c,
  non_empty a -> non_empty b ->
  (forall x y, in_box a x y \/ in_box b x y -> in_box c x y) ->
  forall x y, in_box (combine a b) x y -> in_box c x y.
Proof.
  intros [ax ay bx by_] [cx cy dx dy] [ex ey fx fy] (x1 & y1 & H1) (x2 & y2 & H2) HC x y.
  unfold combine. bb. intros H.
  pose proof (HC ax ay ltac:(lia)). pose proof (HC cx cy ltac:(lia)).
  pose proof (HC (bx - 1) (by_ - 1) ltac:(lia)). pose proof (HC (dx - 1) (dy - 1) ltac:(lia)).
  lia.
Qed.

(** Draining a counting iterator. *)
Lemma drain_count : forall (next : Z -> option (Z * Z)) hi,
  (forall s, next s = if s >=? hi then None else Some (s, s + 1)) ->
  forall fuel lo, (Z.to_nat (hi - lo) < fuel)%nat ->
  drain next fuel lo = (zrange lo hi, true).
Proof.
  intros next hi Hn fuel. induction fuel as [|f IH]; intros lo Hf; [lia|].
  cbn [drain]. rewrite Hn. destruct (Z.geb_spec lo hi).
  - unfold zrange. replace (Z.to_nat (hi - lo)) with O by lia. reflexivity.
  - rewrite IH by lia. f_equal. unfold zrange.
    replace (Z.to_nat (hi - lo)) with (S (Z.to_nat (hi - (lo + 1)))) by lia. reflexivity.
Qed.

Lemma rows_drain : forall b fuel,
  well_formed b -> height b < two64 -> (Z.to_nat (height b) < fuel)%nat ->
  drain (rows_next b) fuel 0 = (zrange 0 (height b), true).
Proof.
  intros b fuel Hw Hh Hf. apply drain_count; [|lia].
  intros s. unfold rows_next, i32_as_usize. rewrite Z.mod_small; [reflexivity|]. bb. lia.
Qed.

Lemma row_drain : forall b fuel,
  (Z.to_nat (width b) < fuel)%nat ->
  drain (row_next b) fuel (row_iter_new b) = (zrange (min_x b) (max_x b), true).
Proof. intros b fuel Hf. apply drain_count; [reflexivity|exact Hf]. Qed.

Lemma zrange_sorted : forall lo hi, StronglySorted Z.lt (zrange lo hi).
Proof.
  intros lo hi. unfold zrange. generalize (Z.to_nat (hi - lo)) as n. intros n. revert lo.
  induction n as [|n IH]; intros lo; cbn [zseq]; constructor; [apply IH|].
  apply Forall_forall. intros x Hx. apply zseq_in in Hx. lia.
Qed.

Lemma visit_box_eq : forall b rf cf,
  well_formed b -> height b < two64 ->
  (Z.to_nat (height b) < rf)%nat -> (Z.to_nat (width b) < cf)%nat ->
  visit_box b rf cf =
  flat_map (fun r => map (fun x => (x, min_y b + r)) (zrange (min_x b) (max_x b)))
           (zrange 0 (height b)).
Proof.
  intros. unfold visit_box. rewrite rows_drain by assumption. rewrite row_drain by assumption.
  reflexivity.
Qed.

Lemma visit_box_in : forall b rf cf x y,
  well_formed b -> height b < two64 ->
  (Z.to_nat (height b) < rf)%nat -> (Z.to_nat (width b) < cf)%nat ->
  In (x, y) (visit_box b rf cf) <-> in_box b x y.
Proof.
  intros b rf cf x y Hw Hh Hr Hc. rewrite visit_box_eq by assumption.
  rewrite in_flat_map. split.
  - intros (r & Hr' & Hx). apply in_map_iff in Hx. destruct Hx as (x' & E & Hx').
    injection E as -> <-. apply zrange_in in Hr'. apply zrange_in in Hx'. bb. lia.
  - intros H. exists (y - min_y b). rewrite zrange_in. split; [bb; lia|].
    apply in_map_iff. exists x. split; [f_equal; lia|]. apply zrange_in. bb. lia.
Qed.

Lemma raster_sorted_flat : forall lo hi ymin rs,
  StronglySorted Z.lt rs ->
  StronglySorted raster_lt (flat_map (fun r => map (fun x => (x, ymin + r)) (zrange lo hi)) rs).
Proof.
  intros lo hi ymin rs Hs. induction Hs as [|r rs Hs IH Hall]; cbn [flat_map]; [constructor|].
  assert (G : forall xs, StronglySorted Z.lt xs ->
    StronglySorted raster_lt (map (fun x => (x, ymin + r)) xs ++
      flat_map (fun r => map (fun x => (x, ymin + r)) (zrange lo hi)) rs)).
  { intros xs Hx. induction Hx as [|x xs Hx IHx Hxs]; cbn [map app]; [exact IH|].
    constructor; [exact IHx|]. apply Forall_app. split.
    - apply Forall_forall. intros q Hq. apply in_map_iff in Hq. destruct Hq as (x' & <- & Hx').
      rewrite Forall_forall in Hxs. right. cbn [fst snd]. split; [reflexivity|]. auto.
    - apply Forall_forall. intros q Hq. apply in_flat_map in Hq. destruct Hq as (r' & Hr' & Hq).
      apply in_map_iff in Hq. destruct Hq as (x' & <- & _). rewrite Forall_forall in Hall.
      left. cbn [snd]. specialize (Hall r' Hr'). lia. }
  apply G. apply zrange_sorted.
Qed.

Lemma visit_box_sorted : forall b rf cf,
  well_formed b -> height b < two64 ->
  (Z.to_nat (height b) < rf)%nat -> (Z.to_nat (width b) < cf)%nat ->
  StronglySorted raster_lt (visit_box b rf cf).
Proof.
  intros. rewrite visit_box_eq by assumption. apply raster_sorted_flat. apply zrange_sorted.
Qed.

Lemma sorted_nodup : forall l, StronglySorted raster_lt l -> NoDup l.
Proof.
  intros l H. induction H as [|p l H IH Hall]; constructor; [|exact IH].
  intros Hin. rewrite Forall_forall in Hall. specialize (Hall p Hin). unfold raster_lt in Hall. lia.
Qed.

Lemma flat_map_length : forall {A B} (f : A -> list B) n l,
  (forall a, In a l -> length (f a) = n) -> length (flat_map f l) = (length l * n)%nat.
Proof.
  intros A B f n l. induction l as [|a l IH]; intros H; cbn [flat_map length]; [reflexivity|].
  rewrite app_length, IH by (intros; apply H; right; assumption).
  rewrite H by (left; reflexivity). lia.
Qed.

Lemma visit_box_length : forall b rf cf,
  well_formed b -> height b < two64 ->
  (Z.to_nat (height b) < rf)%nat -> (Z.to_nat (width b) < cf)%nat ->
  zlen (visit_box b rf cf) = width b * height b.
Proof.
  intros b rf cf Hw Hh Hr Hc. rewrite visit_box_eq by assumption. unfold zlen.
  rewrite (flat_map_length _ (Z.to_nat (width b))).
  - unfold zrange. rewrite zseq_length. bb. rewrite Nat2Z.inj_mul. nia.
  - intros r _. rewrite map_length. unfold zrange. rewrite zseq_length. reflexivity.
Qed.

Lemma area_exact : forall b,
  well_formed b -> width b * height b < two32 -> area b = width b * height b.
Proof. intros b Hw Hlt. unfold area. apply Z.mod_small. bb. nia. Qed.

(** Inverted box: the rows iterator does not stop within any number of steps
    below 2^64 - |height|. *)
Lemma rows_inverted : forall b fuel s,
  height b < 0 -> - two31 <= height b -> 0 <= s -> s + Z.of_nat fuel <= two64 - two31 ->
  snd (drain (rows_next b) fuel s) = false /\ length (fst (drain (rows_next b) fuel s)) = fuel.
Proof.
  intros b fuel. induction fuel as [|f IH]; intros s Hn Hb Hs Hf; [auto|].
  cbn [drain]. unfold rows_next at 1 3. unfold i32_as_usize.
  assert (E : height b mod two64 = height b + two64).
  { symmetry. apply Z.mod_unique with (-1); unfold two64, two31 in *; lia. }
  rewrite E. replace (s >=? height b + two64) with false by (unfold two64, two31 in *; lia).
  specialize (IH (s + 1) Hn Hb ltac:(lia) ltac:(lia)).
  destruct (drain (rows_next b) f (s + 1)) as [l fin] eqn:D.
  cbn [fst snd length] in *. destruct IH. auto.
Qed.

(** The middle of a box. *)
Lemma center_middle : forall b, let (x, y) := center b in
  Z.abs (2 * x - (min_x b + max_x b)) <= 1 /\ Z.abs (2 * y - (min_y b + max_y b)) <= 1 /\
  (non_empty b -> 0 <= min_x b -> 0 <= min_y b -> in_box b x y).
Proof.
  intros b. unfold center. pose proof (Z.quot_rem' (min_x b + max_x b) 2) as Qx. pose proof (Z.quot_rem' (min_y b + max_y b) 2) as Qy.
  pose proof (Z.rem_bound_abs (min_x b + max_x b) 2 ltac:(lia)) as Rx. pose proof (Z.rem_bound_abs (min_y b + max_y b) 2 ltac:(lia)) as Ry.
  split; [lia|]. split; [lia|]. intros (x & y & H) X Y. unfold in_box in *.
  pose proof (Z.rem_nonneg (min_x b + max_x b) 2 ltac:(lia) ltac:(lia)). pose proof (Z.rem_nonneg (min_y b + max_y b) 2 ltac:(lia) ltac:(lia)). lia.
Qed.

(** C09, C10: pixel boxes. *)
From Coq Require Import Sorting.Sorted.
From Verif Require Import Machine Loops BBoxModel BBoxSpec BBoxProofs.

(** C09: intersection is exact on pixels, for all boxes. *)
Theorem C09_intersection_exact : forall a b x y,
  in_box (intersection a b) x y <-> in_box a x y /\ in_box b x y.
Proof. exact intersection_spec. Qed.
Print Assumptions C09_intersection_exact.

Theorem C09_intersection_well_formed : forall a b, well_formed (intersection a b).
Proof. exact intersection_wf. Qed.
Print Assumptions C09_intersection_well_formed.

(** C09: combine contains both boxes ... *)
Theorem C09_combine_contains : forall a b x y,
  in_box a x y \/ in_box b x y -> in_box (combine a b) x y.
Proof. exact combine_contains. Qed.
Print Assumptions C09_combine_contains.

(** ... and is the least such box. *)
Theorem C09_combine_least : forall a b c,
  non_empty a -> non_empty b ->
  (forall x y, in_box a x y \/ in_box b x y -> in_box c x y) ->
  forall x y, in_box (combine a b) x y -> in_box c x y.
Proof. exact combine_least. Qed.
Print Assumptions C09_combine_least.

Example C09_hypotheses_met :
  non_empty (BBox 0 0 2 2) /\ non_empty (BBox 5 (-3) 7 1) /\
  in_box (combine (BBox 0 0 2 2) (BBox 5 (-3) 7 1)) 3 (-1) /\
  intersection (BBox 0 0 6 2) (BBox 5 (-3) 7 1) = BBox 5 0 6 1.
Proof.
  split; [exists 0, 0|split; [exists 5, (-3)|split; [|reflexivity]]]; unfold in_box; cbn; lia.
Qed.

(** Without non-emptiness the union grows: an empty box still stretches it. *)
Theorem C09_combine_empty_refuted :
  exists a b c, (forall x y, in_box a x y \/ in_box b x y -> in_box c x y) /\
    exists x y, in_box (combine a b) x y /\ ~ in_box c x y.
Proof.
  exists (BBox 0 0 2 2), (BBox 9 9 9 9), (BBox 0 0 2 2). split.
  - intros x y. unfold in_box. cbn. lia.
  - exists 5, 5. unfold in_box. cbn. lia.
Qed.
Print Assumptions C09_combine_empty_refuted.

(** The centre of a box is its middle, rounded, and lies in it if the box has
    pixels and no negative coordinates. *)
Theorem C09_centre : forall b, let (x, y) := center b in
  Z.abs (2 * x - (min_x b + max_x b)) <= 1 /\ Z.abs (2 * y - (min_y b + max_y b)) <= 1 /\
  (non_empty b -> 0 <= min_x b -> 0 <= min_y b -> in_box b x y).
Proof. exact center_middle. Qed.
Print Assumptions C09_centre.
Example C09_centre_met : non_empty (BBox 2 1 5 4) /\ center (BBox 2 1 5 4) = (3, 2).
Proof. split; [exists 2, 1; unfold in_box; cbn; lia|reflexivity]. Qed.
(** The one pixel of a box left of the origin is not its centre. *)
Theorem C09_centre_refuted : exists b, non_empty b /\ let (x, y) := center b in ~ in_box b x y.
Proof. exists (BBox (-3) 0 (-2) 1). split; [exists (-3), 0; unfold in_box; cbn; lia|]. cbn. unfold in_box. cbn. lia. Qed.
Print Assumptions C09_centre_refuted.

(** C10: row-by-row iteration enumerates exactly the pixels of the box, in
    raster order, each once, [width * height] of them; both iterators stop. *)
Theorem C10_iteration_exact : forall b rf cf x y,
  well_formed b -> height b < two64 ->
  (Z.to_nat (height b) < rf)%nat -> (Z.to_nat (width b) < cf)%nat ->
  In (x, y) (visit_box b rf cf) <-> in_box b x y.
Proof. exact visit_box_in. Qed.
Print Assumptions C10_iteration_exact.

Theorem C10_iteration_raster_order : forall b rf cf,
  well_formed b -> height b < two64 ->
  (Z.to_nat (height b) < rf)%nat -> (Z.to_nat (width b) < cf)%nat ->
  StronglySorted raster_lt (visit_box b rf cf).
Proof. exact visit_box_sorted. Qed.
Print Assumptions C10_iteration_raster_order.

Theorem C10_iteration_no_duplicates : forall l, StronglySorted raster_lt l -> NoDup l.
Proof. exact sorted_nodup. Qed.
Print Assumptions C10_iteration_no_duplicates.

Theorem C10_iteration_count : forall b rf cf,
  well_formed b -> height b < two64 ->
  (Z.to_nat (height b) < rf)%nat -> (Z.to_nat (width b) < cf)%nat ->
  zlen (visit_box b rf cf) = width b * height b.
Proof. exact visit_box_length. Qed.
Print Assumptions C10_iteration_count.

Theorem C10_area : forall b,
  well_formed b -> width b * height b < two32 -> area b = width b * height b.
Proof. exact area_exact. Qed.
Print Assumptions C10_area.

Theorem C10_iterators_stop : forall b rf cf,
  well_formed b -> height b < two64 ->
  (Z.to_nat (height b) < rf)%nat -> (Z.to_nat (width b) < cf)%nat ->
  snd (drain (rows_next b) rf 0) = true /\ snd (drain (row_next b) cf (row_iter_new b)) = true.
Proof.
  intros b rf cf Hw Hh Hr Hc.
  exact (conj (f_equal snd (rows_drain b rf Hw Hh Hr)) (f_equal snd (row_drain b cf Hc))).
Qed.
Print Assumptions C10_iterators_stop.

Example C10_hypotheses_met :
  let b := BBox (-1) 4 2 6 in
  well_formed b /\ height b < two64 /\
  visit_box b 3 4 = [(-1,4);(0,4);(1,4);(-1,5);(0,5);(1,5)] /\ area b = 6.
Proof. cbv; repeat split; intros; try discriminate; reflexivity. Qed.

(** Finding: for an inverted box the row iterator does not stop (it yields
    close to 2^64 rows), so well-formedness is a real obligation of callers. *)
Theorem C10_inverted_rows_run_away : forall b fuel s,
  height b < 0 -> - two31 <= height b -> 0 <= s -> s + Z.of_nat fuel <= two64 - two31 ->
  snd (drain (rows_next b) fuel s) = false /\ length (fst (drain (rows_next b) fuel s)) = fuel.
Proof. exact rows_inverted. Qed.
Print Assumptions C10_inverted_rows_run_away.

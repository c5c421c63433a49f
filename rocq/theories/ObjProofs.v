(** Proofs about exported meshes. *)
From Coq Require Import Lia.
From Verif Require Import Machine Loops FloatModel PathModel PathSpec PathProofs GeomModel GeomSpec GeomProofs GeomProofs2 ObjModel ObjSpec.

(** Splitting. *)
Lemma split_none sep l : ~ In sep l -> split sep l = [l].
Proof.
  induction l as [|c l IH]; intros H; [reflexivity|]. cbn [split].
  destruct (Z.eqb_spec c sep) as [->|]; [destruct H; now left|]. rewrite IH by (intros X; apply H; now right). reflexivity.
Qed.
Lemma split_first sep l r : ~ In sep l -> split sep (l ++ sep :: r) = l :: split sep r.
Proof.
  induction l as [|c l IH]; intros H; cbn [app split]; [now rewrite Z.eqb_refl|].
  destruct (Z.eqb_spec c sep) as [->|]; [destruct H; now left|]. rewrite IH by (intros X; apply H; now right). reflexivity.
Qed.
Definition lines (ls : list (list Z)) : list Z := concat (map (fun l => l ++ [10]) ls).
Lemma split_lines ls : (forall l, In l ls -> ~ In 10 l) -> split 10 (lines ls) = ls ++ [[]].
Proof.
  induction ls as [|l ls IH]; intros H; [reflexivity|]. unfold lines in *. cbn [map concat app]. rewrite <- app_assoc. cbn [app].
  rewrite split_first by (apply H; now left). f_equal. apply IH. intros x Hx. apply H. now right.
Qed.
Lemma lines_app a b : lines (a ++ b) = lines a ++ lines b.
Proof. unfold lines. now rewrite map_app, concat_app. Qed.

(** Loops that append. *)
Lemma loop_app f g n : forall lo s, (forall i s, lo <= i < lo + Z.of_nat n -> f i s = Ok (s ++ g i ++ [10])) ->
  for_loop n lo f s = Ok (s ++ lines (map g (zseq lo n))).
Proof.
  induction n as [|n IH]; intros lo s H; cbn [for_loop zseq]; [cbn; now rewrite app_nil_r|].
  rewrite H by lia. cbn [bind map]. unfold lines in *. cbn [map concat]. rewrite IH by (intros; apply H; lia).
  now rewrite <- app_assoc.
Qed.
Definition nthz {A} (d : A) (l : list A) (i : Z) : A := nth (Z.to_nat i) l d.
Lemma idx_nth {A} (d : A) l i : 0 <= i < zlen l -> idx l i = Ok (nthz d l i).
Proof.
  intros H. apply idx_ok. unfold at_z, nthz, zlen in *. destruct (Z.leb_spec 0 i); [|lia]. apply nth_error_nth'. lia.
Qed.

(** Groups. *)
Lemma firstn_step {A} (d : A) l : forall n, (n < length l)%nat -> firstn (S n) l = firstn n l ++ [nth n l d].
Proof.
  induction l as [|a l IH]; intros n H; cbn [length] in H; [lia|]. destruct n as [|n]; [reflexivity|].
  change (firstn (S (S n)) (a :: l)) with (a :: firstn (S n) l). rewrite IH by lia. reflexivity.
Qed.
Lemma zseq_seq n : forall k, zseq (Z.of_nat k) n = map Z.of_nat (seq k n).
Proof.
  induction n as [|n IH]; intros k; cbn [zseq seq map]; [reflexivity|]. f_equal. rewrite <- IH. f_equal. lia.
Qed.
Lemma chunks_3 {A} (d : A) l n : (3 * n <= length l)%nat ->
  concat (map (fun i => [nthz d l (i * 3); nthz d l (i * 3 + 1); nthz d l (i * 3 + 2)]) (zseq 0 n)) = firstn (3 * n) l.
Proof.
  change 0 with (Z.of_nat 0). rewrite zseq_seq, map_map. induction n as [|n IH]; intros H; [reflexivity|].
  rewrite seq_S, map_app, concat_app, IH by lia. cbn [map concat app].
  replace (3 * S n)%nat with (S (S (S (3 * n)))) by lia. rewrite !(firstn_step d) by lia. rewrite <- !app_assoc. f_equal. cbn [app].
  unfold nthz. repeat f_equal; lia.
Qed.
Lemma chunks_2 {A} (d : A) l n : (2 * n <= length l)%nat ->
  concat (map (fun i => [nthz d l (i * 2); nthz d l (i * 2 + 1)]) (zseq 0 n)) = firstn (2 * n) l.
Proof.
  change 0 with (Z.of_nat 0). rewrite zseq_seq, map_map. induction n as [|n IH]; intros H; [reflexivity|].
  rewrite seq_S, map_app, concat_app, IH by lia. cbn [map concat app].
  replace (2 * S n)%nat with (S (S (2 * n))) by lia. rewrite !(firstn_step d) by lia. rewrite <- !app_assoc. f_equal. cbn [app].
  unfold nthz. repeat f_equal; lia.
Qed.
Lemma zdiv_3 {A} (l : list A) : Z.to_nat (zlen l / 3 - 0) = (length l / 3)%nat.
Proof. unfold zlen. change 3 with (Z.of_nat 3). rewrite Z.sub_0_r, <- Nat2Z.inj_div. apply Nat2Z.id. Qed.
Lemma zdiv_2 {A} (l : list A) : Z.to_nat (zlen l / 2 - 0) = (length l / 2)%nat.
Proof. unfold zlen. change 2 with (Z.of_nat 2). rewrite Z.sub_0_r, <- Nat2Z.inj_div. apply Nat2Z.id. Qed.

Section Obj.
Variable p : profile.
Variable show : f32 -> list Z.
Variable parse : list Z -> option f32.
Variables (positions uvs : list f32) (indices : list Z).
Hypothesis PR : forall f, In f positions \/ In f uvs -> prints show parse f.
Hypothesis IX : forall i, In i indices -> 0 <= i < two32 - 1.

Definition vline (i : Z) : list Z :=
  [118; 32] ++ show (nthz f32_zero positions (i * 3)) ++ sp ++ show (nthz f32_zero positions (i * 3 + 1)) ++ sp ++
  show (nthz f32_zero positions (i * 3 + 2)).
Definition tline (i : Z) : list Z :=
  [118; 116; 32] ++ show (nthz f32_zero uvs (i * 2)) ++ sp ++ show (nthz f32_zero uvs (i * 2 + 1)).
Definition fline (i : Z) : list Z :=
  [102; 32] ++ obj_corner (1 + nthz 0 indices (i * 3)) ++ sp ++ obj_corner (1 + nthz 0 indices (i * 3 + 1)) ++ sp ++
  obj_corner (1 + nthz 0 indices (i * 3 + 2)).
Definition nv := (length positions / 3)%nat.
Definition nt := (length uvs / 2)%nat.
Definition nf := (length indices / 3)%nat.
Definition all_lines : list (list Z) :=
  [obj_header; []] ++ map vline (zseq 0 nv) ++ map tline (zseq 0 nt) ++ map fline (zseq 0 nf).

Lemma nth_in {A} (d : A) l i : 0 <= i < zlen l -> In (nthz d l i) l.
Proof. intros H. unfold nthz, zlen in *. apply nth_In. lia. Qed.
Lemma u32_small z : 0 <= z < two32 - 1 -> u32_of p (1 + z) = Ok (1 + z).
Proof.
  intros H. unfold u32_of, in_u32. destruct (Z.leb_spec 0 (1 + z)); [|lia]. destruct (Z.ltb_spec (1 + z) two32); [|lia].
  cbn [andb]. destruct p; try reflexivity; f_equal; apply Z.mod_small; lia.
Qed.

Lemma text_lines : obj_text p show positions uvs indices = Ok (lines all_lines).
Proof.
  unfold obj_text, obj_vertices, for_range. rewrite zdiv_3.
  assert (V : (3 * nv <= length positions)%nat) by (unfold nv; pose proof (Nat.div_mod (length positions) 3 ltac:(lia)); lia).
  assert (T : (2 * nt <= length uvs)%nat) by (unfold nt; pose proof (Nat.div_mod (length uvs) 2 ltac:(lia)); lia).
  assert (F : (3 * nf <= length indices)%nat) by (unfold nf; pose proof (Nat.div_mod (length indices) 3 ltac:(lia)); lia).
  fold nv. rewrite (loop_app _ vline).
  2: { intros i s R. rewrite !(idx_nth f32_zero) by (unfold zlen; lia). cbn [bind]. unfold vline, nl. now rewrite <- !app_assoc. }
  cbn [bind]. unfold obj_uvs, for_range. rewrite zdiv_2. fold nt.
  rewrite (loop_app _ tline).
  2: { intros i s R. rewrite !(idx_nth f32_zero) by (unfold zlen; lia). cbn [bind]. unfold tline, nl. now rewrite <- !app_assoc. }
  cbn [bind]. unfold obj_faces, for_range. rewrite zdiv_3. fold nf.
  match goal with |- context [for_loop nf 0 ?f0 (?d, 0)] => set (f := f0); set (data := d) end.
  assert (L : forall k n data, (n + k <= nf)%nat ->
    for_loop n (Z.of_nat k) f (data, Z.of_nat k * 3) = Ok (data ++ lines (map fline (zseq (Z.of_nat k) n)), Z.of_nat (k + n) * 3)).
  { intros k n. revert k. induction n as [|n IH]; intros k d0 R; cbn [for_loop zseq].
    - unfold lines. cbn. rewrite app_nil_r, Nat.add_0_r. reflexivity.
    - unfold f at 1. rewrite !(idx_nth 0) by (unfold zlen; lia). cbn [bind].
      rewrite !u32_small by (apply IX, nth_in; unfold zlen; lia). cbn [bind].
      replace (Z.of_nat k + 1) with (Z.of_nat (S k)) by lia. replace (Z.of_nat k * 3 + 3) with (Z.of_nat (S k) * 3) by lia.
      rewrite IH by lia. unfold lines. cbn [map concat]. unfold fline at 2, nl. rewrite <- !app_assoc. do 2 f_equal. f_equal. lia. }
  pose proof (L 0%nat nf data ltac:(lia)) as L0. change (Z.of_nat 0 * 3) with 0 in L0. change (Z.of_nat 0) with 0 in L0. rewrite L0. cbn [bind fst]. f_equal. subst data. unfold all_lines. rewrite !lines_app.
  unfold nl. rewrite <- !app_assoc. reflexivity.
Qed.

Lemma digits_ok n : 0 <= n < 10 ^ 40 -> (forall c, In c (digits n) -> is_digit c = true) /\ read_digits 0 (digits n) = Some n.
Proof. intros H. destruct (digits_read n H) as (d & E & X & Y & _). rewrite E. split; [exact Y|]. rewrite X by lia. reflexivity. Qed.
Lemma digits_clean n c : 0 <= n < 10 ^ 40 -> is_digit c = false -> ~ In c (digits n).
Proof. intros H E I. apply digits_ok in H. destruct H as (D & _). rewrite (D c I) in E. discriminate. Qed.
Lemma corner_ok i : 0 <= i < two32 - 1 -> read_corner (obj_corner (1 + i)) = Some i /\ ~ In 10 (obj_corner (1 + i)) /\ ~ In 32 (obj_corner (1 + i)).
Proof.
  intros H. assert (R : 0 <= 1 + i < 10 ^ 40) by (unfold two32 in H; lia). unfold obj_corner. split.
  - unfold read_corner. cbn [app]. rewrite split_first by (now apply digits_clean). rewrite split_none by (now apply digits_clean).
    destruct (digits_ok _ R) as (_ & ->). rewrite Z.eqb_refl. destruct (Z.leb_spec 1 (1 + i)); [|lia]. cbn [andb]. f_equal. lia.
  - assert (C : forall c, is_digit c = false -> c <> 47 -> ~ In c (digits (1 + i) ++ [47] ++ digits (1 + i))).
    { intros c D N I. apply in_app_or in I. destruct I as [I|[I|I]]; [now apply digits_clean in I|congruence|now apply digits_clean in I]. }
    split; apply C; (reflexivity || lia).
Qed.

Lemma split3 w a b c : ~ In 32 w -> ~ In 32 a -> ~ In 32 b -> ~ In 32 c ->
  split 32 (w ++ [32] ++ a ++ sp ++ b ++ sp ++ c) = [w; a; b; c].
Proof. intros W A B C. unfold sp. cbn [app]. rewrite (split_first 32 w), (split_first 32 a), (split_first 32 b), split_none by assumption. reflexivity. Qed.
Lemma split2 w a b : ~ In 32 w -> ~ In 32 a -> ~ In 32 b -> split 32 (w ++ [32] ++ a ++ sp ++ b) = [w; a; b].
Proof. intros W A B. unfold sp. cbn [app]. rewrite (split_first 32 w), (split_first 32 a), split_none by assumption. reflexivity. Qed.

Lemma read_text : read_obj parse (lines all_lines) = Some (Mesh (groups 3 positions) (groups 2 uvs) (groups 3 indices)).
Proof.
  assert (V : (3 * nv <= length positions)%nat) by (unfold nv; pose proof (Nat.div_mod (length positions) 3 ltac:(lia)); lia).
  assert (T : (2 * nt <= length uvs)%nat) by (unfold nt; pose proof (Nat.div_mod (length uvs) 2 ltac:(lia)); lia).
  assert (F : (3 * nf <= length indices)%nat) by (unfold nf; pose proof (Nat.div_mod (length indices) 3 ltac:(lia)); lia).
  assert (PV : forall i, 0 <= i < zlen positions -> prints show parse (nthz f32_zero positions i)) by (intros; apply PR; left; now apply nth_in).
  assert (PT : forall i, 0 <= i < zlen uvs -> prints show parse (nthz f32_zero uvs i)) by (intros; apply PR; right; now apply nth_in).
  assert (PF : forall i, 0 <= i < zlen indices -> 0 <= nthz 0 indices i < two32 - 1) by (intros; apply IX; now apply nth_in).
  unfold read_obj. rewrite split_lines.
  2: { assert (A : forall (a b : list Z), ~ In 10 a -> ~ In 10 b -> ~ In 10 (a ++ b)) by (intros a b X Y Z0; apply in_app_or in Z0; tauto).
       assert (SP : ~ In 10 sp) by (intros [|[]]; lia).
       intros l Hl. unfold all_lines in Hl. apply in_app_or in Hl. destruct Hl as [Hl|Hl].
       { destruct Hl as [<-|[<-|[]]]; [|intros []]. vm_compute. intuition discriminate. }
       apply in_app_or in Hl. destruct Hl as [Hl|Hl]; [|apply in_app_or in Hl; destruct Hl as [Hl|Hl]];
         apply in_map_iff in Hl; destruct Hl as (i & <- & Hi); apply zseq_in in Hi.
       - unfold vline. repeat apply A; try exact SP; try (apply PV; unfold zlen; lia). intros [|[|[]]]; lia.
       - unfold tline. repeat apply A; try exact SP; try (apply PT; unfold zlen; lia). intros [|[|[|[]]]]; lia.
       - unfold fline. repeat (first [exact SP | apply corner_ok, PF; unfold zlen; lia | apply A; [|try exact SP]]). intros [|[|[]]]; lia. }
  unfold all_lines. cbn [app]. cbn [read_lines].
  replace (read_line parse obj_header (Mesh [] [] [])) with (Some (Mesh [] [] [])) by (vm_compute; reflexivity).
  change (read_line parse [] (Mesh [] [] [])) with (Some (Mesh [] [] [])). cbv iota beta.
  assert (LV : forall is rest m, (forall i, In i is -> 0 <= i < Z.of_nat nv) -> read_lines parse (map vline is ++ rest) m =
    read_lines parse rest (Mesh (m_positions m ++ concat (map (fun i => [nthz f32_zero positions (i * 3); nthz f32_zero positions (i * 3 + 1); nthz f32_zero positions (i * 3 + 2)]) is)) (m_uvs m) (m_tris m))).
  { induction is as [|i is IH]; intros rest m H; [cbn; rewrite app_nil_r; now destruct m|]. cbn [map app read_lines concat].
    pose proof (H i (or_introl eq_refl)) as Hi.
    destruct (PV (i * 3) ltac:(unfold zlen; lia)) as (A1 & A2 & A3). destruct (PV (i * 3 + 1) ltac:(unfold zlen; lia)) as (B1 & B2 & B3).
    destruct (PV (i * 3 + 2) ltac:(unfold zlen; lia)) as (C1 & C2 & C3).
    unfold read_line, vline at 1. change [118; 32] with ([118] ++ [32])%list. rewrite <- app_assoc, split3 by (assumption || (intros [|[]]; lia)).
    cbv iota beta. unfold read_floats. rewrite A1, B1, C1. cbn [option_map]. rewrite IH by (intros x Hx; apply H; now right). cbn [m_positions m_uvs m_tris].
    now rewrite <- app_assoc. }
  assert (LT : forall is rest m, (forall i, In i is -> 0 <= i < Z.of_nat nt) -> read_lines parse (map tline is ++ rest) m =
    read_lines parse rest (Mesh (m_positions m) (m_uvs m ++ concat (map (fun i => [nthz f32_zero uvs (i * 2); nthz f32_zero uvs (i * 2 + 1)]) is)) (m_tris m))).
  { induction is as [|i is IH]; intros rest m H; [cbn; rewrite app_nil_r; now destruct m|]. cbn [map app read_lines concat].
    pose proof (H i (or_introl eq_refl)) as Hi.
    destruct (PT (i * 2) ltac:(unfold zlen; lia)) as (A1 & A2 & A3). destruct (PT (i * 2 + 1) ltac:(unfold zlen; lia)) as (B1 & B2 & B3).
    unfold read_line, tline at 1. change [118; 116; 32] with ([118; 116] ++ [32])%list. rewrite <- app_assoc, split2 by (assumption || (intros [|[|[]]]; lia)).
    cbv iota beta. unfold read_floats. rewrite A1, B1. cbn [option_map]. rewrite IH by (intros x Hx; apply H; now right). cbn [m_positions m_uvs m_tris].
    now rewrite <- app_assoc. }
  assert (LF : forall is rest m, (forall i, In i is -> 0 <= i < Z.of_nat nf) -> read_lines parse (map fline is ++ rest) m =
    read_lines parse rest (Mesh (m_positions m) (m_uvs m) (m_tris m ++ concat (map (fun i => [nthz 0 indices (i * 3); nthz 0 indices (i * 3 + 1); nthz 0 indices (i * 3 + 2)]) is)))).
  { induction is as [|i is IH]; intros rest m H; [cbn; rewrite app_nil_r; now destruct m|]. cbn [map app read_lines concat].
    pose proof (H i (or_introl eq_refl)) as Hi.
    destruct (corner_ok _ (PF (i * 3) ltac:(unfold zlen; lia))) as (A1 & A2 & A3). destruct (corner_ok _ (PF (i * 3 + 1) ltac:(unfold zlen; lia))) as (B1 & B2 & B3).
    destruct (corner_ok _ (PF (i * 3 + 2) ltac:(unfold zlen; lia))) as (C1 & C2 & C3).
    unfold read_line, fline at 1. change [102; 32] with ([102] ++ [32])%list. rewrite <- app_assoc, split3 by (assumption || (intros [|[]]; lia)).
    cbv iota beta. rewrite A1, B1, C1. rewrite IH by (intros x Hx; apply H; now right). cbn [m_positions m_uvs m_tris].
    now rewrite <- app_assoc. }
  rewrite <- !app_assoc. rewrite LV by (intros i Hi; apply zseq_in in Hi; lia). rewrite LT by (intros i Hi; apply zseq_in in Hi; lia).
  rewrite LF by (intros i Hi; apply zseq_in in Hi; lia). cbn [m_positions m_uvs m_tris app].
  rewrite !chunks_3, chunks_2 by assumption. reflexivity.
Qed.

Lemma obj_round_trip : exists text, obj_text p show positions uvs indices = Ok text /\
  read_obj parse text = Some (Mesh (groups 3 positions) (groups 2 uvs) (groups 3 indices)).
Proof. exists (lines all_lines). split; [exact text_lines|exact read_text]. Qed.
End Obj.

Lemma exported : forall D write p show parse (d : D) positions uvs indices path,
  (forall text, exists d', write d path text = Some d') ->
  (forall f, In f positions \/ In f uvs -> prints show parse f) ->
  (forall i, In i indices -> 0 <= i < two32 - 1) ->
  exists text d', write d path text = Some d' /\ export_mesh p show write d positions uvs indices path = Ok d' /\
    read_obj parse text = Some (Mesh (groups 3 positions) (groups 2 uvs) (groups 3 indices)).
Proof.
  intros D write p show parse d positions uvs indices path W PR IX.
  destruct (obj_round_trip p show parse positions uvs indices PR IX) as (text & E & R). destruct (W text) as (d' & Hd).
  exists text, d'. split; [exact Hd|]. split; [|exact R]. unfold export_mesh. rewrite E. cbn [bind]. now rewrite Hd.
Qed.
Lemma groups_all {A} k (l : list A) n : k <> 0%nat -> (length l = k * n)%nat -> groups k l = l.
Proof. intros K H. unfold groups. rewrite H, (Nat.mul_comm k n), Nat.div_mul, Nat.mul_comm, <- (Nat.mul_comm k n), <- H by assumption. apply firstn_all. Qed.
Lemma exported_whole : forall D write p show parse (d : D) positions uvs indices path,
  (forall text, exists d', write d path text = Some d') ->
  (forall f, In f positions \/ In f uvs -> prints show parse f) ->
  (forall i, In i indices -> 0 <= i < two32 - 1) ->
  (exists n, length positions = 3 * n)%nat -> (exists n, length uvs = 2 * n)%nat -> (exists n, length indices = 3 * n)%nat ->
  exists text d', write d path text = Some d' /\ export_mesh p show write d positions uvs indices path = Ok d' /\
    read_obj parse text = Some (Mesh positions uvs indices).
Proof.
  intros D write p show parse d positions uvs indices path W PR IX (a & A) (b & B) (c & C).
  destruct (exported D write p show parse d positions uvs indices path W PR IX) as (text & d' & H1 & H2 & H3).
  exists text, d'. split; [exact H1|]. split; [exact H2|].
  rewrite (groups_all 3 positions a), (groups_all 2 uvs b), (groups_all 3 indices c) in H3 by (assumption || discriminate). exact H3.
Qed.
Lemma plane_exportable : forall p g b out,
  index_space (divisions_x g) (divisions_y g) -> buffer_size_tris p g = Ok (zlen b) -> fill_tris p g b = Ok out ->
  (forall i, In i out -> 0 <= i < two32 - 1) /\ (exists n, length out = 3 * n)%nat.
Proof.
  intros p g b out S B F. destruct (triangles_spec p g S b B) as (o & E & _ & R & L & _). rewrite F in E. injection E as <-.
  split.
  - intros i Hi. unfold in_range in R. unfold index_space in S. apply In_nth_error in Hi. destruct Hi as (k & Hk).
    assert (X : at_z out (Z.of_nat k) = Some i) by (unfold at_z; destruct (Z.leb_spec 0 (Z.of_nat k)); [now rewrite Nat2Z.id|lia]).
    specialize (R _ _ X). lia.
  - exists (length out / 3)%nat. apply Nat.div_exact; [discriminate|]. unfold zlen in L.
    apply Nat2Z.inj. rewrite Nat2Z.inj_mod, L. change (Z.of_nat 3) with 3. rewrite Z.mul_comm. apply Z.mod_mul. discriminate.
Qed.

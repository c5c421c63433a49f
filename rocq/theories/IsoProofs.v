(** Executions of two graphs that have the same part upstream. *)
From Coq Require Import Permutation Sorted.
From Verif Require Import Machine Loops GraphModel GraphSpec GraphWalk GraphExec GraphHistory IsoSpec.

(* ------------------------------ lists ------------------------------ *)

Lemma strict_unique {A} (lt : A -> A -> Prop) : (forall a, ~ lt a a) -> (forall a b c, lt a b -> lt b c -> lt a c) ->
  forall l l', StronglySorted lt l -> StronglySorted lt l' -> (forall x, In x l <-> In x l') -> l = l'.
Proof.
  intros IR TR. induction l as [|a l IH]; intros l' H H' S.
  - destruct l' as [|b l']; [reflexivity|]. exfalso. apply (S b). now left.
  - destruct l' as [|b l']; [exfalso; apply (S a); now left|].
    inversion H as [|? ? Hl Fa]; subst. inversion H' as [|? ? Hl' Fb]; subst. rewrite Forall_forall in Fa, Fb.
    assert (E : a = b).
    { destruct (proj1 (S a) (or_introl eq_refl)) as [E|Ha]; [now symmetry|].
      destruct (proj2 (S b) (or_introl eq_refl)) as [E|Hb]; [exact E|].
      exfalso. apply (IR a). apply (TR a b a); [apply Fa, Hb|apply Fb, Ha]. }
    subst b. f_equal. apply IH; try assumption. intro y. specialize (S y). cbn [In] in S.
    split; intro Hy.
    + destruct (proj1 S (or_intror Hy)) as [<-|X]; [|exact X]. exfalso. apply (IR a), Fa, Hy.
    + destruct (proj2 S (or_intror Hy)) as [<-|X]; [|exact X]. exfalso. apply (IR a), Fb, Hy.
Qed.

Lemma Forall2_rev_ {A B} (P : A -> B -> Prop) l l' : Forall2 P l l' -> Forall2 P (rev l) (rev l').
Proof.
  induction 1 as [|a b l l' H F IH]; cbn [rev]; [constructor|]. apply Forall2_app; [exact IH|]. constructor; auto.
Qed.

Lemma Forall2_map_eq {A B C} (f : A -> C) (g : B -> C) l l' : map f l = map g l' -> Forall2 (fun a b => f a = g b) l l'.
Proof.
  revert l'. induction l as [|a l IH]; intros [|b l'] E; try discriminate; constructor.
  - now injection E.
  - apply IH. now injection E.
Qed.

Lemma Forall2_imp_ {A B} (P Q : A -> B -> Prop) l l' : (forall a b, In a l -> In b l' -> P a b -> Q a b) ->
  Forall2 P l l' -> Forall2 Q l l'.
Proof.
  intros I F. induction F as [|a b l l' H F IH]; constructor.
  - apply I; [now left|now left|exact H].
  - apply IH. intros x y Hx Hy. apply I; now right.
Qed.

Section Iso.
Context {N St Ca F W : Type}.
Variable ops : nodeops N St Ca F W.
Variable srt : edge_sort.
Hypothesis HS : sorts srt.
Variable alike : N -> N -> Prop.

(** The operations do not tell alike nodes apart. *)
Record respects : Prop := {
  re_hash : forall n n' fr hs, alike n n' -> n_hash ops n fr hs = n_hash ops n' fr hs;
  re_validate : forall n n' mode h ins ins', alike n n' -> Forall2 alike ins ins' ->
    n_validate ops n mode h ins = n_validate ops n' mode h ins';
  re_compute : forall n n' fr mode ins out c, alike n n' ->
    match n_compute ops n fr mode ins out c, n_compute ops n' fr mode ins out c with
    | Panic, Panic => True
    | Ok (m, st, o, d), Ok (m', st', o', d') => alike m m' /\ st = st' /\ o = o' /\ d = d'
    | _, _ => False
    end
}.
Hypothesis RE : respects.

Variables (U : Z -> Prop) (ids1 ids2 : list Z) (sg1 sg2 : stable).
Hypothesis ND1 : NoDup ids1.
Hypothesis ND2 : NoDup ids2.
Hypothesis W1 : wf_stable sg1.
Hypothesis W2 : wf_stable sg2.

(** Corresponding indexes. *)
Definition corr (i j : nat) : Prop := exists id, U id /\ nth_error ids1 i = Some id /\ nth_error ids2 j = Some id.

Lemma corr_inj i i' j j' : corr i j -> corr i' j' -> (i = i' <-> j = j').
Proof.
  intros (a & _ & A1 & A2) (b & _ & B1 & B2). split; intros <-.
  - assert (a = b) by congruence. subst b.
    apply (proj1 (NoDup_nth_error ids2) ND2); [|congruence]. apply nth_error_Some. congruence.
  - assert (a = b) by congruence. subst b.
    apply (proj1 (NoDup_nth_error ids1) ND1); [|congruence]. apply nth_error_Some. congruence.
Qed.

Lemma corr_eqb i i' j j' : corr i j -> corr i' j' -> Nat.eqb i i' = Nat.eqb j j'.
Proof.
  intros A B. pose proof (corr_inj _ _ _ _ A B) as I.
  destruct (Nat.eqb_spec i i') as [E|E], (Nat.eqb_spec j j') as [E'|E']; try reflexivity; exfalso; tauto.
Qed.

Definition w1 (src dst slot : Z) : Prop :=
  exists a b, nth_error ids1 a = Some src /\ nth_error ids1 b = Some dst /\ feeds sg1 a b slot.
Definition w2 (src dst slot : Z) : Prop :=
  exists a b, nth_error ids2 a = Some src /\ nth_error ids2 b = Some dst /\ feeds sg2 a b slot.
Hypothesis LIVE : forall i j, corr i j -> sg_live sg1 i = true /\ sg_live sg2 j = true.
Hypothesis LEN1 : (length (sg_nodes sg1) <= length ids1)%nat.
Hypothesis LEN2 : (length (sg_nodes sg2) <= length ids2)%nat.
Hypothesis WIRES : forall src dst slot, U dst -> (w1 src dst slot <-> w2 src dst slot).
Hypothesis CLOSED : forall src dst slot, U dst -> w1 src dst slot -> U src.
Hypothesis SLOTS : forall src src' dst slot, U dst -> w1 src dst slot -> w1 src' dst slot -> src = src'.

Definition id1 (i : nat) : Z := nth i ids1 0.
Definition id2 (i : nat) : Z := nth i ids2 0.

Lemma id1_some i : sg_live sg1 i = true -> nth_error ids1 i = Some (id1 i).
Proof. intro H. apply live_lt_length in H. unfold id1. apply nth_error_nth'. lia. Qed.
Lemma id2_some i : sg_live sg2 i = true -> nth_error ids2 i = Some (id2 i).
Proof. intro H. apply live_lt_length in H. unfold id2. apply nth_error_nth'. lia. Qed.

Definition tag1 (e : edge) : Z * Z := (id1 (e_src e), e_slot e).
Definition tag2 (e : edge) : Z * Z := (id2 (e_src e), e_slot e).
Definition slot_lt (a b : Z * Z) : Prop := snd a < snd b.

Lemma in_tags1 i dst : nth_error ids1 i = Some dst ->
  forall src slot, In (src, slot) (map tag1 (srt (sg_incoming sg1 i))) <-> w1 src dst slot.
Proof.
  intros I src slot. rewrite in_map_iff. split.
  - intros (e & E & H). rewrite (in_srt srt HS), (in_incoming sg1 W1) in H. destruct H as (H & D).
    injection E as <- <-. exists (e_src e), i. split.
    + apply id1_some. exact (proj1 (ws_ends_live _ W1 _ H)).
    + split; [exact I|]. subst i. unfold feeds. destruct e; exact H.
  - intros (a & b & A & B & H). assert (b = i).
    { apply (proj1 (NoDup_nth_error ids1) ND1); [|congruence]. apply nth_error_Some. congruence. }
    subst b. exists (Edge a i slot). split.
    + unfold tag1. cbn [e_src e_slot]. f_equal. unfold id1. now apply nth_error_nth.
    + rewrite (in_srt srt HS), (in_incoming sg1 W1). split; [exact H|reflexivity].
Qed.

Lemma in_tags2 i dst : nth_error ids2 i = Some dst ->
  forall src slot, In (src, slot) (map tag2 (srt (sg_incoming sg2 i))) <-> w2 src dst slot.
Proof.
  intros I src slot. rewrite in_map_iff. split.
  - intros (e & E & H). rewrite (in_srt srt HS), (in_incoming sg2 W2) in H. destruct H as (H & D).
    injection E as <- <-. exists (e_src e), i. split.
    + apply id2_some. exact (proj1 (ws_ends_live _ W2 _ H)).
    + split; [exact I|]. subst i. unfold feeds. destruct e; exact H.
  - intros (a & b & A & B & H). assert (b = i).
    { apply (proj1 (NoDup_nth_error ids2) ND2); [|congruence]. apply nth_error_Some. congruence. }
    subst b. exists (Edge a i slot). split.
    + unfold tag2. cbn [e_src e_slot]. f_equal. unfold id2. now apply nth_error_nth.
    + rewrite (in_srt srt HS), (in_incoming sg2 W2). split; [exact H|reflexivity].
Qed.

(** Sorted, with distinct slots: strictly sorted. *)
Lemma strictly (tag : edge -> Z * Z) (Q : Z -> Z -> Prop) l : (forall e, snd (tag e) = e_slot e) ->
  (forall e, In e l -> Q (fst (tag e)) (e_slot e)) -> (forall a b s, Q a s -> Q b s -> a = b) ->
  NoDup (map (fun e => fst (tag e)) l) -> Sorted slot_le l -> StronglySorted slot_lt (map tag l).
Proof.
  intros T HQ FUN ND SO.
  assert (SS : StronglySorted slot_le l).
  { apply Sorted_StronglySorted; [|exact SO]. intros a b c X Y. unfold slot_le in *. lia. }
  clear SO. induction SS as [|e l SS IH FA]; cbn [map]; constructor.
  - apply IH; [intros; apply HQ; now right|]. cbn [map] in ND. now inversion ND.
  - rewrite Forall_forall in FA |- *. intros y Hy. apply in_map_iff in Hy. destruct Hy as (e' & <- & H').
    pose proof (FA _ H') as LE. unfold slot_lt, slot_le in *. rewrite !T.
    destruct (Z.eq_dec (e_slot e) (e_slot e')) as [E|NE]; [|lia]. exfalso.
    cbn [map] in ND. inversion ND as [|? ? NI _]; subst. apply NI. apply in_map_iff. exists e'. split; [|exact H'].
    apply (FUN _ _ (e_slot e)); [rewrite E; apply HQ; now right|apply HQ; now left].
Qed.

Lemma nodup_map_inj {A B} (f : A -> B) l : NoDup l -> (forall a b, In a l -> In b l -> f a = f b -> a = b) -> NoDup (map f l).
Proof.
  induction 1 as [|a l NI ND IH]; intro I; cbn [map]; constructor.
  - intro X. apply in_map_iff in X. destruct X as (b & E & Hb). apply NI.
    rewrite (I a b); [exact Hb|now left|now right|now symmetry].
  - apply IH. intros x y Hx Hy. apply I; now right.
Qed.

(** The edges into corresponding nodes correspond, in the same order. *)
Lemma edges_corr i j : corr i j ->
  Forall2 (fun e e' => corr (e_src e) (e_src e')) (srt (sg_incoming sg1 i)) (srt (sg_incoming sg2 j)).
Proof.
  intros (dst & UD & I1 & I2).
  assert (E : map tag1 (srt (sg_incoming sg1 i)) = map tag2 (srt (sg_incoming sg2 j))).
  { apply (strict_unique slot_lt).
    - intros a. unfold slot_lt. lia.
    - intros a b c. unfold slot_lt. lia.
    - apply (strictly tag1 (fun s k => w1 s dst k)); [reflexivity| | | |apply HS].
      + intros e He. apply (in_tags1 i dst I1). apply (in_map tag1) in He. exact He.
      + intros a b s. now apply SLOTS.
      + rewrite <- map_map with (f := e_src) (g := id1). apply nodup_map_inj; [apply (sources_nodup srt sg1 HS W1)|].
        intros a b Ha Hb Eab. apply (proj1 (NoDup_nth_error ids1) ND1).
        * apply (in_sources srt sg1 HS W1) in Ha. destruct Ha as (s & Ha). apply (ws_ends_live _ W1) in Ha.
          apply nth_error_Some. rewrite id1_some by apply Ha. discriminate.
        * apply (in_sources srt sg1 HS W1) in Ha, Hb. destruct Ha as (s & Ha), Hb as (s' & Hb).
          apply (ws_ends_live _ W1) in Ha, Hb. cbn [e_src] in *. rewrite !id1_some by tauto. congruence.
    - apply (strictly tag2 (fun s k => w2 s dst k)); [reflexivity| | | |apply HS].
      + intros e He. apply (in_tags2 j dst I2). apply (in_map tag2) in He. exact He.
      + intros a b s A B. apply WIRES in A, B; try exact UD. exact (SLOTS _ _ _ _ UD A B).
      + rewrite <- map_map with (f := e_src) (g := id2). apply nodup_map_inj; [apply (sources_nodup srt sg2 HS W2)|].
        intros a b Ha Hb Eab. apply (proj1 (NoDup_nth_error ids2) ND2).
        * apply (in_sources srt sg2 HS W2) in Ha. destruct Ha as (s & Ha). apply (ws_ends_live _ W2) in Ha.
          apply nth_error_Some. rewrite id2_some by apply Ha. discriminate.
        * apply (in_sources srt sg2 HS W2) in Ha, Hb. destruct Ha as (s & Ha), Hb as (s' & Hb).
          apply (ws_ends_live _ W2) in Ha, Hb. cbn [e_src] in *. rewrite !id2_some by tauto. congruence.
    - intros [src slot]. rewrite (in_tags1 i dst I1), (in_tags2 j dst I2). now apply WIRES. }
  apply Forall2_map_eq in E. revert E. apply Forall2_imp_. intros e e' He He' E. unfold tag1, tag2 in E.
  injection E as E _. exists (id1 (e_src e)).
  assert (L1 : sg_live sg1 (e_src e) = true).
  { rewrite (in_srt srt HS), (in_incoming sg1 W1) in He. apply (ws_ends_live _ W1), He. }
  assert (L2 : sg_live sg2 (e_src e') = true).
  { rewrite (in_srt srt HS), (in_incoming sg2 W2) in He'. apply (ws_ends_live _ W2), He'. }
  split; [|split; [now apply id1_some|rewrite E; now apply id2_some]].
  apply (CLOSED _ dst (e_slot e) UD). apply (in_tags1 i dst I1). apply (in_map tag1) in He. exact He.
Qed.

(* ------------------------------ walking ------------------------------ *)

Lemma memn_corr x y : corr x y -> forall l l', Forall2 corr l l' -> memn x l = memn y l'.
Proof.
  intros C l l' H. induction H as [|a b l l' H H2 IH]; [reflexivity|].
  unfold memn in *. cbn [existsb]. rewrite IH. f_equal. now apply corr_eqb.
Qed.

Lemma fresh_corr es es' : Forall2 (fun e e' => corr (e_src e) (e_src e')) es es' ->
  forall d d', Forall2 corr d d' -> Forall2 corr (fresh d es) (fresh d' es').
Proof.
  induction 1 as [|e e' es es' H H2 IH]; intros d d' D; cbn [fresh]; [constructor|].
  rewrite (memn_corr _ _ H _ _ D). destruct (memn (e_src e') d'); [now apply IH|].
  constructor; [exact H|]. apply IH. now constructor.
Qed.

Definition corr_pair {A} (a b : nat * A) : Prop := corr (fst a) (fst b) /\ snd a = snd b.

Lemma walk_corr fuel : forall st st' d d', Forall2 corr_pair st st' -> Forall2 corr d d' ->
  same_outcome (Forall2 corr_pair) (walk_all fuel srt sg1 (Walker st d)) (walk_all fuel srt sg2 (Walker st' d')).
Proof.
  induction fuel as [|fuel IH]; intros st st' d d' HS1 HD; cbn [walk_all]; [exact I|].
  destruct HS1 as [|[n k] [n' k'] st st' [C E] HS1]; [cbn; constructor|]. cbn [fst snd] in C, E. subst k'.
  rewrite (step_ok srt sg1 HS W1), (step_ok srt sg2 HS W2).
  pose proof (fresh_corr _ _ (edges_corr _ _ C) _ _ HD) as FR.
  match goal with |- context[walk_all fuel srt sg1 ?a] => match goal with |- context[walk_all fuel srt sg2 ?b] =>
    assert (X : same_outcome (Forall2 corr_pair) (walk_all fuel srt sg1 a) (walk_all fuel srt sg2 b)) end end.
  { apply IH.
    - apply Forall2_app; [exact HS1|]. clear - FR. induction FR; cbn [map]; constructor; [split; auto|assumption].
    - apply Forall2_app; [now apply Forall2_rev_|exact HD]. }
  destruct (walk_all fuel srt sg1 _) as [[l|]|], (walk_all fuel srt sg2 _) as [[l'|]|]; cbn [same_outcome] in *; auto.
  constructor; [split; auto|exact X].
Qed.

Lemma walk_mono sg fuel : forall w r, walk_all fuel srt sg w = Some r -> walk_all (S fuel) srt sg w = Some r.
Proof.
  induction fuel as [|fuel IH]; intros w r H; [discriminate|].
  change (match walker_next srt sg w with
          | Panic => Some Panic
          | Ok None => Some (Ok [])
          | Ok (Some (nd, w')) =>
              match walk_all (S fuel) srt sg w' with
              | None => None | Some Panic => Some Panic | Some (Ok l) => Some (Ok (nd :: l)) end
          end = Some r).
  cbn [walk_all] in H. destruct (walker_next srt sg w) as [[[nd w']|]|]; try exact H.
  destruct (walk_all fuel srt sg w') as [r'|] eqn:E; [|discriminate]. rewrite (IH _ _ E). exact H.
Qed.

Lemma walk_mono_le sg f f' w r : (f <= f')%nat -> walk_all f srt sg w = Some r -> walk_all f' srt sg w = Some r.
Proof. induction 1 as [|f' LE IH]; intro H; [exact H|]. now apply walk_mono, IH. Qed.

Lemma upstream_corr i j : corr i j -> exists l l', all_upstream srt sg1 i = Ok l /\ all_upstream srt sg2 j = Ok l' /\
  Forall2 corr_pair l l'.
Proof.
  intro C. destruct (LIVE _ _ C) as (L1 & L2). apply live_lt_bound in L1, L2.
  destruct (walk_all_terminates srt sg1 HS W1 i (walk_fuel sg1) L1) as (l & E & _); [unfold walk_fuel; lia|].
  destruct (walk_all_terminates srt sg2 HS W2 j (walk_fuel sg2) L2) as (l' & E' & _); [unfold walk_fuel; lia|].
  exists l, l'. unfold all_upstream, walker_new. apply Nat.ltb_lt in L1, L2. rewrite L1, L2. cbn [bind].
  rewrite E, E'. split; [reflexivity|]. split; [reflexivity|].
  set (f := Nat.max (walk_fuel sg1) (walk_fuel sg2)).
  assert (X : same_outcome (Forall2 corr_pair) (walk_all f srt sg1 (Walker [(i, O)] [i])) (walk_all f srt sg2 (Walker [(j, O)] [j]))).
  { apply walk_corr; repeat constructor; exact C. }
  rewrite (walk_mono_le sg1 (walk_fuel sg1) f _ (Ok l)) in X; [|unfold f; lia|exact E].
  rewrite (walk_mono_le sg2 (walk_fuel sg2) f _ (Ok l')) in X; [|unfold f; lia|exact E'].
  exact X.
Qed.

Lemma direct_corr i j : corr i j -> exists l l', direct_upstream srt sg1 i = Ok l /\ direct_upstream srt sg2 j = Ok l' /\
  Forall2 corr l l'.
Proof.
  intro C. destruct (LIVE _ _ C) as (L1 & L2). apply live_lt_bound in L1, L2.
  exists (inputs_of srt sg1 i), (inputs_of srt sg2 j).
  split; [now apply direct_upstream_ok|]. split; [now apply direct_upstream_ok|].
  unfold inputs_of, sources. pose proof (edges_corr _ _ C) as E. induction E as [|e e' l l' H E IH]; cbn [map filter]; [constructor|].
  rewrite (corr_eqb _ _ _ _ H C). destruct (negb (Nat.eqb (e_src e') j)); [constructor; assumption|exact IH].
Qed.

(* ------------------------------ executing ------------------------------ *)

Lemma lookup_corr {A} (m m' : list (nat * A)) : Forall2 corr_pair m m' -> forall i j, corr i j -> lookup i m = lookup j m'.
Proof.
  induction 1 as [|[a v] [b v'] m m' [C E] H IH]; intros i j CI; cbn [lookup]; [reflexivity|].
  cbn [fst snd] in C, E. subst v'. rewrite (corr_eqb _ _ _ _ CI C). destruct (Nat.eqb j b); [reflexivity|now apply IH].
Qed.

Lemma lookup_all_corr {A} (m m' : list (nat * A)) l l' : Forall2 corr_pair m m' -> Forall2 corr l l' ->
  lookup_all l m = lookup_all l' m'.
Proof.
  intros H. induction 1 as [|i j l l' C H2 IH]; cbn [lookup_all]; [reflexivity|].
  rewrite (lookup_corr _ _ H _ _ C). destruct (lookup j m'); [|reflexivity]. now rewrite IH.
Qed.

(** Related graphs during an execution. *)
Record rel (g1 g2 : graph N St) : Prop := {
  rl_ids1 : g_ids g1 = ids1; rl_ids2 : g_ids g2 = ids2;
  rl_sg1 : g_graph g1 = sg1; rl_sg2 : g_graph g2 = sg2;
  rl_nodes : forall i j, corr i j -> exists n n', nth_error (g_nodes g1) i = Some n /\ nth_error (g_nodes g2) j = Some n' /\ alike n n';
  rl_output : g_output g1 = g_output g2
}.

Lemma get_corr g1 g2 i j : rel g1 g2 -> corr i j ->
  exists n n', get_node g1 i = Ok n /\ get_node g2 j = Ok n' /\ alike n n'.
Proof.
  intros R C. destruct (rl_nodes _ _ R _ _ C) as (n & n' & E & E' & A). exists n, n'.
  unfold get_node. rewrite E, E'. auto.
Qed.

Lemma gets_corr g1 g2 l l' : rel g1 g2 -> Forall2 corr l l' ->
  exists ns ns', get_nodes g1 l = Ok ns /\ get_nodes g2 l' = Ok ns' /\ Forall2 alike ns ns'.
Proof.
  intros R. induction 1 as [|i j l l' C H IH]; cbn [get_nodes].
  - exists [], []. auto.
  - destruct IH as (ns & ns' & -> & -> & A). destruct (get_corr _ _ _ _ R C) as (n & n' & -> & -> & B).
    cbn [bind]. exists (n :: ns), (n' :: ns'). auto.
Qed.

Definition outcome {A B} (R : A -> B -> Prop) (a : Res A) (b : Res B) : Prop :=
  match a, b with Panic, Panic => True | Ok a, Ok b => R a b | _, _ => False end.

Lemma hash_corr g1 g2 fr l l' : rel g1 g2 -> Forall2 corr l l' -> forall hc hc', Forall2 corr_pair hc hc' ->
  outcome (Forall2 corr_pair) (hash_phase ops srt g1 fr l hc) (hash_phase ops srt g2 fr l' hc').
Proof.
  intros R. induction 1 as [|i j l l' C H IH]; intros hc hc' HH; cbn [hash_phase]; [exact HH|].
  destruct (get_corr _ _ _ _ R C) as (n & n' & -> & -> & A). cbn [bind].
  unfold input_hashes. rewrite (rl_sg1 _ _ R), (rl_sg2 _ _ R).
  destruct (direct_corr _ _ C) as (ms & ms' & -> & -> & M). cbn [bind].
  rewrite (lookup_all_corr _ _ _ _ HH M). destruct (lookup_all ms' hc') as [hs|]; cbn [bind]; [|exact I].
  apply IH. constructor; [|exact HH]. split; [exact C|]. cbn [snd]. now apply (re_hash RE).
Qed.

Lemma combine_corr l l' : Forall2 corr l l' -> forall (v : list Z), Forall2 corr_pair (combine l v) (combine l' v).
Proof.
  induction 1 as [|i j l l' C H IH]; intros [|m v]; cbn [combine]; constructor; [split; auto|apply IH].
Qed.

Lemma validate_corr g1 g2 hc hc' fuel : rel g1 g2 -> Forall2 corr_pair hc hc' -> forall s s' a a',
  Forall2 corr_pair s s' -> Forall2 corr_pair a a' ->
  same_outcome (Forall2 corr_pair) (validate_loop ops srt fuel g1 hc s a) (validate_loop ops srt fuel g2 hc' s' a').
Proof.
  intros R HH. induction fuel as [|fuel IH]; intros s s' a a' HS1 HA; cbn [validate_loop]; [exact I|].
  destruct HS1 as [|[i m] [j m'] s s' [C E] HS1]; [exact HA|]. cbn [fst snd] in C, E. subst m'.
  rewrite (rl_sg1 _ _ R), (rl_sg2 _ _ R).
  destruct (direct_corr _ _ C) as (ms & ms' & -> & -> & M). cbn [bind].
  destruct (gets_corr _ _ _ _ R M) as (ns & ns' & -> & -> & AL). cbn [bind].
  destruct (get_corr _ _ _ _ R C) as (n & n' & -> & -> & A). cbn [bind].
  rewrite (lookup_corr _ _ HH _ _ C). destruct (lookup j hc') as [h|]; [|exact I].
  rewrite (re_validate RE n n' m h ns ns' A AL). destruct (n_validate ops n' m h ns') as [v|]; cbn [bind]; [|exact I].
  pose proof (combine_corr _ _ M v) as CO. apply IH.
  - apply Forall2_app; [now apply Forall2_rev_|exact HS1].
  - now apply Forall2_app.
Qed.

Lemma set_corr g1 g2 i j n n' s : rel g1 g2 -> corr i j -> alike n n' ->
  rel (with_output (with_nodes g1 (set_nth (g_nodes g1) i n)) s) (with_output (with_nodes g2 (set_nth (g_nodes g2) j n')) s).
Proof.
  intros R C A. destruct (rl_nodes _ _ R _ _ C) as (m & m' & E & E' & _).
  constructor; cbn [with_output with_nodes g_ids g_graph g_nodes g_output]; try apply R; [|reflexivity].
  intros i' j' C'. destruct (Nat.eq_dec i' i) as [->|NE].
  - assert (j' = j) by (apply (corr_inj i i j' j); auto). subst j'. exists n, n'.
    rewrite !set_nth_same; [auto| |]; apply nth_error_Some; congruence.
  - assert (NE' : j' <> j) by (intro X; apply NE, (corr_inj i' i j' j); auto).
    rewrite !set_nth_other by congruence. apply R. exact C'.
Qed.

Definition step_rel {A} (a b : graph N St * Ca * A) : Prop :=
  rel (fst (fst a)) (fst (fst b)) /\ snd (fst a) = snd (fst b) /\ snd a = snd b.

Lemma phase_corr fr t t' : Forall2 corr_pair t t' -> forall g1 g2 c sc sc', rel g1 g2 -> Forall2 corr_pair sc sc' ->
  outcome step_rel (compute_phase ops srt g1 fr t c sc) (compute_phase ops srt g2 fr t' c sc').
Proof.
  induction 1 as [|[i m] [j m'] t t' [C E] H IH]; intros g1 g2 c sc sc' R HSc; cbn [compute_phase].
  - split; [exact R|]. split; reflexivity.
  - cbn [fst snd] in C, E. subst m'. unfold input_streams. rewrite (rl_sg1 _ _ R), (rl_sg2 _ _ R).
    destruct (direct_corr _ _ C) as (ms & ms' & -> & -> & M). cbn [bind].
    rewrite (lookup_all_corr _ _ _ _ HSc M). destruct (lookup_all ms' sc') as [ins|]; cbn [bind]; [|exact I].
    unfold compute_node_output. destruct (get_corr _ _ _ _ R C) as (n & n' & -> & -> & A). cbn [bind].
    rewrite (rl_output _ _ R). pose proof (re_compute RE n n' fr m ins (g_output g2) c A) as RC.
    destruct (n_compute ops n fr m ins (g_output g2) c) as [[[[n1 st] o] d]|],
             (n_compute ops n' fr m ins (g_output g2) c) as [[[[n1' st'] o'] d']|]; try contradiction; cbn [bind]; [|exact I].
    destruct RC as (A' & -> & -> & ->).
    pose proof (set_corr _ _ _ _ _ _ o' R C A') as R'.
    assert (SC' : Forall2 corr_pair ((i, o') :: sc) ((j, o') :: sc')) by (constructor; [split; auto|exact HSc]).
    destruct st'; cbn [bind]; try (split; [exact R'|split; reflexivity]); now apply IH.
Qed.

Lemma frame_corr fuel g1 g2 order order' fr c : rel g1 g2 -> Forall2 corr order order' ->
  same_outcome step_rel (execute_frame ops srt fuel g1 order fr c) (execute_frame ops srt fuel g2 order' fr c).
Proof.
  intros R O. unfold execute_frame.
  pose proof (hash_corr g1 g2 fr _ _ R (Forall2_rev_ _ _ _ O) [] [] (Forall2_nil _)) as HH.
  destruct (hash_phase ops srt g1 fr (rev order) []) as [hc|], (hash_phase ops srt g2 fr (rev order') []) as [hc'|];
    try contradiction; [|exact I]. cbn [outcome] in HH.
  destruct O as [|i j order order' C O]; [exact I|].
  assert (V0 : Forall2 corr_pair [(i, mode_all)] [(j, mode_all)]) by (repeat constructor; exact C).
  pose proof (validate_corr g1 g2 hc hc' fuel R HH _ _ _ _ V0 V0) as V.
  destruct (validate_loop ops srt fuel g1 hc _ _) as [[v|]|], (validate_loop ops srt fuel g2 hc' _ _) as [[v'|]|];
    try contradiction; try exact I. cbn [same_outcome] in V |- *.
  pose proof (phase_corr fr _ _ (Forall2_rev_ _ _ _ V) g1 g2 c [] [] R (Forall2_nil _)) as P.
  destruct (compute_phase ops srt g1 fr (rev v) c []), (compute_phase ops srt g2 fr (rev v') c []); exact P.
Qed.

Lemma frames_corr fuel order order' frames : Forall2 corr order order' -> forall g1 g2 c, rel g1 g2 ->
  same_outcome step_rel (execute_frames ops srt fuel g1 order frames c) (execute_frames ops srt fuel g2 order' frames c).
Proof.
  intros O. induction frames as [|fr frames IH]; intros g1 g2 c R; cbn [execute_frames].
  - split; [exact R|]. split; reflexivity.
  - pose proof (frame_corr fuel g1 g2 order order' fr c R O) as FC.
    destruct (execute_frame ops srt fuel g1 order fr c) as [[[[a d] e]|]|],
             (execute_frame ops srt fuel g2 order' fr c) as [[[[a' d'] e']|]|]; try contradiction; try exact I.
    destruct FC as (R' & E1 & E2). cbn [fst snd] in *. subst d' e'. destruct e as [e|].
    + split; [exact R'|]. split; reflexivity.
    + now apply IH.
Qed.

Lemma execute_corr fuel g1 g2 id frames c : rel g1 g2 -> U id -> (exists i j, corr i j /\ nth_error ids1 i = Some id) ->
  same_outcome step_rel (execute ops srt fuel g1 id frames c) (execute ops srt fuel g2 id frames c).
Proof.
  intros R UI (i & j & C & Ei).
  assert (Ej : nth_error ids2 j = Some id) by (destruct C as (x & _ & A & B); congruence).
  unfold execute, find_index. rewrite (rl_ids1 _ _ R), (rl_ids2 _ _ R).
  rewrite (position_nodup ids1 i id ND1 Ei), (position_nodup ids2 j id ND2 Ej).
  rewrite (rl_sg1 _ _ R), (rl_sg2 _ _ R).
  destruct (upstream_corr i j C) as (l & l' & -> & -> & L).
  assert (O : Forall2 corr (map fst l) (map fst l')).
  { clear - L. induction L as [|a b l l' [X _] L IH]; cbn [map]; constructor; assumption. }
  pose proof (frames_corr fuel _ _ frames O g1 g2 c R) as FC.
  destruct (execute_frames ops srt fuel g1 (map fst l) frames c) as [[[[a d] e]|]|],
           (execute_frames ops srt fuel g2 (map fst l') frames c) as [[[[a' d'] e']|]|]; try contradiction; try exact I.
  destruct FC as (R' & E1 & E2). cbn [fst snd] in *. subst d' e'.
  destruct e as [e|]; (split; [|split; reflexivity]); destruct R'; constructor; assumption.
Qed.
End Iso.

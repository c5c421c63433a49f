(** A program that leaves a composition as it was, or puts it back, sees it as it was. *)
From Coq Require String.
Import String.StringSyntax.
From Coq Require Import Lia Sorted Floats.SpecFloat.
From Verif Require Import Machine CacheModel BBoxModel AttrModel AttrSpec AttrProofs HashModel HashSpec EnumModel StreamModel PathModel GraphModel GraphSpec
  NodeModel ChainSpec SafeSpec ViewSpec SceneSpec AlikeSpec EachSpec LutSpec SoundSpec TotalSpec
  ClientModel ClientSpec ClientSpec2 ProgramSpec ProgramProofs ProgramProofs2 ProgramSpec2 ProgramProofs3 ProgramSpec3 EditSpec EditProofs.
Local Open Scope string_scope.

Lemma above_described i h id : only_builds i h -> described i h id <> None -> forall a, above i h id a -> described i h a <> None.
Proof.
  intros OB D. assert (K : forall a b s, connected i h a b s -> described i h a <> None).
  { clear D. revert OB. induction h as [|(call, r) h IH] using rev_ind; intros OB a b s C; [discriminate C|].
    destruct (only_builds_app _ _ _ _ OB) as (OB' & BU). specialize (IH OB'). rewrite described_app. apply connected_app in C.
    assert (OLD : connected i h a b s -> describe i a (described i h a) (call, r) <> None) by (intro C'; apply describes_more; exact (IH _ _ _ C')).
    unfold rewire at 1 in C. cbn [fst] in C. destruct call; try (exact (OLD C)).
    - destruct (_ && _)%bool; [discriminate C|exact (OLD C)].
    - destruct (Nat.eqb_spec i0 i), (Z.eqb_spec (hd_id dst) b), (Z.eqb_spec slot s); cbn [andb] in C; try (exact (OLD C)).
      injection C as <-. apply describes_more. exact (proj1 (proj2 (BU e))).
    - destruct (_ && _)%bool; [discriminate C|exact (OLD C)]. }
  intros a A. inversion A; subst; [exact D|]. eapply K. eassumption.
Qed.

Lemma as_above i h h' id : as_it_was i h h' id -> forall a, above i h id a <-> above i h' id a.
Proof.
  intros W a. split; intro A.
  - induction A as [|a b s A IH C]; [constructor|]. apply (above_more _ _ _ a b s IH). apply (proj2 (W b A)), C.
  - induction A as [|a b s A IH C]; [constructor|]. apply (above_more _ _ _ a b s IH). apply (proj2 (W b IH)), C.
Qed.
Lemma as_fed i h h' id : as_it_was i h h' id -> forall a l, above i h id a -> (fed_by i h a l <-> fed_by i h' a l).
Proof.
  intros W a l A. destruct (W a A) as (_ & C). split; intros (ss & E & S & H); exists ss; (split; [exact E|]); (split; [exact S|]); intros s src; rewrite H; [apply C|symmetry; apply C].
Qed.
Lemma as_attrs i h h' id : as_it_was i h h' id -> forall a m, above i h id a -> described i h' a = Some m ->
  exists n, described i h a = Some n /\ nd_type n = nd_type m /\ nd_attrs n = nd_attrs m /\ forall k name, get_value k name n = get_value k name m.
Proof.
  intros W a m A DM. destruct (W a A) as ((n & m' & DN & DM' & T & R) & _). rewrite DM in DM'. injection DM' as <-.
  exists n. split; [exact DN|]. split; [exact T|]. split; [|exact R]. exact (readings_attrs n m (described_dressed _ _ _ _ DN) (described_dressed _ _ _ _ DM) T R).
Qed.
Lemma as_used i h h' id : as_it_was i h h' id -> all_used i h id -> all_used i h' id.
Proof.
  intros W U a m l A DM FB. apply (as_above _ _ _ _ W) in A. destruct (as_attrs _ _ _ _ W a m A DM) as (n & DN & T & AT & R).
  apply (as_fed _ _ _ _ W a l A) in FB. destruct (U a n l A DN FB) as (U1 & U2). rewrite <- T, <- AT. split; [exact U1|]. intro V. destruct (U2 V) as (V1 & V2).
  split; [|exact V2]. specialize (R KI32 "enable"). injection R as R. now rewrite <- R.
Qed.
Lemma as_definite {D} (x : externals D) fr d d' i h h' id : as_it_was i h h' id -> files_as_they_were x fr d d' i h id -> definite x d fr i h id -> definite x d' fr i h' id.
Proof.
  intros W F DE a m A DM. apply (as_above _ _ _ _ W) in A. destruct (as_attrs _ _ _ _ W a m A DM) as (n & DN & T & _ & R).
  destruct (DE a n A DN) as (D1 & D2). pose proof (R KI32 "enable") as RE. injection RE as RE. pose proof (R KStr "file_path") as RP. injection RP as RP.
  rewrite <- T, <- RE, <- RP. split; [exact D1|]. intros TR EN path E. rewrite <- (proj1 (F a n path A DN TR E)). exact (D2 TR EN path E).
Qed.

Theorem seen_again {D} p (x : externals D) B ok srt (E : setting D) :
  roomy B -> sane x B ok -> resampler_works x B -> sorts srt -> clean_paths (x_expand x) -> no_collisions (x_digest x) (SoundSpec.used E) -> digest_u64 (x_digest x) ->
  (forall l, In l (SoundSpec.used E) -> x_digest x l <> 0) -> keeps_sources x E ->
  forall h h' cl cl' i n n' frames frames' fr call call' fuel fuel' cl1 cl1',
  neat_past p x E srt B ok h cl -> only_builds i h -> all_careful p B i h -> described i h (hd_id n) <> None -> all_used i h (hd_id n) -> definite x (cl_disk cl) fr i h (hd_id n) ->
  runs call i n (frames ++ [fr]) -> tame_call p x E srt cl fuel call -> client_call p x srt fuel cl call = Some (Ok (cl1, RStatus ExSuccess)) ->
  neat_past p x E srt B ok h' cl' -> only_builds i h' -> all_careful p B i h' -> as_it_was i h h' (hd_id n) -> files_as_they_were x fr (cl_disk cl) (cl_disk cl') i h (hd_id n) ->
  runs call' i n' (frames' ++ [fr]) -> hd_id n' = hd_id n -> tame_call p x E srt cl' fuel' call' -> client_call p x srt fuel' cl' call' = Some (Ok (cl1', RStatus ExSuccess)) ->
  exists v v', answers p x srt cl1 (COutput i) (RStream v) /\ answers p x srt cl1' (COutput i) (RStream v') /\ looks_like v v'.
Proof.
  intros R SX RW HS CP NC DU NZ KS h h' cl cl' i n n' frames frames' fr call call' fuel fuel' cl1 cl1' P OB AC DE AU DF RU TC HC P' OB' AC' W F RU' EI TC' HC'.
  assert (DE' : described i h' (hd_id n') <> None) by (rewrite EI; destruct (W _ (above_here i h _)) as ((a & b & _ & Q & _) & _); congruence).
  refine (programs_same p x B B ok ok srt srt E E CP DU _ R R SX SX RW RW HS HS h h' cl cl' i i n n' frames frames' fr fr call call' fuel fuel' cl1 cl1'
    P OB AC DE AU P' OB' AC' DE' _ RU TC HC RU' TC' HC' (fun a b => a = b /\ above i h (hd_id n) a) _ (conj (eq_sym EI) (above_here i h _)) _).
  - intros E0 [-> | ->]; auto.
  - rewrite EI. exact (as_used _ _ _ _ W AU).
  - intros a b (<- & A). exists a, a. destruct (W a A) as ((na & ma & DN & DM & T & RD) & _). exists na, ma. split; [constructor|]. split; [constructor|].
    split; [exact DN|]. split; [exact DM|]. split; [exact T|]. split; [exact RD|]. split.
    + intros TR path EP. exists path. split; [exact EP|]. exact (F a na path A DN TR EP).
    + intros l FB. exists l. split; [apply (as_fed _ _ _ _ W a l A), FB|]. destruct FB as (ss & -> & _ & SS).
      assert (K : forall s src, In (s, src) ss -> above i h (hd_id n) src) by (intros s src I; apply (above_more _ _ _ src a s A), SS, I).
      clear - K. induction ss as [|(s, src) ss IH]; cbn [map]; constructor; [split; [reflexivity|apply (K s); now left]|]. apply IH. intros s' src' I. apply (K s'). now right.
  - rewrite EI. exact (as_definite _ _ _ _ _ _ _ _ W F DF).
Qed.

(** Calls aside. *)
Lemma aside_described i (up : Z -> Prop) a : up a -> forall more, all_aside i up more -> forall h, described i h a <> None -> described i (h ++ more) a = described i h a.
Proof.
  intro U. induction more as [|(call, r) more IH]; intros AS h D; [now rewrite app_nil_r|].
  pose proof (AS call r (or_introl eq_refl)) as A1. assert (A2 : all_aside i up more) by (intros c q I; apply (AS c q); now right).
  change (h ++ (call, r) :: more)%list with (h ++ [(call, r)] ++ more)%list. rewrite app_assoc.
  assert (ST : described i (h ++ [(call, r)]) a = described i h a).
  { rewrite described_app. unfold describe. cbn [fst]. destruct (described i h a) as [n|]; [|now contradiction D].
    destruct call; try reflexivity. destruct (Nat.eqb_spec i0 i) as [->|]; [|reflexivity]. cbn [andb]. destruct (Z.eqb_spec (hd_id n0) a) as [E|]; [|reflexivity].
    cbn [aside] in A1. exfalso. apply (A1 eq_refl). now rewrite E. }
  rewrite (IH A2), ST; [reflexivity|]. now rewrite ST.
Qed.
Lemma aside_slot i (up : Z -> Prop) a s : up a -> forall more, all_aside i up more -> forall o, (forall u, o = Some u -> up u) -> fold_left (rewire i a s) more o = o.
Proof.
  intro U. induction more as [|(call, r) more IH]; intros AS o O; [reflexivity|]. cbn [fold_left].
  pose proof (AS call r (or_introl eq_refl)) as A1. assert (A2 : all_aside i up more) by (intros c q I; apply (AS c q); now right).
  assert (ST : rewire i a s o (call, r) = o); [|rewrite ST; exact (IH A2 o O)].
  unfold rewire. cbn [fst]. destruct call; try reflexivity; cbn [aside] in A1; (destruct (Nat.eqb_spec i0 i) as [->|]; [|reflexivity]); cbn [andb].
  - destruct (Z.eqb_spec (hd_id n) a) as [E|]; [exfalso; apply (A1 eq_refl); now rewrite E|]. cbn [orb].
    destruct o as [u|]; [|reflexivity]. destruct (Z.eqb_spec u (hd_id n)) as [E|]; [|reflexivity]. exfalso. apply (A1 eq_refl). rewrite <- E. now apply O.
  - destruct (Z.eqb_spec (hd_id dst) a) as [E|]; [exfalso; apply (A1 eq_refl); now rewrite E|reflexivity].
  - destruct (Z.eqb_spec (hd_id dst) a) as [E|]; [exfalso; apply (A1 eq_refl); now rewrite E|reflexivity].
Qed.
Theorem aside_leaves i h more id : only_builds i h -> described i h id <> None -> all_aside i (above i h id) more -> as_it_was i h (h ++ more) id.
Proof.
  intros OB D AS a A. pose proof (above_described i h id OB D a A) as DA. split.
  - rewrite (aside_described i _ a A more AS h DA). destruct (described i h a) as [n|]; [|now contradiction DA]. exists n, n. auto.
  - intros src s. unfold connected. rewrite fold_left_app, (aside_slot i _ a s A more AS); [reflexivity|]. intros u C. exact (above_more _ _ _ u a s A C).
Qed.

(** A setting made and undone. *)
Theorem set_back i h more id m n w w' r r' : only_builds i h -> described i h id <> None -> described i h (hd_id m) = Some n ->
  all_aside i (above i h id) more -> same_target w w' -> get_value (w_kind w) (w_name w) n = w_value w' ->
  as_it_was i h (h ++ (CSet i m w, r) :: more ++ [(CSet i m w', r')]) id.
Proof.
  intros OB D DM AS ST RV a A. pose proof (above_described i h id OB D a A) as DA. split.
  - replace (h ++ (CSet i m w, r) :: more ++ [(CSet i m w', r')])%list with (((h ++ [(CSet i m w, r)]) ++ more) ++ [(CSet i m w', r')])%list by (now rewrite <- !app_assoc).
    assert (DA' : described i (h ++ [(CSet i m w, r)]) a <> None) by (rewrite described_app; now apply describes_more).
    rewrite described_app, (aside_described i _ a A more AS _ DA'), described_app. unfold describe. cbn [fst]. rewrite Nat.eqb_refl. cbn [andb].
    destruct (described i h a) as [na|] eqn:E; [|now contradiction DA]. destruct (Z.eqb_spec (hd_id m) a) as [Q|Q].
    + rewrite Q, E in DM. injection DM as ->. rewrite (write_back n w w' ST RV). exists n, n. auto.
    + exists na, na. auto.
  - intros src s. unfold connected. rewrite fold_left_app. cbn [fold_left]. rewrite fold_left_app. cbn [fold_left]. unfold rewire at 2 4. cbn [fst].
    rewrite (aside_slot i _ a s A more AS); [reflexivity|]. intros u C. exact (above_more _ _ _ u a s A C).
Qed.

(** Something else connected for a while. *)
Theorem connected_back i h more id u v b slot r r' : only_builds i h -> described i h id <> None ->
  connected i h (hd_id v) (hd_id b) slot -> all_aside i (above i h id) more ->
  as_it_was i h (h ++ (CConnect i u b slot, r) :: more ++ [(CConnect i v b slot, r')]) id.
Proof.
  intros OB D CV AS a A. pose proof (above_described i h id OB D a A) as DA. split.
  - replace (h ++ (CConnect i u b slot, r) :: more ++ [(CConnect i v b slot, r')])%list with (((h ++ [(CConnect i u b slot, r)]) ++ more) ++ [(CConnect i v b slot, r')])%list by (now rewrite <- !app_assoc).
    assert (DA' : described i (h ++ [(CConnect i u b slot, r)]) a = described i h a) by (rewrite described_app; reflexivity).
    rewrite described_app. unfold describe. cbn [fst]. rewrite (aside_described i _ a A more AS); rewrite DA'; [|exact DA].
    destruct (described i h a) as [n|]; [|now contradiction DA]. exists n, n. auto.
  - intros src s. unfold connected. rewrite fold_left_app. cbn [fold_left]. rewrite fold_left_app. cbn [fold_left]. unfold rewire at 2 4. cbn [fst].
    rewrite Nat.eqb_refl. cbn [andb]. destruct (Z.eqb_spec (hd_id b) a) as [EB|]; cbn [andb].
    + destruct (Z.eqb_spec slot s) as [<-|].
      * rewrite EB in CV. unfold connected in CV. rewrite CV. reflexivity.
      * rewrite (aside_slot i _ a s A more AS); [reflexivity|]. intros c C. exact (above_more _ _ _ c a s A C).
    + rewrite (aside_slot i _ a s A more AS); [reflexivity|]. intros c C. exact (above_more _ _ _ c a s A C).
Qed.

Theorem as_it_was_steps i h1 h2 h3 id : as_it_was i h1 h2 id -> as_it_was i h2 h3 id -> as_it_was i h1 h3 id.
Proof.
  intros W1 W2 a A. destruct (W1 a A) as ((n & m & DN & DM & T & R) & C). apply (as_above _ _ _ _ W1) in A. destruct (W2 a A) as ((m' & k & DM' & DK & T' & R') & C').
  rewrite DM in DM'. injection DM' as <-. split; [|intros src s; rewrite C; apply C']. exists n, k. split; [exact DN|]. split; [exact DK|]. split; [congruence|]. intros q name. now rewrite R.
Qed.

From Coq Require Import Floats.SpecFloat.
From Verif Require Import Machine Loops FloatModel ConfigModel LookupModel LookupSpec.

Lemma split_nonempty : forall s, split_paths s <> [].
Proof.
  induction s as [|c r IH]; cbn [split_paths]; [discriminate|].
  destruct (c =? colon); [discriminate|]. destruct (split_paths r); discriminate.
Qed.

Lemma split_clean : forall d, ~ In 58 d -> split_paths d = [d].
Proof.
  induction d as [|c r IH]; intros H; cbn [split_paths]; [reflexivity|].
  destruct (Z.eqb_spec c colon) as [->|_]; [exfalso; apply H; left; reflexivity|].
  rewrite IH; [reflexivity|]. intros K; apply H; right; exact K.
Qed.

Lemma split_cons : forall d s, ~ In 58 d -> split_paths (d ++ 58 :: s) = d :: split_paths s.
Proof.
  induction d as [|c r IH]; intros s H; cbn [app split_paths]; [reflexivity|].
  destruct (Z.eqb_spec c colon) as [->|_]; [exfalso; apply H; left; reflexivity|].
  rewrite IH; [reflexivity|]. intros K; apply H; right; exact K.
Qed.

Lemma split_joined : forall dirs, search_path dirs -> split_paths (joined dirs) = dirs.
Proof.
  induction dirs as [|d ds IH]; intros (NE & H); [contradiction|].
  destruct ds as [|d' ds'].
  - cbn [joined]. apply split_clean, H. left; reflexivity.
  - change (joined (d :: d' :: ds')) with (d ++ 58 :: joined (d' :: ds')).
    rewrite split_cons by (apply H; left; reflexivity).
    rewrite IH; [reflexivity|]. split; [discriminate|]. intros x K; apply H; right; exact K.
Qed.

Lemma joined_split : forall s, joined (split_paths s) = s /\ search_path (split_paths s).
Proof.
  induction s as [|c r (IH & NE & IN)]; cbn [split_paths].
  - split; [reflexivity|]. split; [discriminate|]. intros d [<-|[]] [].
  - destruct (Z.eqb_spec c colon) as [->|NC].
    + split.
      * destruct (split_paths r) as [|d ds] eqn:E; [contradiction|].
        change (colon :: joined (d :: ds) = colon :: r). rewrite IH. reflexivity.
      * split; [discriminate|]. intros d [<-|K]; [intros []|apply IN, K].
    + destruct (split_paths r) as [|d ds] eqn:E; [contradiction|]. split.
      * rewrite <- IH. destruct ds; reflexivity.
      * split; [discriminate|]. intros x [<-|K].
        -- intros [H|H]; [apply NC; exact H|]. apply (IN d); [left; reflexivity|exact H].
        -- apply IN. right; exact K.
Qed.

Lemma push_inside : forall d name, ~ absolute name -> inside d name (push d name).
Proof.
  intros d name NA. unfold push, inside.
  assert (forall l r, rev d = l :: r -> d = rev r ++ [l]) as RV.
  { intros l r E. rewrite <- (rev_involutive d), E. reflexivity. }
  assert (rev d = [] -> d = []) as RN.
  { intros E. rewrite <- (rev_involutive d), E. reflexivity. }
  assert (forall l r, rev d = l :: r -> l <> slash ->
    d <> [] /\ (forall e, d <> e ++ [47])) as NS.
  { intros l r E NL. rewrite (RV _ _ E). split; [destruct (rev r); discriminate|].
    intros e K. apply app_inj_tail in K. destruct K as (_ & K). apply NL, K. }
  destruct name as [|c n].
  - destruct (rev d) as [|l r] eqn:E; [left; split; [apply RN; reflexivity|reflexivity]|].
    destruct (Z.eqb_spec l slash) as [->|NL].
    + right; left. exists (rev r). rewrite app_nil_r. split; [apply RV; reflexivity|reflexivity].
    + right; right. destruct (NS l r eq_refl NL) as (A & B). repeat split; assumption.
  - destruct (Z.eqb_spec c slash) as [->|_]; [exfalso; apply NA; exists n; reflexivity|].
    destruct (rev d) as [|l r] eqn:E; [left; split; [apply RN; reflexivity|reflexivity]|].
    destruct (Z.eqb_spec l slash) as [->|NL].
    + right; left. exists (rev r). split; [apply RV; reflexivity|reflexivity].
    + right; right. destruct (NS l r eq_refl NL) as (A & B). repeat split; assumption.
Qed.

Lemma inside_fun : forall d name p q, inside d name p -> inside d name q -> p = q.
Proof.
  intros d name p q [(E & ->)|[(e & E & ->)|(NE & NS & ->)]] [(F & ->)|[(f & F & ->)|(NF & NT & ->)]];
    try reflexivity; subst.
  - destruct f; discriminate F.
  - contradiction.
  - destruct e; discriminate.
  - exfalso; apply (NT e); reflexivity.
  - contradiction.
  - exfalso; apply (NS f); reflexivity.
Qed.

Lemma push_absolute : forall d name, absolute name -> push d name = name.
Proof. intros d name (r & ->). reflexivity. Qed.

Definition usable (A : surroundings) (p : list Z) : Prop := ar_is_file A p = true /\ ar_utf8 A p = true.

Lemma search_none : forall A name dirs,
  (forall d, In d dirs -> ~ usable A (push d name)) -> search A name dirs = [].
Proof.
  induction dirs as [|d ds IH]; intros H; cbn [search]; [reflexivity|].
  assert (search A name ds = []) as R by (apply IH; intros x K; apply H; right; exact K).
  pose proof (H d (or_introl eq_refl)) as N. unfold usable in N.
  destruct (ar_is_file A (push d name)); [|exact R].
  destruct (ar_utf8 A (push d name)); [exfalso; apply N; split; reflexivity|exact R].
Qed.

Lemma search_first : forall A name before d after,
  (forall x, In x before -> ~ usable A (push x name)) -> usable A (push d name) ->
  search A name (before ++ d :: after) = push d name.
Proof.
  induction before as [|b bs IH]; intros d after H (F & U); cbn [app search].
  - rewrite F, U. reflexivity.
  - assert (search A name (bs ++ d :: after) = push d name) as R
      by (apply IH; [intros x K; apply H; right; exact K|split; assumption]).
    pose proof (H b (or_introl eq_refl)) as N. unfold usable in N.
    destruct (ar_is_file A (push b name)); [|exact R].
    destruct (ar_utf8 A (push b name)); [exfalso; apply N; split; reflexivity|exact R].
Qed.

Definition loaded (A : surroundings) (path : list Z) : Res config :=
  match ar_contents A path with
  | Some text => match ar_parse A text with Some c => Ok c | None => Panic end
  | None => Panic
  end.

Lemma get_loaded : forall A name path,
  path <> [] -> get_config_path A name = path -> get_config A name = loaded A path.
Proof.
  intros A name path NE E. unfold get_config, loaded, load_config. rewrite E.
  destruct path; [contradiction|]. destruct (ar_contents A _); reflexivity.
Qed.

Lemma inside_nonempty : forall d name p, name <> [] -> inside d name p -> p <> [].
Proof.
  intros d name p N [(_ & ->)|[(e & _ & ->)|(_ & _ & ->)]]; [exact N| |];
    destruct d; try discriminate; cbn [app]; exact N.
Qed.

Section Claims.
Variable A : surroundings.
Variable name : list Z.
Hypothesis relative : ~ absolute name.
Hypothesis named : name <> [].

Lemma not_usable : forall d,
  (forall p, inside d name p -> ar_is_file A p = false \/ ar_utf8 A p = false) ->
  ~ usable A (push d name).
Proof.
  intros d H (F & U). destruct (H _ (push_inside d name relative)); congruence.
Qed.

Lemma first_found : forall before d after path,
  search_path (before ++ d :: after) -> ar_var A = Some (joined (before ++ d :: after)) ->
  (forall x p, In x before -> inside x name p -> ar_is_file A p = false \/ ar_utf8 A p = false) ->
  inside d name path -> ar_is_file A path = true -> ar_utf8 A path = true ->
  get_config A name = loaded A path.
Proof.
  intros before d after path SP V H I F U.
  assert (path = push d name) as -> by (apply (inside_fun d name); [exact I|apply push_inside, relative]).
  apply get_loaded; [apply (inside_nonempty d name _ named I)|].
  unfold get_config_path. rewrite V, split_joined by exact SP.
  apply search_first; [|split; assumption].
  intros x K. apply not_usable. intros p J. apply (H x p K J).
Qed.

Lemma nothing_found : forall dirs,
  search_path dirs -> ar_var A = Some (joined dirs) ->
  (forall x p, In x dirs -> inside x name p -> ar_is_file A p = false \/ ar_utf8 A p = false) ->
  get_config A name = Ok config_default.
Proof.
  intros dirs SP V H. unfold get_config, get_config_path.
  rewrite V, split_joined by exact SP. rewrite search_none; [reflexivity|].
  intros x K. apply not_usable. intros p J. apply (H x p K J).
Qed.
End Claims.

Lemma no_variable : forall A name, ar_var A = None -> get_config A name = Ok config_default.
Proof. intros A name V. unfold get_config, get_config_path. rewrite V. reflexivity. Qed.

Lemma absolute_name : forall A name v,
  absolute name -> ar_var A = Some v -> ar_is_file A name = true -> ar_utf8 A name = true ->
  get_config A name = loaded A name.
Proof.
  intros A name v AB V F U. apply get_loaded; [destruct AB as (r & ->); discriminate|].
  unfold get_config_path. rewrite V.
  destruct (split_paths v) as [|d ds] eqn:E; [exfalso; apply (split_nonempty v E)|].
  rewrite <- (push_absolute d name AB) at 2.
  apply (search_first A name [] d ds); [intros ? []|].
  split; rewrite push_absolute; assumption.
Qed.

Lemma every_variable : forall v, exists dirs, search_path dirs /\ v = joined dirs.
Proof.
  intros v. exists (split_paths v). destruct (joined_split v) as (E & S). split; [exact S|symmetry; exact E].
Qed.

Lemma unique_variable : forall ds es,
  search_path ds -> search_path es -> joined ds = joined es -> ds = es.
Proof.
  intros ds es D E J. rewrite <- (split_joined ds D), <- (split_joined es E), J. reflexivity.
Qed.

Lemma search_path_unique : forall v, exists dirs, search_path dirs /\ v = joined dirs /\
  forall es, search_path es -> v = joined es -> es = dirs.
Proof.
  intros v. destruct (every_variable v) as (ds & S & E). exists ds. split; [exact S|]. split; [exact E|].
  intros es S' E'. apply unique_variable; [exact S'|exact S|congruence].
Qed.

Lemma defaults : forall A name,
  ar_var A = None \/
  (~ absolute name /\ exists dirs, search_path dirs /\ ar_var A = Some (joined dirs) /\
    forall x p, In x dirs -> inside x name p -> ar_is_file A p = false \/ ar_utf8 A p = false) ->
  get_config A name = Ok config_default.
Proof.
  intros A name [V|(R & dirs & S & V & K)]; [apply no_variable, V|].
  exact (nothing_found A name R dirs S V K).
Qed.

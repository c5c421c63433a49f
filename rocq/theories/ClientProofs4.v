(** Lookup tables asked for by clients. *)
From Coq Require Import String Floats.SpecFloat.
From Verif Require Import Machine BBoxModel PixelModel CacheModel AttrModel HashModel StreamModel GraphModel GraphSpec GraphSim NodeModel LutModel LutSpec LutHistory LutProofs LutProofs2
  FrameModel SoundSpec ClientModel ClientSpec ClientSpec2 ClientSpec4 ClientProofs ClientProofs2 ClientProofs3.

Section Tables.
Context {D : Type}.
Variable p : profile.
Variable x : externals D.
Variable E : setting D.
Variable srt : edge_sort.
Notation ops := (node_ops p x).
Notation histories := (LutHistory.history p x (SoundSpec.used E)).

Definition extends (a b : world D * list (node * spec_float * list stream)) : Prop :=
  exists more, snd b = (snd a ++ more)%list /\ (Forall (tame p x E) more -> histories (w_cache (fst a)) -> histories (w_cache (fst b))).

Lemma looking_up c k c' v : histories c -> get c k = (c', v) -> histories c'.
Proof.
  intros H G. refine (h_other p x _ c (Get k) c' (OGet v) H _ _); [intros; discriminate|]. cbn [step]. now rewrite G.
Qed.

Lemma computing n fr mode ins o a n' st s b : n_compute (recording ops) n fr mode ins o a = Ok (n', st, s, b) -> extends a b.
Proof.
  destruct a as (w, l). cbn [recording n_compute node_ops fst snd]. unfold node_compute.
  destruct (cache_hash _ _ _ _ _ _ _) as [h|] eqn:K; [|discriminate]. cbn [bind].
  destruct (compute_op _ _ _ _ _ _ _ _ _ _) as [[[st1 s1] w1]|] eqn:C; [|discriminate]. cbn [bind].
  intros [= _ _ _ <-]. exists [(n, fr, ins)]. split; [reflexivity|]. cbn [fst].
  intros T H. inversion T as [|? ? T1 _]; subst. destruct T1 as (_ & (by_ & KB & IU) & _).
  unfold cache_hash in K. rewrite KB in K. cbn [bind] in K. injection K as <-.
  destruct (op_touched _ _ _ _ _ _ _ _ _ _ _ _ _ C) as [Q|[(v & G)|(c & img & G & I)]].
  - now rewrite Q.
  - exact (looking_up _ _ _ _ H G).
  - exact (h_node p x _ c _ _ _ _ by_ img _ (looking_up _ _ _ _ H G) KB IU I).
Qed.

Lemma executing_history fuel g id frames w g' w' log st :
  execute (recording ops) srt fuel g id frames (w, []) = Some (Ok (g', (w', log), st)) -> Forall (tame p x E) log ->
  histories (w_cache w) -> histories (w_cache w').
Proof.
  intros X T. assert (R : extends (w, []) (w', log)).
  { refine (execute_related (recording ops) srt extends _ _ _ fuel g id frames (w, []) g' (w', log) st X).
    - intros c. exists []. split; [now rewrite app_nil_r|easy].
    - intros a b c (m1 & E1 & H1) (m2 & E2 & H2). exists (m1 ++ m2)%list. split; [rewrite E2, E1; now rewrite app_assoc|].
      intros F H. apply Forall_app in F. destruct F as (F1 & F2). auto.
    - exact computing. }
  destruct R as (more & Q & H). cbn [snd app] in Q. subst more. exact (H T).
Qed.

Theorem client_tables h cl : tame_past p x E srt h cl -> forall k, exists c, cl_caches cl k = Some c /\ histories c.
Proof.
  intro H. induction H as [d DO|h cl fuel call cl' r H IH T HC|h cl d H IH DO]; intro k0; [|..|exact (IH k0)].
  - eexists. split; [reflexivity|]. constructor.
  - assert (PUT : forall c' k, histories c' -> exists c, put (cl_caches cl) k (Some c') k0 = Some c /\ histories c).
    { intros c' k S'. destruct (Nat.eq_dec k0 k) as [->|NE]; [exists c'; split; [apply put_eq|exact S']|].
      destruct (IH k0) as (c & C & S). exists c. split; [rewrite put_other; assumption|exact S]. }
    assert (EX : forall i n fs k, tame_execution p x E srt cl fuel i n fs k -> execute_call p x srt fuel cl i n fs k = Some (Ok (cl', r)) ->
      exists c', cl_caches cl' k0 = Some c' /\ histories c').
    { intros i n fs k TE HX. destruct (IH k) as (c & C & S). unfold execute_call in HX. rewrite C in HX.
      destruct (execute ops srt fuel (cl_graphs cl i) (hd_id n) fs (World c (cl_disk cl))) as [[[[g w] st]|]|] eqn:EE; try discriminate HX.
      injection HX as <- _. destruct (recording_complete _ _ _ _ _ _ _ [] _ _ _ EE) as (log & RE).
      cbn [cl_caches]. apply PUT. exact (executing_history _ _ _ _ _ _ _ _ _ RE (TE c _ _ _ _ C RE) S). }
    assert (TB : forall k q, tame_request p x E q -> table_call cl k (LutHistory.call p x q) = Some (Ok (cl', r)) ->
      exists c', cl_caches cl' k0 = Some c' /\ histories c').
    { intros k q (TO & TU) HX. destruct (IH k) as (c & C & S). apply table_ok in HX. destruct HX as (c0 & (img, c1) & C0 & F & HX). rewrite C in C0. injection C0 as <-.
      injection HX as -> _. cbn [cl_caches snd]. apply PUT. exact (h_request p x _ c q img c1 S TO TU F). }
    destruct call; cbn [client_call tame_call] in HC, T;
      try exact (TB _ (RTransform _ _ _) T HC); try exact (TB _ (ROps _ _ _) T HC);
      try (injection HC as <- _; exact (IH k0));
      try (unfold of_cache in HC; destruct (cl_caches cl k) as [c0|]; [|discriminate HC]; injection HC as <- _; exact (IH k0)).
    all: try (exact (EX _ _ _ _ T HC)).
    all: try (destruct (cl_caches cl k) as [c0|] eqn:CK; [|discriminate HC]).
    all: apply gives_ok in HC; destruct HC as (a & EA & HC); injection HC as -> _.
    all: try exact (IH k0).
    cbn [cl_caches]. apply PUT. destruct (IH k) as (c & C & S). rewrite C in CK. injection CK as <-.
    refine (h_other p x _ c (SetCapacity value) a _ S _ _); [intros; discriminate|]. cbn [step]. now rewrite EA.
Qed.

Hypothesis NC : no_collisions (x_digest x) (SoundSpec.used E).
Hypothesis DU : digest_u64 (x_digest x).

Theorem table_wanted h cl fuel call q cl' r : tame_past p x E srt h cl -> asks call q -> tame_call p x E srt cl fuel call ->
  client_call p x srt fuel cl call = Some (Ok (cl', r)) -> exists img, r = RTable img /\ wanted p x q = Ok img.
Proof.
  intros H A T HC.
  assert (TB : forall k, tame_request p x E q -> table_call cl k (LutHistory.call p x q) = Some (Ok (cl', r)) ->
    exists img, r = RTable img /\ wanted p x q = Ok img).
  { intros k (TO & TU) HX. destruct (client_tables _ _ H k) as (c & C & HI). apply table_ok in HX. destruct HX as (c0 & (img, c1) & C0 & F & HX). rewrite C in C0. injection C0 as <-.
    injection HX as _ ->. exists img. split; [reflexivity|]. exact (call_correct p x _ NC DU c q img c1 HI TO TU F). }
  destruct call; try contradiction A; cbn [asks] in A; subst q; cbn [client_call tame_call] in HC, T; exact (TB _ T HC).
Qed.

(** Every answer recorded in the past of the client. *)
Theorem tables_of_past h cl call q r : tame_past p x E srt h cl -> In (call, r) h -> asks call q ->
  exists img, r = RTable img /\ wanted p x q = Ok img.
Proof.
  intros H I A. induction H as [d DO|h cl fuel call' cl' r' H IH T HC|h cl d H IH DO]; [destruct I|..|exact (IH I)].
  apply in_app_iff in I. destruct I as [I|[I|[]]]; [exact (IH I)|]. injection I as -> ->. exact (table_wanted _ _ _ _ _ _ _ H A T HC).
Qed.

Theorem tables_repeat h cl c1 c2 q r1 r2 : tame_past p x E srt h cl -> In (c1, r1) h -> In (c2, r2) h -> asks c1 q -> asks c2 q -> r1 = r2.
Proof.
  intros H I1 I2 A1 A2. destruct (tables_of_past _ _ _ _ _ H I1 A1) as (i1 & -> & W1). destruct (tables_of_past _ _ _ _ _ H I2 A2) as (i2 & -> & W2).
  rewrite W1 in W2. now injection W2 as <-.
Qed.

Theorem client_identity h cl cs n k r : 2 <= n < 413 -> tame_past p x E srt h cl -> In (CTransformTable cs cs n k, r) h ->
  exists img, r = RTable img /\ pb_size (sh_block img) = BS (n * n) n 3 /\ sp_color_space (sh_spec img) = cs /\ identity_cube img n.
Proof.
  intros N H I. destruct (tables_of_past _ _ _ (RTransform cs cs n) _ H I eq_refl) as (img & -> & W). exists img. split; [reflexivity|].
  destruct (identity_cube_ok p x n cs) as (img' & hh & G & S & _ & _ & C & _ & HH & ID & _); [lia|].
  cbn [wanted] in W. rewrite W in G. injection G as <-. rewrite (HH ltac:(lia)) in *. auto.
Qed.
End Tables.

(** More byte strings may be told apart than are. *)
Section Wider.
Context {D : Type}.
Variable p : profile.
Variable x : externals D.
Variable srt : edge_sort.
Variables (u u' : list (list Z)) (so : list Z -> bool) (d0 : D) (dir : Z).
Hypothesis WI : forall l, In l u -> In l u'.
Notation E1 := (Setting u so d0 dir).
Notation E2 := (Setting u' so d0 dir).
Lemma tame_wider q : tame p x E1 q -> tame p x E2 q.
Proof. destruct q as ((n, fr), ins). intros (A & (l & B & C) & G). split; [exact A|]. split; [exists l; split; [exact B|exact (WI _ C)]|exact G]. Qed.
Lemma call_wider cl fuel call : tame_call p x E1 srt cl fuel call -> tame_call p x E2 srt cl fuel call.
Proof.
  intro T. assert (TE : forall i n fs k, tame_execution p x E1 srt cl fuel i n fs k -> tame_execution p x E2 srt cl fuel i n fs k).
  { intros i n fs k T0 c g' w' log st C X. refine (Forall_impl _ tame_wider (T0 c g' w' log st C X)). }
  destruct call; cbn [tame_call] in T |- *; try exact T; auto.
  - destruct T as (O & U). split; [exact O|]. intros l L. exact (WI _ (U l L)).
  - destruct T as (O & U). split; [exact O|]. intros l L. exact (WI _ (U l L)).
Qed.
Lemma past_wider h cl : tame_past p x E1 srt h cl -> tame_past p x E2 srt h cl.
Proof.
  intro H. induction H as [d DO|h cl fuel call cl' r H IH T HC|h cl d H IH DO]; [now constructor|..|now constructor].
  exact (tp_call p x E2 srt h cl fuel call cl' r IH (call_wider _ _ _ T) HC).
Qed.
End Wider.

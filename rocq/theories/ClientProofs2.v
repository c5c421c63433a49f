(** A client that keeps to the circumstances of a session is a session. *)
From Coq Require Import String Floats.SpecFloat.
From Verif Require Import Machine CacheModel AttrModel AttrProofs StreamModel GraphModel GraphSpec GraphSim NodeModel LutModel LutHistory FrameModel SoundSpec
  ClientModel ClientSpec ClientSpec2 ClientProofs.

Section Client.
Context {D : Type}.
Variable p : profile.
Variable x : externals D.
Variable E : setting D.
Variable srt : edge_sort.
Notation ops := (node_ops p x).

Lemma tame_is_past h cl : tame_past p x E srt h cl -> past p x srt h cl.
Proof. intro H. induction H; econstructor; eassumption. Qed.

(** Calls that do not execute are the same for the recording operations. *)
Lemma calls_recording g w gc g' w' : calls ops srt g w gc g' w' -> match gc with GExecute _ _ => False | _ => True end ->
  forall w0, calls (recording ops) srt g (w0, []) gc g' (w0, []).
Proof. destruct gc; cbn [calls]; intros H NX v0; try contradiction NX; destruct H as (_ & H); (split; [reflexivity|exact H]). Qed.

Lemma extend G G' c d i gc g' w : session p x E srt G (World c d) -> calls ops srt (G i) w gc g' w ->
  match gc with GExecute _ _ => False | _ => True end -> G' i = g' -> (forall j, j <> i -> G' j = G j) -> session p x E srt G' (World c d).
Proof.
  intros S H NX EI EO. refine (ss_call p x E srt G (World c d) i gc g' (World c d) [] G' S _ (Forall_nil _) EI EO).
  exact (calls_recording _ _ _ _ _ H NX _).
Qed.

Theorem client_session h cl : tame_past p x E srt h cl ->
  forall k, exists c, cl_caches cl k = Some c /\ session p x E srt (cl_graphs cl) (World c (cl_disk cl)).
Proof.
  intro H. induction H as [d DO|h cl fuel call cl' r H IH T HC|h cl d H IH DO]; intro k0.
  - eexists. split; [reflexivity|]. exact (ss_start p x E srt 0 d DO).
  - assert (AT : forall i gc g', (forall w, calls ops srt (cl_graphs cl i) w gc g' w) ->
      match gc with GExecute _ _ => False | _ => True end ->
      exists c', cl_caches (with_graph_at cl i g') k0 = Some c' /\ session p x E srt (cl_graphs (with_graph_at cl i g')) (World c' (cl_disk (with_graph_at cl i g')))).
    { intros i gc g' HG NX. destruct (IH k0) as (c & C & S). exists c. split; [exact C|]. cbn [with_graph_at cl_graphs cl_disk].
      apply (extend _ _ _ _ i gc g' _ S (HG (World c (cl_disk cl))) NX); [apply put_eq|intros j J; now apply put_other]. }
    (* the cache used, and another one *)
    assert (PUT : forall G c' d' k, session p x E srt G (World c' d') ->
      exists c, put (cl_caches cl) k (Some c') k0 = Some c /\ session p x E srt G (World c d')).
    { intros G c' d' k S'. destruct (Nat.eq_dec k0 k) as [->|NE]; [exists c'; split; [apply put_eq|exact S']|].
      destruct (IH k0) as (c & C & S). exists c. split; [rewrite put_other; assumption|]. exact (ss_swap p x E srt _ _ _ _ _ _ S' S). }
    assert (EX : forall i n fs k, tame_execution p x E srt cl fuel i n fs k -> execute_call p x srt fuel cl i n fs k = Some (Ok (cl', r)) ->
      exists c', cl_caches cl' k0 = Some c' /\ session p x E srt (cl_graphs cl') (World c' (cl_disk cl'))).
    { intros i n fs k TE HX. destruct (IH k) as (c & C & S). unfold execute_call in HX. rewrite C in HX.
      destruct (execute ops srt fuel (cl_graphs cl i) (hd_id n) fs (World c (cl_disk cl))) as [[[[g w] st]|]|] eqn:EE; try discriminate HX.
      injection HX as <- _. destruct (recording_complete _ _ _ _ _ _ _ [] _ _ _ EE) as (log & RE).
      cbn [cl_graphs cl_disk cl_caches]. apply PUT.
      assert (W : World (w_cache w) (w_disk w) = w) by now destruct w. rewrite W.
      refine (ss_call p x E srt (cl_graphs cl) (World c (cl_disk cl)) i (GExecute (hd_id n) fs) g w log _ S _ (TE c _ _ _ _ C RE) (put_eq _ _ _) (fun j J => put_other _ _ _ _ J)).
      exists fuel, st. exact RE. }
    assert (TB : forall k q, tame_request p x E q -> table_call cl k (LutHistory.call p x q) = Some (Ok (cl', r)) ->
      exists c', cl_caches cl' k0 = Some c' /\ session p x E srt (cl_graphs cl') (World c' (cl_disk cl'))).
    { intros k q (_ & TU) HX. destruct (IH k) as (c & C & S). apply table_ok in HX. destruct HX as (c0 & (img, c1) & C0 & F & HX). rewrite C in C0. injection C0 as <-.
      injection HX as -> _. cbn [cl_graphs cl_disk cl_caches snd]. apply PUT.
      exact (ss_table p x E srt _ c _ q img c1 S TU F). }
    destruct call; cbn [client_call tame_call] in HC, T;
      try exact (TB _ (RTransform _ _ _) T HC); try exact (TB _ (ROps _ _ _) T HC);
      try (injection HC as <- _; exact (IH k0));
      try (unfold of_cache in HC; destruct (cl_caches cl k) as [c0|]; [|discriminate HC]; injection HC as <- _; exact (IH k0)).
    all: try (exact (EX _ _ _ _ T HC)).
    all: try (destruct (cl_caches cl k) as [c0|] eqn:CK; [|discriminate HC]).
    all: apply gives_ok in HC; destruct HC as (a & EA & HC); injection HC as -> _.
    all: try exact (IH k0).
    + destruct a as [g nd]. apply (AT i (GAdd (create_node t (creation_id how))) g); [|exact I]. split; [reflexivity|]. exists nd. exact EA.
    + injection EA as <-. apply (AT i (GRemove (hd_id n)) _); [|exact I]. split; reflexivity.
    + apply (AT i (GWrite (hd_id n) w) a); [|exact I]. split; [reflexivity|exact EA].
    + apply (AT i (GConnect (hd_id src) (hd_id dst) slot) a); [|exact I]. split; [reflexivity|exact EA].
    + injection EA as <-. apply (AT i (GDisconnect (hd_id dst) slot) _); [|exact I]. split; reflexivity.
    + cbn [cl_graphs cl_disk cl_caches]. apply PUT. destruct (IH k) as (c & C & S). rewrite C in CK. injection CK as <-.
      refine (ss_cache p x E srt _ c _ (SetCapacity value) a _ S _ _); [intros; discriminate|]. cbn [step]. now rewrite EA.
  - destruct (IH k0) as (c & C & S). exists c. split; [exact C|]. cbn [cl_graphs cl_disk]. exact (ss_disk p x E srt _ c (cl_disk cl) d S DO).
Qed.
End Client.

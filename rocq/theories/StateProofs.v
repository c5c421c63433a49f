(** Proofs: what streams and nodes say about themselves. *)
From Coq Require String.
Import String.StringSyntax.
From Coq Require Import Floats.SpecFloat.
From Verif Require Import Machine Loops CacheModel FloatModel BBoxModel PixelModel PathModel EnumModel AttrModel HashModel StreamModel DeformModel BakeModel
  GraphModel GraphSpec GraphWalk GraphExec GraphHistory GraphHistory2 GraphFacts NodeModel AttrProofs ChainSpec ChainProofs StateSpec.
Local Open Scope string_scope.

Section Generic.
Context {N St Ca F W : Type}.
Variable ops : nodeops N St Ca F W.
Variable srt : edge_sort.

(** What holds of every stream a node makes of such streams. *)
Section Streams.
Variable I : St -> Prop.
Hypothesis HI : forall n fr mode ins out c n' st v c', n_compute ops n fr mode ins out c = Ok (n', st, v, c') ->
  Forall I ins -> I out -> I v.

Lemma lookup_all_in (m : list (nat * St)) : (forall q, In q m -> I (snd q)) -> forall is l, lookup_all is m = Ok l -> Forall I l.
Proof.
  intros H. assert (L : forall i v, lookup i m = Some v -> I v).
  { intros i v. induction m as [|(j, u) m IH]; [discriminate|]. cbn [lookup]. destruct (Nat.eqb _ _).
    - intros [= <-]. apply (H (j, u)). now left.
    - apply IH. intros q Hq. apply H. now right. }
  induction is as [|i is IH]; intros l E; cbn [lookup_all] in E; [injection E as <-; constructor|].
  destruct (lookup i m) as [v|] eqn:V; [|discriminate]. cbn [bind] in E.
  destruct (lookup_all is m) as [l'|] eqn:A; [|discriminate]. cbn [bind] in E. injection E as <-. constructor; eauto.
Qed.

Lemma phase_inv fr t : forall (g : graph N St) c sc g' c' e, I (g_output g) -> (forall q, In q sc -> I (snd q)) ->
  compute_phase ops srt g fr t c sc = Ok (g', c', e) -> I (g_output g').
Proof.
  induction t as [|(i, mode) t IH]; intros g c sc g' c' e O S H; cbn [compute_phase] in H; [injection H as <- _ _; exact O|].
  unfold input_streams in H. destruct (direct_upstream srt (g_graph g) i) as [ms|]; [|discriminate]. cbn [bind] in H.
  destruct (lookup_all ms sc) as [vs|] eqn:L; [|discriminate]. cbn [bind] in H.
  pose proof (lookup_all_in _ S _ _ L) as V. unfold compute_node_output in H.
  destruct (get_node g i) as [n|]; [|discriminate]. cbn [bind] in H.
  destruct (n_compute ops n fr mode vs (g_output g) c) as [(((n', st), v), c2)|] eqn:C; [|discriminate]. cbn [bind] in H.
  pose proof (HI _ _ _ _ _ _ _ _ _ _ C V O) as X.
  assert (S' : forall q, In q ((i, v) :: sc) -> I (snd q)) by (intros q [<-|Hq]; [exact X|now apply S]).
  destruct st; cbn [bind] in H; try (injection H as <- _ _; exact X); refine (IH _ _ _ _ _ _ _ S' H); exact X.
Qed.

Lemma execute_inv fuel (g : graph N St) id frames c g' c' st : I (g_output g) ->
  execute ops srt fuel g id frames c = Some (Ok (g', c', st)) -> I (g_output g').
Proof.
  intros O H. unfold execute in H. destruct (find_index g id) as [start|]; [|injection H as <- _ _; exact O].
  destruct (all_upstream srt (g_graph g) start) as [nds|]; [|discriminate].
  assert (K : forall fs (g : graph N St) c g' c' e, I (g_output g) ->
    execute_frames ops srt fuel g (map fst nds) fs c = Some (Ok (g', c', e)) -> I (g_output g')).
  { clear H. intros fs. induction fs as [|fr fs IH]; intros h k h' k' e HO X; cbn [execute_frames] in X; [injection X as <- _ _; exact HO|].
    destruct (execute_frame ops srt fuel h (map fst nds) fr k) as [[((h1, k1), e1)|]|] eqn:XF; try discriminate.
    assert (O1 : I (g_output h1)).
    { unfold execute_frame in XF. destruct (hash_phase _ _ _ _ _ _) as [hc|]; [|discriminate]. destruct (map fst nds) as [|i0 r]; [discriminate|].
      destruct (validate_loop _ _ _ _ _ _ _) as [[l|]|]; try discriminate. injection XF as XF.
      refine (phase_inv _ _ _ _ _ _ _ _ HO _ XF). intros q []. }
    destruct e1; [injection X as <- _ _; exact O1|exact (IH _ _ _ _ _ O1 X)]. }
  destruct (execute_frames _ _ _ _ _ _ _) as [[((g1, c1), e)|]|] eqn:E; try discriminate.
  pose proof (K _ _ _ _ _ _ O E) as X. destruct e; injection H as <- _ _; exact X.
Qed.
End Streams.

(** What structural calls do to the nodes and to the output. *)
Lemma call_nodes (g : graph N St) c call g' c' : wf_graph ops g -> calls ops srt g c call g' c' ->
  match call with
  | GAdd n => g_nodes g' = g_nodes g ++ [n] /\ g_output g' = g_output g
  | GWrite id w => g_output g' = g_output g /\
      forall i n', nth_error (g_nodes g') i = Some n' -> exists n, nth_error (g_nodes g) i = Some n /\ (n' = n \/ n' = n_write ops n w)
  | GExecute _ _ => True
  | _ => g_nodes g' = g_nodes g /\ g_output g' = g_output g
  end.
Proof.
  intros WG H. pose proof (wg_stable _ _ WG) as WS. destruct call as [n|i|s t k|t k|i w|i fs]; cbn [calls] in H.
  - destruct H as (_ & i & H). unfold add_node in H. destruct (sg_add_node (g_graph g)).
    destruct (Nat.eqb _ _); [|discriminate]. injection H as <- _. auto.
  - destruct H as (_ & ->). unfold remove_node. destruct (find_index g i); [|auto].
    destruct (sg_remove_node _ _) as (sg & r). destruct r; auto.
  - destruct H as (_ & H). unfold connect in H.
    destruct (find_index g s) as [a|]; [|injection H as <-; auto].
    destruct (find_index g t) as [b|] eqn:Ft; [|injection H as <-; auto].
    destruct (disconnect_spec g t k b WS Ft) as (_ & O & _).
    destruct (sg_update_edge _ _ _ _); [|discriminate]. injection H as <-. split; apply O.
  - destruct H as (_ & ->). destruct (find_index g t) as [b|] eqn:Ft.
    + destruct (disconnect_spec g t k b WS Ft) as (_ & O & _). split; apply O.
    + unfold disconnect_input. rewrite Ft. auto.
  - destruct H as (_ & H). unfold write_node in H. destruct (find_index g i) as [j|]; [|injection H as <-; eauto].
    destruct (nth_error (g_nodes g) j) as [m|] eqn:E; [|discriminate]. injection H as <-. split; [reflexivity|].
    cbn [with_state with_nodes g_nodes]. intros i0 n' H. destruct (Nat.eq_dec i0 j) as [->|NE].
    + rewrite set_nth_same in H by (apply nth_error_Some; congruence). injection H as <-. eauto.
    + rewrite set_nth_other in H by congruence. eauto.
  - exact I.
Qed.

(** How executions change nodes. *)
Section Nodes.
Variable R : N -> N -> Prop.
Hypothesis R_refl : forall n, R n n.
Hypothesis R_trans : forall a b c, R a b -> R b c -> R a c.
Hypothesis HR : forall n fr mode ins out c n' st v c', n_compute ops n fr mode ins out c = Ok (n', st, v, c') -> R n n'.

Definition evolved (l l' : list N) : Prop := forall i n', nth_error l' i = Some n' -> exists n, nth_error l i = Some n /\ R n n'.
Lemma evolved_refl l : evolved l l.
Proof. intros i n' H. eauto. Qed.
Lemma evolved_trans a b c : evolved a b -> evolved b c -> evolved a c.
Proof. intros A B i n' H. destruct (B _ _ H) as (n1 & H1 & R1). destruct (A _ _ H1) as (n & H2 & R2). eauto. Qed.

Lemma phase_evolves fr t : forall (g : graph N St) c sc g' c' e,
  compute_phase ops srt g fr t c sc = Ok (g', c', e) -> evolved (g_nodes g) (g_nodes g').
Proof.
  induction t as [|(i, mode) t IH]; intros g c sc g' c' e H; cbn [compute_phase] in H; [injection H as <- _ _; apply evolved_refl|].
  destruct (input_streams srt g i sc) as [vs|]; [|discriminate]. cbn [bind] in H. unfold compute_node_output in H.
  destruct (get_node g i) as [n|] eqn:GN; [|discriminate]. cbn [bind] in H.
  destruct (n_compute ops n fr mode vs (g_output g) c) as [(((n', st), v), c2)|] eqn:C; [|discriminate]. cbn [bind] in H.
  assert (E : evolved (g_nodes g) (set_nth (g_nodes g) i n')).
  { intros j m H'. unfold get_node in GN. destruct (nth_error (g_nodes g) i) as [n0|] eqn:NE; [|discriminate]. injection GN as ->.
    destruct (Nat.eq_dec j i) as [->|D].
    - rewrite set_nth_same in H' by (apply nth_error_Some; congruence). injection H' as <-. eauto.
    - rewrite set_nth_other in H' by congruence. eauto. }
  destruct st; cbn [bind] in H; try (injection H as <- _ _; exact E); apply (evolved_trans _ _ _ E); apply (IH _ _ _ _ _ _ H).
Qed.

Lemma execute_evolves fuel (g : graph N St) id frames c g' c' st :
  execute ops srt fuel g id frames c = Some (Ok (g', c', st)) -> evolved (g_nodes g) (g_nodes g').
Proof.
  intros H. unfold execute in H. destruct (find_index g id) as [start|]; [|injection H as <- _ _; apply evolved_refl].
  destruct (all_upstream srt (g_graph g) start) as [nds|]; [|discriminate].
  assert (K : forall fs (g : graph N St) c g' c' e,
    execute_frames ops srt fuel g (map fst nds) fs c = Some (Ok (g', c', e)) -> evolved (g_nodes g) (g_nodes g')).
  { clear H. intros fs. induction fs as [|fr fs IH]; intros h k h' k' e X; cbn [execute_frames] in X; [injection X as <- _ _; apply evolved_refl|].
    destruct (execute_frame ops srt fuel h (map fst nds) fr k) as [[((h1, k1), e1)|]|] eqn:XF; try discriminate.
    assert (O1 : evolved (g_nodes h) (g_nodes h1)).
    { unfold execute_frame in XF. destruct (hash_phase _ _ _ _ _ _) as [hc|]; [|discriminate]. destruct (map fst nds) as [|i0 r]; [discriminate|].
      destruct (validate_loop _ _ _ _ _ _ _) as [[l|]|]; try discriminate. injection XF as XF. exact (phase_evolves _ _ _ _ _ _ _ _ XF). }
    destruct e1; [injection X as <- _ _; exact O1|exact (evolved_trans _ _ _ O1 (IH _ _ _ _ _ X))]. }
  destruct (execute_frames _ _ _ _ _ _ _) as [[((g1, c1), e)|]|] eqn:E; try discriminate.
  pose proof (K _ _ _ _ _ _ E) as X. destruct e; injection H as <- _ _; exact X.
Qed.
End Nodes.
End Generic.

Section Nodes.
Context {D : Type}.
Variable p : profile.
Variable x : externals D.
Variable srt : edge_sort.
Hypothesis HS : sorts srt.

Lemma process_state nx conv opt b disp data sp s from to ty r :
  do_process p nx conv opt b disp data sp s from to ty = Ok r -> st_state (bk_stream r) = st_state s.
Proof.
  unfold do_process.
  set (ty' := match ty with UnknownType => db_type (pb_data b) | _ => ty end). clearbody ty'. destruct opt; [| | | |discriminate].
  - intros [= <-]. reflexivity.
  - destruct (bake_colorspace conv b sp from to) as [(b1, sp1)|]; [|discriminate]. cbn [bind].
    destruct (pb_convert b1 ty'); [|discriminate]. cbn [bind]. intros [= <-]. reflexivity.
  - destruct (bake_colorspace conv b sp from linear_name) as [(b1, sp1)|]; [|discriminate]. cbn [bind].
    unfold bake_stream_colorgrade. destruct (bake_colorgrade nx b1 (st_matrix s) (st_ops s)) as [b2|]; [|discriminate]. cbn [bind].
    destruct (bake_colorspace conv b2 sp1 linear_name to) as [(b3, sp3)|]; [|discriminate]. cbn [bind].
    destruct (pb_convert b3 ty'); [|discriminate]. cbn [bind]. intros [= <-]. reflexivity.
  - destruct (bake_colorspace conv b sp from linear_name) as [(b1, sp1)|]; [|discriminate]. cbn [bind].
    unfold bake_stream_colorgrade. destruct (bake_colorgrade nx b1 (st_matrix s) (st_ops s)) as [b2|]; [|discriminate]. cbn [bind].
    destruct (deform_pixels nx p _ disp b2 data) as [(b3, d3)|]; [|discriminate]. cbn [bind].
    destruct (bake_colorspace conv b3 sp1 linear_name to) as [(b4, sp4)|]; [|discriminate]. cbn [bind].
    destruct (pb_convert b4 ty'); [|discriminate]. cbn [bind]. intros [= <-]. reflexivity.
Qed.

Lemma cached_makes {E} uc h (w : world D) (hit : E) make img e w' : cached p uc h w hit make = Ok (img, e, w') ->
  e = hit \/ make = Ok (img, e).
Proof.
  unfold cached. destruct uc.
  - destruct (get (w_cache w) h) as (c, [i|]); [intros [= _ <- _]; auto|].
    destruct make as [(i, e')|]; [|discriminate]. cbn [bind]. destruct (insert _ _ _ _ _); [|discriminate]. cbn [bind].
    intros [= <- <- _]. auto.
  - destruct make as [(i, e')|]; [|discriminate]. cbn [bind]. intros [= <- <- _]. auto.
Qed.

Lemma first_state ins : Forall (fun s => st_state s = SdInvalid) ins -> st_state (fst (first_input ins)) = SdInvalid.
Proof. intros [|s l H _]; [reflexivity|exact H]. Qed.

Lemma compute_state n fr mode ins out w n' st v w' : node_compute p x n fr mode ins out w = Ok (n', st, v, w') ->
  Forall (fun s => st_state s = SdInvalid) ins -> st_state out = SdInvalid -> st_state v = SdInvalid.
Proof.
  intros H FI O. apply node_compute_inv in H. destruct H as (h & _ & H & _). unfold compute_op in H.
  pose proof (first_state ins FI) as F1.
  assert (HD : forall s t, ins = s :: t -> st_state s = SdInvalid) by (intros s t ->; now inversion FI).
  destruct (nd_type n).
  - unfold null_compute in H. destruct ins as [|s t]; injection H as _ <- _; [reflexivity|eauto].
  - unfold read_compute in H. destruct (_ =? 0); [injection H as _ <- _; exact O|].
    destruct (_ =? 0); [injection H as _ <- _; reflexivity|].
    destruct (expand_string _ _ _) as [path|]; [|discriminate]. cbn [bind] in H. destruct (x_kind x _ path).
    + injection H as _ <- _. reflexivity.
    + destruct (cached _ _ _ _ _ _) as [((img, e), w1)|]; [|discriminate]. cbn [bind] in H. injection H as _ <- _. reflexivity.
    + destruct (_ =? 1); injection H as _ <- _; [exact O|reflexivity].
  - unfold write_compute in H. destruct (_ =? 0); [injection H as _ <- _; reflexivity|].
    destruct ins as [|s t]; [injection H as _ <- _; reflexivity|]. destruct (_ =? 0); [injection H as _ <- _; eauto|].
    destruct (write_process _ _ _ _ _ _) as [(d, ok)|]; [|discriminate]. cbn [bind] in H. injection H as _ <- _. eauto.
  - unfold grade_compute in H. destruct (first_input ins) as (s, st0). destruct (negb _); injection H as _ <- _; exact F1.
  - unfold lens_compute in H. destruct (first_input ins) as (s, st0). destruct (_ =? 1); [destruct (x_lens_ok _ _); [|discriminate]|]; injection H as _ <- _; exact F1.
  - unfold transform_compute in H. destruct (first_input ins) as (s, st0). injection H as _ <- _. destruct (_ =? 1); exact F1.
  - unfold merge_compute in H. destruct (negb _); [injection H as _ <- _; reflexivity|].
    destruct ins as [|s t]; [injection H as _ <- _; reflexivity|].
    destruct (match t with [] => _ | _ => _ end) as (sb, st0).
    destruct (cached _ _ _ _ _ _) as [((img, e), w1)|]; [|discriminate]. cbn [bind] in H. injection H as _ <- _. reflexivity.
  - unfold crop_compute in H. destruct ins as [|s t]; [injection H as _ <- _; reflexivity|]. pose proof (HD s t eq_refl) as SS.
    destruct (negb _); [injection H as _ <- _; exact SS|].
    destruct (cached _ _ _ _ _ _) as [((img, (s1, st1)), w1)|] eqn:C; [|discriminate]. cbn [bind] in H. injection H as _ <- _.
    change (st_state s1 = SdInvalid). apply cached_makes in C. destruct C as [C|C]; [injection C as -> _; exact SS|].
    unfold crop_process in C. destruct (do_process _ _ _ _ _ _ _ _ _ _ _ _) as [r|] eqn:P; [|discriminate]. cbn [bind] in C.
    destruct (crop_image_in_place _ _ _ _ _ _) as [im|]; [|discriminate]. cbn [bind] in C. injection C as _ <- _.
    now rewrite (process_state _ _ _ _ _ _ _ _ _ _ _ _ P).
  - unfold viewer_compute in H. destruct (negb _); [injection H as _ <- _; exact O|].
    destruct (first_input ins) as (s, st0). cbn [fst] in F1.
    assert (K : forall h (w : world D) v w', (let* (img, s, w) :=
        cached p (negb (gi TViewer (nd_attrs n) "use_cache" =? 0)) h w s
          (viewer_process p x s (viewer_bake (nd_attrs n)) (datatype_of (data_type_from (gi TViewer (nd_attrs n) "bake_pixel_data_type")))
             (negb (gi TViewer (nd_attrs n) "crop_to_format" =? 0)) (gs TViewer (nd_attrs n) "bake_color_space")) in
      let s := match viewer_bake (nd_attrs n) with BakeAll => clear_deformers s | _ => s end in
      Ok (NsValid, set_image_spec (set_pixel_block (set_hash (set_display_window
            (set_data_window s (sh_data img)) (sh_display img)) h) (sh_block img)) (sh_spec img), w)) = Ok (NsValid, v, w') ->
      st_state v = SdInvalid).
    { clear H. intros h0 w0 v0 w0' K. destruct (cached _ _ _ _ _ _) as [((img, s1), w1)|] eqn:C; [|discriminate]. cbn [bind] in K. injection K as <- _.
      assert (E : st_state s1 = SdInvalid).
      { apply cached_makes in C. destruct C as [-> |C]; [exact F1|]. unfold viewer_process in C.
        destruct (do_process _ _ _ _ _ _ _ _ _ _ _ _) as [r|] eqn:P; [|discriminate]. cbn [bind] in C.
        assert (st_state (bk_stream r) = SdInvalid) by (now rewrite (process_state _ _ _ _ _ _ _ _ _ _ _ _ P)).
        destruct (negb _); [destruct (crop_image_in_place _ _ _ _ _ _) as [im|]; [|discriminate]; cbn [bind] in C|]; injection C as _ <-; assumption. }
      destruct (viewer_bake _); exact E. }
    assert (ST : st = NsValid).
    { clear K. destruct (bake_from (gi TViewer (nd_attrs n) "bake_option")); try (injection H as <- _ _; reflexivity);
        (destruct (cached _ _ _ _ _ _) as [((img, s1), w1)|]; [|discriminate]; cbn [bind] in H; injection H as <- _ _; reflexivity). }
    subst st. destruct (bake_from (gi TViewer (nd_attrs n) "bake_option")); try (injection H as <- _; exact F1); exact (K _ _ _ _ H).
  - unfold resample_compute in H. destruct ins as [|s t]; [injection H as _ <- _; reflexivity|]. pose proof (HD s t eq_refl) as SS.
    destruct (negb _); [injection H as _ <- _; exact SS|].
    destruct (match p with Debug => _ | Release => _ end); [discriminate|]. destruct (_ =? 0); [injection H as _ <- _; exact SS|].
    destruct (cached _ _ _ _ _ _) as [((img, e), w1)|]; [|discriminate]. cbn [bind] in H. injection H as _ <- _. exact SS.
Qed.

Theorem always_invalid w0 h g w : history (node_ops p x) srt stream_new w0 h g w -> st_state (g_output g) = SdInvalid.
Proof.
  induction 1 as [|h g c call g' c' H IH C]; [reflexivity|].
  destruct (history_wf (node_ops p x) srt (node_keeps_id p x) _ _ _ _ _ H) as (WG & _).
  pose proof (call_nodes (node_ops p x) srt g c call g' c' WG C) as K.
  destruct call; try (destruct K as (K1 & K2); congruence).
  destruct C as (fuel & st & E). refine (execute_inv (node_ops p x) srt (fun s => st_state s = SdInvalid) _ fuel g id frames c g' c' st IH E).
  intros n fr mode ins out c0 n' st0 v c1 X A B. exact (compute_state _ _ _ _ _ _ _ _ _ _ X A B).
Qed.

Definition restated (n n' : node) : Prop := n' = n \/ computed_status (nd_status n').
Lemma compute_restates n fr mode ins out w n' st v w' : node_compute p x n fr mode ins out w = Ok (n', st, v, w') -> restated n n'.
Proof.
  intros H. apply node_compute_inv in H. destruct H as (h & _ & H & ->). right. cbn [nd_status]. unfold computed_status.
  assert (K : st = NsError \/ st = NsValid \/ st = NsWarning); [|destruct K as [-> |[-> | ->]]; cbn; auto].
  unfold compute_op in H. assert (FS : snd (first_input ins) = NsValid \/ snd (first_input ins) = NsWarning) by (destruct ins; cbn; auto).
  destruct (nd_type n).
  - unfold null_compute in H. destruct ins; injection H as <- _ _; auto.
  - unfold read_compute in H. destruct (_ =? 0); [injection H as <- _ _; auto|]. destruct (_ =? 0); [injection H as <- _ _; auto|].
    destruct (expand_string _ _ _) as [path|]; [|discriminate]. cbn [bind] in H. destruct (x_kind x _ path).
    + injection H as <- _ _; auto.
    + destruct (cached _ _ _ _ _ _) as [((img, e), w1)|]; [|discriminate]. cbn [bind] in H. injection H as <- _ _; auto.
    + destruct (_ =? 1); injection H as <- _ _; auto.
  - unfold write_compute in H. destruct (_ =? 0); [injection H as <- _ _; auto|].
    destruct ins; [injection H as <- _ _; auto|]. destruct (_ =? 0); [injection H as <- _ _; auto|].
    destruct (write_process _ _ _ _ _ _) as [(d, ok)|]; [|discriminate]. cbn [bind] in H. injection H as <- _ _; auto.
  - unfold grade_compute in H. destruct (first_input ins) as (s, st0). destruct (negb _); injection H as <- _ _; cbn [snd] in FS; tauto.
  - unfold lens_compute in H. destruct (first_input ins) as (s, st0). destruct (_ =? 1); [destruct (x_lens_ok _ _); [|discriminate]|]; injection H as <- _ _; cbn [snd] in FS; tauto.
  - unfold transform_compute in H. destruct (first_input ins) as (s, st0). injection H as <- _ _. cbn [snd] in FS; tauto.
  - unfold merge_compute in H. destruct (negb _); [injection H as <- _ _; auto|].
    destruct ins as [|s t]; [injection H as <- _ _; auto|].
    destruct t as [|sb t]; (destruct (cached _ _ _ _ _ _) as [((img, e), w1)|]; [|discriminate]); cbn [bind] in H; injection H as <- _ _; auto.
  - unfold crop_compute in H. destruct ins as [|s t]; [injection H as <- _ _; auto|].
    destruct (negb _); [injection H as <- _ _; auto|].
    destruct (cached _ _ _ _ _ _) as [((img, (s1, st1)), w1)|] eqn:C; [|discriminate]. cbn [bind] in H. injection H as <- _ _.
    apply cached_makes in C. destruct C as [C|C]; [injection C as _ ->; auto|].
    unfold crop_process in C. destruct (do_process _ _ _ _ _ _ _ _ _ _ _ _) as [r|] eqn:P; [|discriminate]. cbn [bind] in C.
    destruct (crop_image_in_place _ _ _ _ _ _) as [im|]; [|discriminate]. cbn [bind] in C. injection C as _ _ <-. auto.
  - unfold viewer_compute in H. destruct (negb _); [injection H as <- _ _; auto|].
    destruct (first_input ins) as (s, st0).
    destruct (bake_from (gi TViewer (nd_attrs n) "bake_option")); try (injection H as <- _ _; auto; fail);
        (destruct (cached _ _ _ _ _ _) as [((img, s1), w1)|]; [|discriminate]; cbn [bind] in H; injection H as <- _ _; auto).
  - unfold resample_compute in H. destruct ins as [|s t]; [injection H as <- _ _; auto|].
    destruct (negb _); [injection H as <- _ _; auto|].
    destruct (match p with Debug => _ | Release => _ end); [discriminate|]. destruct (_ =? 0); [injection H as <- _ _; auto|].
    destruct (cached _ _ _ _ _ _) as [((img, e), w1)|] eqn:C; [|discriminate]. cbn [bind] in H. injection H as <- _ _.
    apply cached_makes in C. destruct C as [-> |C]; [auto|].
    destruct (x_resample _ _ _ _ _) as (ok, im). injection C as _ <-. destruct ok; auto.
Qed.

Lemma created_status n : as_created n -> nd_status n = never_computed.
Proof.
  intros (t & id & ws & ->). assert (K : forall n0, nd_status (fold_left node_write ws n0) = nd_status n0).
  { induction ws as [|a ws IH]; intros n0; [reflexivity|]. cbn [fold_left]. now rewrite IH, write_status. }
  now rewrite K.
Qed.

Lemma asked_later w0 h call i : asked_before p x srt w0 h i -> asked_before p x srt w0 (h ++ [call]) i.
Proof.
  intros (h1 & id & fs & h2 & g & w & s & -> & A). exists h1, id, fs, (h2 ++ [call])%list, g, w, s.
  split; [now rewrite <- app_assoc|exact A].
Qed.

Lemma reached_or_kept (g : graph node stream) fuel id fs start c g' c' st i : wf_graph (node_ops p x) g -> find_index g id = Some start ->
  execute (node_ops p x) srt fuel g id fs c = Some (Ok (g', c', st)) ->
  reaches (g_graph g) i start \/ nth_error (g_nodes g') i = nth_error (g_nodes g) i.
Proof.
  intros WG FI X. pose proof X as X0. unfold execute in X0. rewrite FI in X0.
  destruct (all_upstream srt (g_graph g) start) as [nds|] eqn:AU; [|discriminate]. clear X0.
  assert (SB : (start < node_bound (g_graph g))%nat).
  { destruct (Nat.lt_ge_cases start (node_bound (g_graph g))) as [L|L]; [exact L|].
    unfold all_upstream, walker_new in AU. rewrite (proj2 (Nat.ltb_ge _ _) L) in AU. discriminate. }
  destruct (all_upstream_ok srt (g_graph g) HS (wg_stable _ _ WG) start SB) as (l & EL & RL). rewrite AU in EL. injection EL as <-.
  destruct (in_dec Nat.eq_dec i (map fst nds)) as [Y|Y].
  - left. apply in_map_iff in Y. destruct Y as ((m, k) & <- & Hm). exists k. exact (proj1 (proj1 (br_dist _ _ _ RL _ _) Hm)).
  - right. apply (execute_keeps_others (node_ops p x) srt HS fuel g id start fs c g' c' st WG FI X). intros R.
    apply Y. now apply (br_complete _ _ _ RL).
Qed.

Theorem statuses_since w0 h g w : history (node_ops p x) srt stream_new w0 h g w -> adds_new h ->
  forall i n, nth_error (g_nodes g) i = Some n ->
  (nd_status n = never_computed \/ computed_status (nd_status n)) /\ (nd_status n <> never_computed -> asked_before p x srt w0 h i).
Proof.
  induction 1 as [|h g c call g' c' H IH C]; intros AN i n E.
  - cbn in E. destruct i; discriminate.
  - assert (AN0 : adds_new h) by (intros m Hm; apply AN; apply in_or_app; now left). specialize (IH AN0).
    destruct (history_wf (node_ops p x) srt (node_keeps_id p x) _ _ _ _ _ H) as (WG & _).
    pose proof (call_nodes (node_ops p x) srt g c call g' c' WG C) as K.
    assert (SAME : nth_error (g_nodes g) i = Some n -> (nd_status n = never_computed \/ computed_status (nd_status n)) /\ (nd_status n <> never_computed -> asked_before p x srt w0 (h ++ [call])%list i)).
    { intros X. destruct (IH _ _ X) as (A & B). split; [exact A|]. intros Y. now apply asked_later, B. }
    destruct call as [m|j|s t k|t k|j a|j fs].
    + destruct K as (K & _). rewrite K in E. destruct (Nat.lt_ge_cases i (length (g_nodes g))) as [L|L].
      * rewrite nth_error_app1 in E by exact L. now apply SAME.
      * rewrite nth_error_app2 in E by exact L. destruct (i - length (g_nodes g))%nat as [|j]; [|destruct j; discriminate].
        injection E as <-. rewrite (created_status m) by (apply AN; apply in_or_app; right; now left). split; [now left|congruence].
    + destruct K as (K & _). rewrite K in E. now apply SAME.
    + destruct K as (K & _). rewrite K in E. now apply SAME.
    + destruct K as (K & _). rewrite K in E. now apply SAME.
    + destruct K as (_ & K). destruct (K _ _ E) as (n0 & E0 & [-> | ->]); [now apply SAME|].
      cbn [n_write node_ops]. rewrite write_status. destruct (IH _ _ E0) as (A & B). split; [exact A|]. intros Y. now apply asked_later, B.
    + destruct C as (fuel & st & X).
      assert (TR : forall a b d, restated a b -> restated b d -> restated a d).
      { intros a b d [-> |A] [-> |B]; [now left|now right|now right|now right]. }
      destruct (execute_evolves (node_ops p x) srt restated (fun n => or_introl eq_refl) TR
        (fun n0 fr mode ins out c0 n1 st0 v c1 => compute_restates n0 fr mode ins out c0 n1 st0 v c1) _ _ _ _ _ _ _ _ X _ _ E) as (n0 & E0 & R).
      split; [destruct R as [-> |R]; [exact (proj1 (IH _ _ E0))|now right]|]. intros Y.
      destruct (find_index g j) as [start|] eqn:FI.
      * destruct (reached_or_kept g fuel j fs start c g' c' st i WG FI X) as [Q|Q].
        -- exists h, j, fs, [], g, c, start. auto.
        -- rewrite Q in E. apply asked_later, (proj2 (IH _ _ E)). exact Y.
      * unfold execute in X. rewrite FI in X. injection X as <- _ _. now apply SAME.
Qed.
End Nodes.

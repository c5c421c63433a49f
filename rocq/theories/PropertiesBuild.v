(** C98: a release build computes what a debug build computes. *)
From Coq Require String.
Import String.StringSyntax.
From Coq Require Import Floats.SpecFloat.
From Verif Require Import Machine FloatModel BBoxModel PixelModel MergeModel CacheModel CacheProofs AttrModel StreamModel GraphModel GraphSpec GraphPlay NodeModel
  NodeExamples GeomModel ObjModel CrateModel LutModel LutHistory FileModel BuildSpec BuildProofs PropertiesNode PropertiesSafe.
Local Open Scope string_scope.

(** Whatever is done to graphs, lookup tables, the image cache and files: if it
    all comes to an end in a debug build, then it does in a release build, with
    the same graphs, streams, statuses, cache, files and answers. *)
Theorem C98_session : forall D (x : externals D) srt cap d0 es outs G w,
  life Debug x srt cap d0 es outs G w -> life Release x srt cap d0 es outs G w.
Proof. exact @build_life. Qed.
Print Assumptions C98_session.

(** One execution, from any state. *)
Theorem C98_execute : forall D (x : externals D) srt fuel g id frames w r,
  execute (node_ops Debug x) srt fuel g id frames w = Some (Ok r) ->
  execute (node_ops Release x) srt fuel g id frames w = Some (Ok r).
Proof. exact @build_execute. Qed.
Print Assumptions C98_execute.

(** The image operations that callers can use directly. *)
Theorem C98_images :
  (forall im win r b i im', crop_image_in_place Debug im win r b i = Ok im' -> crop_image_in_place Release im win r b i = Ok im') /\
  (forall mode a b mix out im', merge Debug mode a b mix out = Ok im' -> merge Release mode a b mix out = Ok im') /\
  (forall b t pb', pb_new Debug b t = Ok pb' -> pb_new Release b t = Ok pb') /\
  (forall pb b t pb', pb_resize Debug pb b t = Ok pb' -> pb_resize Release pb b t = Ok pb') /\
  (forall d n, db_size_bytes Debug d = Ok n -> db_size_bytes Release d = Ok n) /\
  (forall b x y i, bs_get_index Debug b x y = Ok i -> bs_get_index Release b x y = Ok i) /\
  (forall b i xy, bs_get_xy Debug b i = Ok xy -> bs_get_xy Release b i = Ok xy).
Proof.
  exact (conj b_crop (conj b_merge (conj b_pb_new (conj b_pb_resize (conj b_size_bytes (conj b_get_index b_get_xy)))))).
Qed.
Print Assumptions C98_images.

(** The buffers of a plane mesh: how large to make them, and what goes in. *)
Theorem C98_mesh : forall g,
  (forall n, buffer_size_positions Debug g = Ok n -> buffer_size_positions Release g = Ok n) /\
  (forall n, buffer_size_uvs Debug g = Ok n -> buffer_size_uvs Release g = Ok n) /\
  (forall n, buffer_size_tris Debug g = Ok n -> buffer_size_tris Release g = Ok n) /\
  (forall n, buffer_size_border Debug g = Ok n -> buffer_size_border Release g = Ok n) /\
  (forall n, buffer_size_wire Debug g = Ok n -> buffer_size_wire Release g = Ok n) /\
  (forall l l', fill_positions Debug g l = Ok l' -> fill_positions Release g l = Ok l') /\
  (forall l l', fill_uvs Debug g l = Ok l' -> fill_uvs Release g l = Ok l') /\
  (forall l l', fill_tris Debug g l = Ok l' -> fill_tris Release g l = Ok l') /\
  (forall l l', fill_border Debug g l = Ok l' -> fill_border Release g l = Ok l') /\
  (forall l l', fill_wire Debug g l = Ok l' -> fill_wire Release g l = Ok l').
Proof.
  exact (fun g => conj (b_positions g) (conj (b_uvs g) (conj (b_tris g) (conj (b_border g) (conj (b_wire g)
    (conj (b_fill_positions g) (conj (b_fill_uvs g) (conj (b_fill_tris g) (conj (b_fill_border g) (b_fill_wire g)))))))))).
Qed.
Print Assumptions C98_mesh.

(** Files: meshes, pictures read with either library, and resampling. *)
Theorem C98_files :
  (forall show D (wr : D -> list Z -> list Z -> option D) d ps uvs is path d',
     export_mesh Debug show wr d ps uvs is path = Ok d' -> export_mesh Release show wr d ps uvs is path = Ok d') /\
  (forall pow o img, read_with_crate Debug pow o = Ok img -> read_with_crate Release pow o = Ok img) /\
  (forall copy f img r, oiio_read_with copy Debug f img = Done r -> oiio_read_with copy Release f img = Done r) /\
  (forall alg src dst f i r, oiio_image_resample alg Debug src dst f i = Done r -> oiio_image_resample alg Release src dst f i = Done r).
Proof. exact (conj b_export (conj b_read_crate (conj b_oiio_read b_resample))). Qed.
Print Assumptions C98_files.

(** A session with two executions, a lookup table and a cleared cache. *)
Definition events : list (event disk) :=
  [OnGraph 0 (GAdd dot_reader); OnGraph 0 (GAdd (setup TGrade 2 [WF32 "multiply_r" 1073741824]));
   OnGraph 0 (GAdd (setup TWrite 3 [WStr "file_path" [99]; WI32 "execute" 1]));
   OnGraph 0 (GConnect 1 2 0); OnGraph 0 (GConnect 2 3 0); OnGraph 0 (GExecute 3 [frame0]);
   OnTable (RTransform [115] [116] 2); OnCache EvictAll; OnGraph 0 (GExecute 3 [frame0])].
Fixpoint lived (p : profile) (x : externals disk) (G : graph node stream) (w : world disk) (es : list (event disk))
  : option (list (out shared + shared) * graph node stream * world disk) :=
  match es with
  | [] => Some ([], G, w)
  | OnGraph _ call :: t =>
      match play_one (node_ops p x) insertion_sort 99 G w call with Some (G, w) => lived p x G w t | None => None end
  | OnTable r :: t =>
      match LutHistory.call p x r (w_cache w) with
      | Ok (img, c) => match lived p x G (World c (w_disk w)) t with Some (o, G, w) => Some (inr img :: o, G, w) | None => None end
      | Panic => None
      end
  | OnCache o :: t =>
      match step image_bytes p (w_cache w) o with
      | Ok (c, a) => match lived p x G (World c (w_disk w)) t with Some (l, G, w) => Some (inl a :: l, G, w) | None => None end
      | Panic => None
      end
  | OnDisk d :: t => lived p x G (World (w_cache w) d) t
  end.
Definition only (G : graph node stream) (i : nat) : graph node stream := match i with O => G | _ => graph_new stream_new end.
Definition on_first (es : list (event disk)) : Prop := Forall (fun e => match e with OnGraph (S _) _ => False | _ => True end) es.
Lemma lived_life p x cap d0 es : forall done outs gs G w outs' G' w', life p x insertion_sort cap d0 done outs gs w ->
  on_first es -> (forall i, gs i = only G i) -> lived p x G w es = Some (outs', G', w') ->
  exists gs', life p x insertion_sort cap d0 (done ++ es) (outs ++ outs') gs' w' /\ (forall i, gs' i = only G' i).
Proof.
  induction es as [|e es IH]; intros done outs gs G w outs' G' w' L F E H; cbn [lived] in H.
  - injection H as <- <- <-. rewrite !app_nil_r. exists gs. auto.
  - inversion F as [|? ? Fe Ft]; subst. destruct e as [i call|r|o|d].
    + destruct i as [|i]; [|contradiction].
      destruct (play_one (node_ops p x) insertion_sort 99 G w call) as [(G1, w1)|] eqn:P; [|discriminate].
      change (OnGraph 0 call :: es) with ([OnGraph 0 call] ++ es)%list. rewrite app_assoc.
      apply (IH _ _ (only G1) G1 w1 _ _ _) with (2 := Ft) (4 := H).
      * apply (l_graph _ _ _ _ _ _ _ gs w O call G1 w1); [exact L| |reflexivity|].
        -- rewrite (E O). exact (play_one_calls _ _ _ _ _ _ _ _ P).
        -- intros [|j] N; [congruence|]. now rewrite E.
      * reflexivity.
    + destruct w as [c d]. cbn [w_cache w_disk] in H.
      destruct (LutHistory.call p x r c) as [(img, c1)|] eqn:P; [|discriminate].
      destruct (lived p x G (World c1 d) es) as [((o1, G1), w1)|] eqn:Q; [|discriminate]. injection H as <- <- <-.
      change (OnTable r :: es) with ([OnTable r] ++ es)%list. change (inr img :: o1) with ([inr img] ++ o1)%list. rewrite !app_assoc.
      apply (IH _ _ gs G (World c1 d)) with (2 := Ft) (3 := E) (4 := Q). exact (l_table _ _ _ _ _ _ _ _ _ _ _ _ _ L P).
    + destruct w as [c d]. cbn [w_cache w_disk] in H.
      destruct (step image_bytes p c o) as [(c1, a)|] eqn:P; [|discriminate].
      destruct (lived p x G (World c1 d) es) as [((o1, G1), w1)|] eqn:Q; [|discriminate]. injection H as <- <- <-.
      change (OnCache o :: es) with ([OnCache o] ++ es)%list. change (inl a :: o1) with ([inl a] ++ o1)%list. rewrite !app_assoc.
      apply (IH _ _ gs G (World c1 d)) with (2 := Ft) (3 := E) (4 := Q). exact (l_cache _ _ _ _ _ _ _ _ _ _ _ _ _ L P).
    + destruct w as [c e]. cbn [w_cache w_disk] in H.
      change (OnDisk d :: es) with ([OnDisk d] ++ es)%list. rewrite !app_assoc.
      apply (IH _ _ gs G (World c d)) with (2 := Ft) (3 := E) (4 := H). exact (l_disk _ _ _ _ _ _ _ _ _ _ _ L).
Qed.
Example C98_example : exists outs G w,
  life Debug demo insertion_sort 193600 dot_disk events outs G w /\ length outs = 2%nat /\ length (w_disk w) = 3%nat /\
  exists img, nth_error (w_disk w) 0 = Some ([99], img) /\
    pb_data (sh_block img) = DF32 [f32_of_Z 2; f32_zero; f32_one].
Proof.
  destruct (lived Debug demo (graph_new stream_new) (demo_world dot_disk 193600) events) as [((outs, G), w)|] eqn:E.
  - destruct (lived_life Debug demo 193600 dot_disk events [] [] (fun _ => graph_new stream_new) _ _ _ _ _
      (l_start _ _ _ _ _) ltac:(repeat constructor) ltac:(intros [|]; reflexivity) E) as (gs & L & _).
    exists outs, gs, w. split; [exact L|].
    assert (Q : match lived Debug demo (graph_new stream_new) (demo_world dot_disk 193600) events with
      | Some (o, _, v) => (length o, length (w_disk v), option_map (fun e => (fst e, pb_data (sh_block (snd e)))) (nth_error (w_disk v) 0))
      | None => (O, O, None) end = (2%nat, 3%nat, Some ([99], DF32 [f32_of_Z 2; f32_zero; f32_one]))) by (vm_compute; reflexivity).
    rewrite E in Q.
    pose proof (f_equal (fun v => fst (fst v)) Q) as Q1. pose proof (f_equal (fun v => snd (fst v)) Q) as Q2.
    pose proof (f_equal snd Q) as Q3. cbn [fst snd] in Q1, Q2, Q3. split; [exact Q1|]. split; [exact Q2|].
    clear - Q3. destruct (w_disk w) as [|(k, img) rest]; cbn [nth_error option_map fst snd] in *; [discriminate Q3|]. injection Q3 as -> Q3.
    exists img. split; [reflexivity|]. exact Q3.
  - exfalso. assert (Q : match lived Debug demo (graph_new stream_new) (demo_world dot_disk 193600) events with Some _ => true | None => false end = true)
      by (vm_compute; reflexivity). rewrite E in Q. discriminate Q.
Qed.

(** Not the other way round.  A release build goes on where a debug build
    crashes: a Resample with two inputs, *)
Definition two_inputs : list (gcall node spec_float awrite) :=
  [GAdd dot_reader; GAdd (setup TRead 2 [WStr "file_path" [97]]); GAdd (setup TResample 3 [WI32 "factor" 1]);
   GConnect 1 3 0; GConnect 2 3 1].
Definition finishes (p : profile) (x : externals disk) (calls : list (gcall node spec_float awrite)) (id : Z) (w : world disk) : Prop :=
  exists g c g' w', GraphSpec.history (node_ops p x) insertion_sort stream_new w calls g c /\
    execute (node_ops p x) insertion_sort 99 g id [frame0] c = Some (Ok (g', w', ExSuccess)).
Definition finishesb (p : profile) (x : externals disk) calls id w : bool :=
  match played (node_ops p x) insertion_sort 99 stream_new w calls with
  | Some (g, c) => match execute (node_ops p x) insertion_sort 99 g id [frame0] c with Some (Ok (_, _, ExSuccess)) => true | _ => false end
  | None => false
  end.
Lemma finishes_ok p x calls id w : finishesb p x calls id w = true -> finishes p x calls id w.
Proof.
  unfold finishesb, finishes. destruct (played _ _ _ _ _ _) as [[g c]|] eqn:E; [|discriminate]. intro H.
  exists g, c. destruct (execute _ _ _ _ _ _ _) as [[[[g' w'] []]|]|] eqn:X; try discriminate H. exists g', w'.
  split; [exact (played_history _ _ _ _ _ _ _ _ E)|reflexivity].
Qed.
Theorem C98_assertion_refuted :
  aborts Debug demo two_inputs 3 (demo_world dot_disk 193600) /\ finishes Release demo two_inputs 3 (demo_world dot_disk 193600).
Proof. split; [apply abortsb_ok|apply finishes_ok]; vm_compute; reflexivity. Qed.
Print Assumptions C98_assertion_refuted.

(** or a picture larger than the whole cache (12 bytes, room for 8). *)
Theorem C98_large_picture_refuted :
  aborts Debug demo [GAdd dot_reader] 1 (demo_world dot_disk 8) /\ finishes Release demo [GAdd dot_reader] 1 (demo_world dot_disk 8).
Proof. split; [apply abortsb_ok|apply finishes_ok]; vm_compute; reflexivity. Qed.
Print Assumptions C98_large_picture_refuted.

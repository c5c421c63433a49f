(** C108: what baking makes of a picture, and what graphs show and files hold,
    number by number. *)
From Coq Require String.
Import String.StringSyntax.
From Coq Require Import Lia Floats.SpecFloat.
From Verif Require Import Machine Loops CacheModel FloatModel BBoxModel BBoxSpec PixelModel PixelSpec PathModel PathSpec MergeModel MergeSpec EnumModel AttrModel
  HashModel HashSpec HashProofs StreamModel DeformModel BakeModel BakeSpec BakeProofs GraphModel GraphSpec GraphSim GraphWalk GraphHistory GraphFacts AttrProofs NodeModel NodeExamples
  NodeSpec LutSpec LutHistory LutProofs3 ChainSpec RunSpec SafeSpec SafeProofs SafeFacts ShowSpec UncachedSpec ShowProofs SoundSpec ShowCacheProofs ViewSpec FrameModel FrameSpec RemapSpec
  SceneSpec SceneProofs SceneProofs2 AlikeSpec AlikeProofs WriteSpec SceneWrite PartSpec EachSpec EachProofs FinishSpec FinishProofs FinishScene
  PropertiesBake PropertiesNode PropertiesSafe PropertiesShow PropertiesSound PropertiesShow2 PropertiesScene PropertiesAlike PropertiesWrite PropertiesEach.
Local Open Scope string_scope.

(** Baking everything: the numbers as floats, converted to Linear, through the
    pending matrix and operations, moved by the enabled deformers, converted to
    the target space and to the type asked for. *)
Theorem C108_bake : forall p nx convert,
  (forall px w h nc a u from to px', convert px w h nc a u from to = Some px' -> length px' = length px) ->
  forall s to ty r,
  PixelSpec.wf_block (st_block s) ->
  bs_nc (pb_size (st_block s)) = 1 \/ bs_nc (pb_size (st_block s)) = 3 \/ bs_nc (pb_size (st_block s)) = 4 ->
  (forall d, In d (st_deformers s) -> vi (def_vals d) "enable" = 1 ->
     bs_nc (pb_size (st_block s)) <> 1 /\ coords_small (st_data s) /\ 1 <= bs_w (pb_size (st_block s)) /\ 1 <= bs_h (pb_size (st_block s)) /\
     bs_w (pb_size (st_block s)) * bs_h (pb_size (st_block s)) * bs_nc (pb_size (st_block s)) < two31 /\
     min_x (bk_data r) <= max_x (bk_data r) /\ min_y (bk_data r) <= max_y (bk_data r)) ->
  do_process p nx convert BakeAll (st_block s) (st_display s) (st_data s) (st_spec s) s (sp_color_space (st_spec s)) to ty = Ok r ->
  finished nx convert s to (asked_type ty (st_block s)) (bk_block r) (bk_data r).
Proof. exact bake_finished. Qed.
Print Assumptions C108_bake.

(** The colours only. *)
Theorem C108_colours : forall p nx convert,
  (forall px w h nc a u from to px', convert px w h nc a u from to = Some px' -> length px' = length px) ->
  forall s to ty r,
  PixelSpec.wf_block (st_block s) ->
  bs_nc (pb_size (st_block s)) = 1 \/ bs_nc (pb_size (st_block s)) = 3 \/ bs_nc (pb_size (st_block s)) = 4 ->
  do_process p nx convert BakeColorSpaceAndGrade (st_block s) (st_display s) (st_data s) (st_spec s) s (sp_color_space (st_spec s)) to ty = Ok r ->
  half_finished nx convert s to (asked_type ty (st_block s)) (bk_block r) /\ bk_data r = st_data s /\ bk_spec r = set_color_space (st_spec s) to.
Proof. exact bake_half_finished. Qed.
Print Assumptions C108_colours.

(** The colour space only. *)
Theorem C108_space : forall p nx convert,
  (forall px w h nc a u from to px', convert px w h nc a u from to = Some px' -> length px' = length px) ->
  forall s to ty r,
  bs_nc (pb_size (st_block s)) = 1 \/ bs_nc (pb_size (st_block s)) = 3 \/ bs_nc (pb_size (st_block s)) = 4 ->
  do_process p nx convert BakeColorSpace (st_block s) (st_display s) (st_data s) (st_spec s) s (sp_color_space (st_spec s)) to ty = Ok r ->
  converted convert s to (asked_type ty (st_block s)) (bk_block r) (bk_spec r) /\ bk_data r = st_data s.
Proof. exact bake_converted. Qed.
Print Assumptions C108_space.

(** Pixel by pixel, for linear pictures with four channels. *)
Theorem C108_pixel : forall nx convert s ty r win,
  PixelSpec.wf_block (st_block s) -> bs_nc (pb_size (st_block s)) = 4 -> placed (st_block s) (st_data s) ->
  sp_color_space (st_spec s) = linear_name -> finished nx convert s linear_name ty r win ->
  forall X Y, in_box win X Y -> one_pixel_right nx s ty r win X Y.
Proof. exact finished_pixel. Qed.
Print Assumptions C108_pixel.

(** Files. *)
Theorem C108_written : forall D p (x : externals D) B ok_disk, roomy B -> sane x B ok_disk ->
  forall n fr s path img co, fine_stream B s -> written p x n fr s path img co -> filed x fr n s path img co.
Proof. exact @written_filed. Qed.
Print Assumptions C108_written.

(** Whole graphs, in any session. *)
Theorem C108_session : forall D p (x : externals D) (E : setting D),
  clean_paths (x_expand x) -> no_collisions (x_digest x) (SoundSpec.used E) -> digest_u64 (x_digest x) ->
  (forall l, In l (SoundSpec.used E) -> x_digest x l <> 0) -> keeps_sources x E ->
  forall B ok_disk, roomy B -> sane x B ok_disk -> forall srt, sorts srt ->
  forall G w i fuel id start frames fr g' w' log,
  session p x E srt G w -> ok_disk (w_disk w) -> careful_graph p B (G i) -> fine_stream B (g_output (G i)) ->
  find_index (G i) id = Some start -> all_asked (G i) start ->
  execute (recording (node_ops p x)) srt fuel (G i) id (frames ++ [fr])%list (w, []) = Some (Ok (g', (w', log), ExSuccess)) ->
  Forall (tame p x E) log ->
  composition x p (w_disk w) fr (G i) start (g_output g').
Proof. exact @finish_session. Qed.
Print Assumptions C108_session.

Theorem C108_files : forall D p (x : externals D) (E : setting D),
  clean_paths (x_expand x) -> no_collisions (x_digest x) (SoundSpec.used E) -> digest_u64 (x_digest x) ->
  (forall l, In l (SoundSpec.used E) -> x_digest x l <> 0) -> keeps_sources x E ->
  forall B ok_disk, roomy B -> sane x B ok_disk -> forall srt, sorts srt ->
  forall G w i fuel id start frames g' w' log,
  session p x E srt G w -> ok_disk (w_disk w) -> careful_graph p B (G i) -> fine_stream B (g_output (G i)) ->
  find_index (G i) id = Some start -> all_asked (G i) start ->
  execute (recording (node_ops p x)) srt fuel (G i) id frames (w, []) = Some (Ok (g', (w', log), ExSuccess)) ->
  Forall (tame p x E) log ->
  all_written x (fun fr => of_drawn x p (w_disk w) fr (G i)) (G i) start frames (w_disk w) (w_disk w').
Proof. exact @finish_files. Qed.
Print Assumptions C108_files.

Theorem C108_kept : forall D p (x : externals D) (E : setting D),
  clean_paths (x_expand x) -> no_collisions (x_digest x) (SoundSpec.used E) -> digest_u64 (x_digest x) ->
  (forall l, In l (SoundSpec.used E) -> x_digest x l <> 0) -> keeps_sources x E ->
  forall B ok_disk, roomy B -> sane x B ok_disk -> forall srt, sorts srt ->
  forall G w i fuel id start frames g' w' log holds,
  session p x E srt G w -> ok_disk (w_disk w) -> careful_graph p B (G i) -> fine_stream B (g_output (G i)) ->
  find_index (G i) id = Some start -> all_asked (G i) start ->
  execute (recording (node_ops p x)) srt fuel (G i) id frames (w, []) = Some (Ok (g', (w', log), ExSuccess)) ->
  Forall (tame p x E) log -> keeps_files x holds -> own_places (fun fr => of_drawn x p (w_disk w) fr (G i)) frames ->
  forall fr j nw k, In fr frames -> reaches (g_graph (G i)) j start -> writer (G i) j nw k ->
  exists o, of_drawn x p (w_disk w) fr (G i) j o /\ holds (w_disk w') o.
Proof. exact @finish_file. Qed.
Print Assumptions C108_kept.

(* ------------------------------ examples ------------------------------ *)

(** Two pixels of bytes, a pending grade that doubles red, and a pending
    transform. *)
Definition fin_stream : stream :=
  Stream SdValid 1 (BBox 0 0 2 1) (BBox 0 0 2 1) identity4 spec_new (PB (BS 2 1 4) (DU8 [51; 0; 0; 255; 102; 255; 0; 255]))
    [DTransform (transform_op (PropertiesBake.with_attrs TTransform []))]
    [grade_op (PropertiesBake.with_attrs TGrade [WF32 "multiply_r" 1073741824])].
Definition fin_baked := Eval vm_compute in
  do_process Debug demo_numerics (x_convert demo) BakeAll (st_block fin_stream) (st_display fin_stream) (st_data fin_stream) (st_spec fin_stream)
    fin_stream (sp_color_space (st_spec fin_stream)) linear_name UnknownType.

(** Red is twice as bright; the conditions of the bake and of the single pixels
    hold. *)
Example C108_bake_example : exists r,
  do_process Debug demo_numerics (x_convert demo) BakeAll (st_block fin_stream) (st_display fin_stream) (st_data fin_stream) (st_spec fin_stream)
    fin_stream (sp_color_space (st_spec fin_stream)) linear_name UnknownType = Ok r /\
  bk_block r = PB (BS 2 1 4) (DU8 [102; 0; 0; 255; 204; 255; 0; 255]) /\ bk_data r = BBox 0 0 2 1 /\
  PixelSpec.wf_block (st_block fin_stream) /\ bs_nc (pb_size (st_block fin_stream)) = 4 /\ placed (st_block fin_stream) (st_data fin_stream) /\
  (exists d, In d (st_deformers fin_stream) /\ vi (def_vals d) "enable" = 1) /\ coords_small (st_data fin_stream) /\
  finished demo_numerics (x_convert demo) fin_stream linear_name UInt8 (bk_block r) (bk_data r).
Proof.
  destruct fin_baked as [r|] eqn:E; [|discriminate E]. exists r.
  assert (Q : bk_block r = PB (BS 2 1 4) (DU8 [102; 0; 0; 255; 204; 255; 0; 255]) /\ bk_data r = BBox 0 0 2 1).
  { unfold fin_baked in E. injection E as <-. split; reflexivity. }
  destruct Q as (Q1 & Q2).
  assert (H : do_process Debug demo_numerics (x_convert demo) BakeAll (st_block fin_stream) (st_display fin_stream) (st_data fin_stream) (st_spec fin_stream)
    fin_stream (sp_color_space (st_spec fin_stream)) linear_name UnknownType = Ok r) by (rewrite <- E; vm_compute; reflexivity).
  assert (W : PixelSpec.wf_block (st_block fin_stream)) by (repeat split; vm_compute; discriminate).
  assert (CS : coords_small (st_data fin_stream)) by (cbn; unfold coords_small; cbn; lia).
  split; [exact H|]. split; [exact Q1|]. split; [exact Q2|]. split; [exact W|]. split; [reflexivity|]. split; [split; reflexivity|].
  split; [eexists; split; [left; reflexivity|reflexivity]|]. split; [exact CS|].
  apply (bake_finished Debug demo_numerics (x_convert demo)) with (ty := UnknownType); [discriminate|exact W|right; right; reflexivity| |exact H].
  intros d _ _. rewrite Q2. split; [discriminate|]. split; [exact CS|]. vm_compute. repeat split; discriminate.
Qed.

(** The graph of C107, its files in these terms. *)
Lemma drawn_places : own_places (fun fr => of_drawn demo Debug (w_disk three_world) fr each_graph) [frame0; frame1].
Proof.
  assert (W : forall fr j o, In fr [frame0; frame1] -> of_drawn demo Debug (w_disk three_world) fr each_graph j o ->
    In (fr, j, place o) [(frame0, 2%nat, [109; 105; 100; 46; 48; 46; 101; 120; 114]); (frame1, 2%nat, [109; 105; 100; 46; 49; 46; 101; 120; 114]);
                         (frame0, 4%nat, [111; 46; 48; 46; 101; 120; 114]); (frame1, 4%nat, [111; 46; 49; 46; 101; 120; 114])]).
  { intros fr j [[path img] co] F (nw & k & s & (N & T & _) & _ & (P & _)). unfold place. cbn [fst].
    destruct j as [|[|[|[|[|j]]]]]; try (vm_compute in N; injection N as <-; discriminate T); try (vm_compute in N; destruct j; discriminate N);
      vm_compute in N; injection N as <-; destruct F as [<-|[<-|[]]]; vm_compute in P; injection P as <-; vm_compute; tauto. }
  intros fr1 fr2 i1 i2 o1 o2 F1 F2 W1 W2 EP. apply W in W1; [|exact F1]. apply W in W2; [|exact F2]. rewrite EP in W1. clear - W1 W2.
  destruct W1 as [W1|[W1|[W1|[W1|[]]]]]; injection W1 as <- <- W1; rewrite <- W1 in W2;
    destruct W2 as [W2|[W2|[W2|[W2|[]]]]]; try discriminate W2; injection W2 as <- <-; split; reflexivity.
Qed.
Example C108_example :
  session Debug demo (with_keys each_keys) insertion_sort (only each_graph) three_world /\ careful_graph Debug area each_graph /\
  all_asked each_graph 4 /\ keeps_files demo each_holds /\
  own_places (fun fr => of_drawn demo Debug (w_disk three_world) fr each_graph) [frame0; frame1] /\
  exists g' w' log,
    execute (recording (node_ops Debug demo)) insertion_sort 99 each_graph 4 [frame0; frame1] (three_world, []) = Some (Ok (g', (w', log), ExSuccess)) /\
    composition demo Debug (w_disk three_world) frame1 each_graph 4 (g_output g') /\
    all_written demo (fun fr => of_drawn demo Debug (w_disk three_world) fr each_graph) each_graph 4 [frame0; frame1] (w_disk three_world) (w_disk w') /\
    w_disk w' <> w_disk three_world.
Proof.
  destruct C107_example as (CP & NC & DU & NZ & KS & RM & SX & HS & S & OD & CG & FO & FI & AA & KF & _ & _ & _ & g' & w' & log & H & TM & LN).
  split; [exact S|]. split; [exact CG|]. split; [exact AA|]. split; [exact KF|]. split; [exact drawn_places|].
  exists g', w', log. split; [exact H|]. split; [|split].
  - exact (finish_session Debug demo (with_keys each_keys) CP NC DU NZ KS area fine_disk RM SX insertion_sort HS (only each_graph) three_world 0%nat
      99 4 4%nat [frame0] frame1 g' w' log S OD CG FO FI AA H TM).
  - exact (finish_files Debug demo (with_keys each_keys) CP NC DU NZ KS area fine_disk RM SX insertion_sort HS (only each_graph) three_world 0%nat
      99 4 4%nat [frame0; frame1] g' w' log S OD CG FO FI AA H TM).
  - intro EQ. rewrite EQ in LN. vm_compute in LN. discriminate LN.
Qed.

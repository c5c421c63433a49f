(** C85: the number under which a frame is read and written. *)
From Coq Require String.
Import String.StringSyntax.
From Coq Require Import Floats.SpecFloat.
From Verif Require Import Machine FloatModel PixelModel PathModel PathSpec AttrModel AttrSpec HashModel StreamModel GraphModel
  GraphSpec NodeModel NodeSpec NodeExamples RunSpec ChainSpec RenderProofs PropertiesNode PropertiesRun FrameModel FrameSpec FrameProofs.
Local Open Scope string_scope.

(** A frame a / b is written under the nearest whole number, halves away from
    zero. *)
Theorem C85_written : forall (D : Type) p (x : externals D) n fr s path img co a b k pre w post,
  written p x n fr s path img co -> is_fraction fr a b -> nearest a b k -> in_i32 k ->
  first_run (x_expand x (node_get_str n "file_path")) pre w post -> 1 <= w <= 9 ->
  exists t, path = (pre ++ t ++ post)%list /\ padded w k t.
Proof. intros D. exact written_name. Qed.
Print Assumptions C85_written.

(** The same number is used for reading. *)
Theorem C85_read : forall (D : Type) (x : externals D) n d fr s a b k pre w post,
  source x n d fr s -> is_fraction fr a b -> nearest a b k -> in_i32 k ->
  first_run (x_expand x (node_get_str n "file_path")) pre w post -> 1 <= w <= 9 ->
  exists t, padded w k t /\
    match x_kind x d (pre ++ t ++ post)%list with
    | RegularFile => shows (x_read x d (pre ++ t ++ post)%list empty_image) s
    | NoEntry => s = stream_new
    | OtherEntry => True
    end.
Proof. intros D. exact read_name. Qed.
Print Assumptions C85_read.

(** Every fraction has such a number. *)
Theorem C85_number_exists : forall a b, 0 < b -> exists k, nearest a b k.
Proof. exact nearest_exists. Qed.
Print Assumptions C85_number_exists.

(** Executing whole frames: they arrive exactly, and a chain read -> (Null |
    Grade | Transform | Lens)* -> write makes one file per frame, in turn, each
    named by its number. *)
Theorem C85_sequence : forall (D : Type) p (x : externals D) srt, sorts srt ->
  forall fuel id start src l a nr nw ks (g : graph node stream) w g' w' pre width post,
  wf_graph (node_ops p x) g -> find_index g id = Some start ->
  leads (g_graph g) src l a -> only_input (g_graph g) a start -> (forall m, ~ link (g_graph g) m src) ->
  nth_error (g_nodes g) src = Some nr -> nd_type nr = TRead ->
  node_get_i32 nr "enable" <> 0 -> node_get_i32 nr "use_cache" = 0 ->
  (forall i n, In i l -> nth_error (g_nodes g) i = Some n -> adding (nd_type n)) ->
  nth_error (g_nodes g) start = Some nw -> nd_type nw = TWrite ->
  node_get_i32 nw "enable" <> 0 -> node_get_i32 nw "execute" <> 0 ->
  first_run (x_expand x (node_get_str nw "file_path")) pre width post -> 1 <= width <= 9 -> Forall in_i32 ks ->
  execute_whole (node_ops p x) srt fuel g id ks w = Some (Ok (g', w', ExSuccess)) ->
  sequence p x nw (processed x (g_nodes g) nr l) f64_of_Z pre width post ks (w_disk w) (w_disk w').
Proof. intros. eapply whole_sequence; eauto. Qed.
Print Assumptions C85_sequence.

(** Two and a half is 3, minus two and a half is -3, 2.25 is 2; the example
    graph writes frames 7 and 12 as "o.7.exr" and "o.12.exr". *)
Definition quarters (n : Z) : spec_float := binary_normalize 53 1024 n (-2) false.
Example C85_example :
  is_fraction (quarters 10) 5 2 /\ nearest 5 2 3 /\ nearest (-5) 2 (-3) /\ nearest 9 4 2 /\
  frame_number (quarters 10) = 3 /\ frame_number (quarters (-10)) = -3 /\ frame_number (quarters 9) = 2 /\
  first_run (x_expand demo (node_get_str ex_write "file_path")) [111; 46] 1 [46; 101; 120; 114] /\
  match execute_whole (node_ops Debug demo) insertion_sort 9 ex_graph 4 [7; 12] (demo_world [([97], dot_image)] 4096) with
  | Some (Ok (_, w', ExSuccess)) =>
      map fst (w_disk w') = [[111; 46; 49; 50; 46; 101; 120; 114]; [111; 46; 55; 46; 101; 120; 114]; [97]]
  | _ => False
  end.
Proof.
  split; [split; [lia|reflexivity]|]. split; [split; cbn; lia|]. split; [split; cbn; lia|]. split; [split; cbn; lia|].
  split; [reflexivity|]. split; [reflexivity|]. split; [reflexivity|].
  split; [|vm_compute; reflexivity].
  split; [lia|]. split; [reflexivity|]. split; [intros [E|[E|[]]]; discriminate|discriminate].
Qed.

(** "Different frames go to different files" is false of fractional frames:
    the second one overwrites the first. *)
Theorem C85_subframes_refuted : exists fr fr',
  is_fraction fr 2 1 /\ is_fraction fr' 9 4 /\
  forall (D : Type) p (x : externals D) n s path img co s' path' img' co',
  written p x n fr s path img co -> written p x n fr' s' path' img' co' -> path = path'.
Proof. exact subframes_collide. Qed.
Print Assumptions C85_subframes_refuted.

(** Frames beyond the range of 32 bits all get its last number. *)
Theorem C85_large_frames_refuted : forall fr a b k, is_fraction fr a b -> nearest a b k -> 2 ^ 31 <= k ->
  frame_number fr = 2 ^ 31 - 1.
Proof. exact beyond. Qed.
Print Assumptions C85_large_frames_refuted.

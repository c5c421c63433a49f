(** C87: what files say about their pixels. *)
From Coq Require String.
Import String.StringSyntax.
From Coq Require Import Floats.SpecFloat Lia.
From Verif Require Import Machine CacheModel FloatModel BBoxModel BBoxSpec PixelModel PixelSpec PixelProofs2 EnumModel AttrModel HashModel PathModel StreamModel BakeModel GraphModel
  NodeModel NodeExamples NodeSpec ChainSpec FileModel FileSpec FileProofs MetaSpec MetaProofs PropertiesFile PropertiesNode PropertiesRun.
Local Open Scope string_scope.

(** A file that was read: the picture has the file's metadata, and the stated
    defaults where the file has none.  (The orientation is a byte.) *)
Theorem C87_read : forall p f r, oiio_read_image p (Some f) empty_image = Done (true, r) ->
  let s := fi_spec f in let m := sh_spec r in
  sp_color_space m = match o_color_space s with Some v => v | None => [] end /\
  sp_gamma m = match o_gamma s with Some v => v | None => f1 end /\
  sp_pixel_aspect m = match o_aspect s with Some v => v | None => f1 end /\
  sp_orientation m = match o_orientation s with Some v => v mod 256 | None => 0 end /\
  sp_unassociated_alpha m = match o_unassociated s with Some v => negb (v =? 0) | None => false end /\
  sp_dither m = match o_dither s with Some v => v | None => 0 end.
Proof. exact read_metadata. Qed.
Print Assumptions C87_read.

(** Nodes that pass their first input on pass its metadata on, however many
    there are in a row and whatever they do to the pixels. *)
Theorem C87_travels : forall (D : Type) p (x : externals D) s s', in_a_row p x s s' -> about (st_spec s') = about (st_spec s).
Proof. intros D. exact row_about. Qed.
Print Assumptions C87_travels.

(** A merged picture never has its inputs' metadata: it always says pixel
    aspect and gamma one. *)
Theorem C87_merged : forall (D : Type) p (x : externals D) n fr mode ins out (w : world D) n' st s' w', nd_type n = TMerge ->
  node_compute p x n fr mode ins out w = Ok (n', st, s', w') -> st_spec s' = spec_new.
Proof. intros D p x. exact (merge_about p x). Qed.
Print Assumptions C87_merged.

(** "The metadata of a picture is that of its input" is therefore false of
    merging: two pictures with pixel aspect two give one with aspect one. *)
Definition wide_stream : stream :=
  Stream SdInvalid 5 (BBox 0 0 1 1) (BBox 0 0 1 1) identity4 (Spec linear_name f1 1073741824 0 false 0) (sh_block dot_image) [] [].
Definition merge_node : node := setup TMerge 3 [WI32 "enable" 1].
Theorem C87_merge_refuted : exists n s n' st s' w w',
  node_compute Release (glued Release) n frame0 15 [s; s] stream_new w = Ok (n', st, s', w') /\ st = NsValid /\
  sp_pixel_aspect (st_spec s) = 1073741824 /\ sp_pixel_aspect (st_spec s') = f1.
Proof.
  exists merge_node, wide_stream. do 3 eexists. exists (World (with_capacity 4096) []). eexists.
  split; [vm_compute; reflexivity|]. split; [reflexivity|]. split; reflexivity.
Qed.
Print Assumptions C87_merge_refuted.

(** Orientation.  Files number the eight orientations from one, the library
    from zero, and the number is copied: no file's orientation is understood,
    each of the first seven is taken for the next one. *)
Theorem C87_orientation_shifted : forall p f img r k,
  oiio_read_image p (Some f) img = Done (true, r) -> o_orientation (fi_spec f) = Some k -> 1 <= k <= 8 ->
  ~ oriented (sh_spec r) k /\ (k <= 7 -> oriented (sh_spec r) (k + 1)).
Proof.
  intros p f img r k R O K. exact (conj (shifted p f img r k R O K) (fun L => next_one p f img r k R O (conj (proj1 K) L))).
Qed.
Print Assumptions C87_orientation_shifted.

(** "A picture says how it is stored" is false: an ordinary file (code 1, first
    row on top, first column at the left) is taken to be mirrored. *)
Definition upright_file : file :=
  File (OSpec 0 0 1 1 0 0 1 1 3 OFloat (Some linear_name) (Some f1) (Some f1) (Some 1) (Some 0) (Some 0)) (DF32 [f32_one; f32_one; f32_one]).
Theorem C87_orientation_refuted : exists f r, whole_file f /\ o_orientation (fi_spec f) = Some 1 /\
  oiio_read_image Release (Some f) empty_image = Done (true, r) /\ ~ oriented (sh_spec r) 1 /\ sp_orientation (sh_spec r) = orient_code OrFlippedH.
Proof.
  exists upright_file. eexists. split; [unfold whole_file, count_fits, two31; cbn; repeat split; lia|].
  split; [reflexivity|]. split; [vm_compute; reflexivity|]. split; [|reflexivity].
  eapply (shifted Release upright_file empty_image); [vm_compute; reflexivity|reflexivity|lia].
Qed.
Print Assumptions C87_orientation_refuted.

(** What a write node writes always says: gamma and aspect one, colours
    multiplied by alpha, no dithering, Linear, and orientation zero, which is
    not an orientation. *)
Theorem C87_written : forall (D : Type) p (x : externals D) n fr s path img co, written p x n fr s path img co ->
  o_orientation (fi_spec (file_of img)) = Some 0 /\ o_gamma (fi_spec (file_of img)) = Some f1 /\ o_aspect (fi_spec (file_of img)) = Some f1 /\
  o_unassociated (fi_spec (file_of img)) = Some 0 /\ o_dither (fi_spec (file_of img)) = Some 0 /\
  o_color_space (fi_spec (file_of img)) = Some linear_name /\ stored_as 0 = None.
Proof. intros D. exact written_about. Qed.
Print Assumptions C87_written.

(** The premises are met: a grade and then a crop of a picture with pixel
    aspect two. *)
Definition grade_node : node := setup TGrade 3 [WI32 "enable" 1; WF32 "gain_r" 1073741824].
Definition crop_node : node := setup TCrop 4 [WI32 "enable" 1; WI32 "window_max_x" 1; WI32 "window_max_y" 1].
Definition wmeta : world files := World (with_capacity 4096) [].
Definition shown (r : Res (node * node_status * stream * world files)) : stream := match r with Ok (_, _, s, _) => s | Panic => stream_new end.
Definition graded : stream := Eval vm_compute in shown (node_compute Release (glued Release) grade_node frame0 15 [wide_stream] stream_new wmeta).
Definition cropped : stream := Eval vm_compute in shown (node_compute Release (glued Release) crop_node frame0 15 [graded] stream_new wmeta).
Example C87_row : in_a_row Release (glued Release) wide_stream cropped /\ cropped <> wide_stream /\ sp_pixel_aspect (st_spec cropped) = 1073741824.
Proof.
  split; [|split; [discriminate|reflexivity]].
  eapply row_next with (n := crop_node) (rest := []) (out := stream_new) (w := wmeta) (fr := frame0) (mode := 15).
  - eapply row_next with (n := grade_node) (s1 := wide_stream) (s2 := graded) (rest := []) (out := stream_new) (w := wmeta) (fr := frame0) (mode := 15).
    + apply row_start.
    + vm_compute. reflexivity.
    + exact I.
    + vm_compute. reflexivity.
  - vm_compute. reflexivity.
  - exact I.
  - vm_compute. reflexivity.
Qed.

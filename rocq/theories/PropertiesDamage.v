(** C88: files that cannot be read to the end. *)
From Coq Require String.
Import String.StringSyntax.
From Coq Require Import Floats.SpecFloat Lia.
From Verif Require Import Machine CacheModel FloatModel BBoxModel BBoxSpec PixelModel PixelSpec PixelProofs2 EnumModel AttrModel HashModel PathModel
  StreamModel DeformModel BakeModel BakeProofs GraphModel GraphSpec NodeModel NodeExamples NodeSpec ChainSpec FileModel FileSpec FileProofs
  DamageSpec DamageProofs PropertiesNode PropertiesRun PropertiesFile.
Local Open Scope string_scope.

(** A read node whose file opens but of which the image library can decode only
    the pixels [got] is valid and shows these, and white for all others. *)
Theorem C88_damaged_partial : forall (D : Type) p (x : externals D) got b fr h mode out (w : world D) f path st s w',
  whole_file f -> 3 <= o_channels (fi_spec f) <= stored_channels f -> o_format (fi_spec f) <> OOther ->
  (forall ok r, oiio_read_damaged got p (Some f) empty_image = Done (ok, r) -> x_read x (w_disk w) path empty_image = r) ->
  Z.land mode m_pixel <> 0 -> gi TRead b "enable" <> 0 ->
  expand_string (x_expand x) (gs TRead b "file_path") (frame_number fr) = Ok path -> x_kind x (w_disk w) path = RegularFile ->
  gi TRead b "use_cache" = 0 \/ misses w h ->
  read_compute p x b fr h mode out w = Ok (st, s, w') ->
  st = NsValid /\ pixels_got got (st_block s) f /\ st_display s = read_display (fi_spec f) /\ st_data s = read_data (fi_spec f).
Proof. intro D. exact damaged_shown. Qed.
Print Assumptions C88_damaged_partial.

(** Reading all of it is the case where every pixel is got. *)
Theorem C88_undamaged : forall p f img, oiio_read_damaged (fun _ => true) p f img = oiio_read_image p f img.
Proof. exact undamaged. Qed.
Print Assumptions C88_undamaged.

(** A read node whose file exists but does not open (it is not a picture, say) is
    valid as well, and shows a picture without pixels in empty windows. *)
Theorem C88_unopened : forall (D : Type) p (x : externals D) b fr h mode out (w : world D) path st s w',
  (forall ok r, oiio_read_image p None empty_image = Done (ok, r) -> x_read x (w_disk w) path empty_image = r) ->
  Z.land mode m_pixel <> 0 -> gi TRead b "enable" <> 0 ->
  expand_string (x_expand x) (gs TRead b "file_path") (frame_number fr) = Ok path -> x_kind x (w_disk w) path = RegularFile ->
  gi TRead b "use_cache" = 0 \/ misses w h ->
  read_compute p x b fr h mode out w = Ok (st, s, w') ->
  st = NsValid /\ pb_size (st_block s) = BS 0 0 0 /\ pb_data (st_block s) = DF32 [] /\
  st_display s = BBox 0 0 0 0 /\ st_data s = BBox 0 0 0 0 /\ sp_color_space (st_spec s) = linear_name.
Proof. intro D. exact unopened_shown. Qed.
Print Assumptions C88_unopened.

(** An image library that opens nothing. *)
Definition blind : externals disk :=
  Externals (x_expand demo) (x_digest demo) (x_numerics demo) (x_convert demo) (x_resample demo) (x_lens_ok demo)
    (x_kind demo) (fun _ _ img => img) (x_write demo).
Example C88_unopened_case : exists s w,
  read_compute Debug blind (nd_attrs (setup TRead 1 [WStr "file_path" [97]])) frame0 77 mode_all stream_new (demo_world dot_disk 4096) = Ok (NsValid, s, w) /\
  forall ok r, oiio_read_image Debug None empty_image = Done (ok, r) -> x_read blind dot_disk [97] empty_image = r.
Proof. do 2 eexists. split; [vm_compute; reflexivity|]. intros ok r [= _ <-]. reflexivity. Qed.

(** An image library over files with the pixels that can be decoded. *)
Definition frail_files := list (list Z * (file * (nat -> bool))).
Fixpoint frail_find (d : frail_files) (path : list Z) : option (file * (nat -> bool)) :=
  match d with [] => None | (q, f) :: t => if bytes_eqb q path then Some f else frail_find t path end.
Definition frail (p : profile) : externals frail_files :=
  Externals (fun l => l) demo_digest demo_numerics (fun px _ _ _ _ _ _ _ => Some px) (fun _ dst _ _ => (false, dst))
    (fun _ => true)
    (fun d path => match frail_find d path with Some _ => RegularFile | None => NoEntry end)
    (fun d path img => match frail_find d path with
                       | Some (f, got) => match oiio_read_damaged got p (Some f) img with Done (_, r) => r | _ => img end
                       | None => img end)
    (fun d _ _ _ => (d, false)).

(** A black picture of two pixels, cut off after the first. *)
Definition black_file : file := File (OSpec 0 0 2 1 0 0 2 1 3 OUInt8 None None None None None None) (DU8 [0; 0; 0; 0; 0; 0]).
Definition cut (k : nat) : bool := Nat.ltb k 1.
Example C88_damaged_case :
  whole_file black_file /\ stored_channels black_file = 4 /\
  x_read (frail Debug) [([97], (black_file, cut))] [97] empty_image =
  Shared (PB (BS 2 1 4) (DU8 [0; 0; 0; 255; 255; 255; 255; 255])) (BBox 0 0 2 1) (BBox 0 0 2 1) (Spec [] f1 f1 0 false 0).
Proof. split; [unfold whole_file, count_fits, two31; cbn; repeat split; lia|]. split; [reflexivity|vm_compute; reflexivity]. Qed.

(** "A read node shows the file, or says that it could not read it" is false:
    the cut-off file gives a half white picture with status valid. *)
Theorem C88_reported_refuted : exists f got s w, whole_file f /\ got 1%nat = false /\
  compute_op Release (frail Release) TRead (nd_attrs (setup TRead 1 [WStr "file_path" [97]])) frame0 77 mode_all [] stream_new
    (World (with_capacity 4096) [([97], (f, got))]) = Ok (NsValid, s, w) /\
  pb_data (st_block s) = DU8 [0; 0; 0; 255; 255; 255; 255; 255].
Proof.
  exists black_file, cut. do 2 eexists. split; [unfold whole_file, count_fits, two31; cbn; repeat split; lia|].
  split; [reflexivity|]. split; [vm_compute; reflexivity|reflexivity].
Qed.
Print Assumptions C88_reported_refuted.

(** Nor does it show the file once it is complete: the half white picture is in
    the cache, under a key that does not depend on the file's content. *)
Theorem C88_completed_refuted : exists f got s w s' w', whole_file f /\ got 1%nat = false /\
  let run := compute_op Release (frail Release) TRead (nd_attrs (setup TRead 1 [WStr "file_path" [97]])) frame0 77 mode_all [] stream_new in
  run (World (with_capacity 4096) [([97], (f, got))]) = Ok (NsValid, s, w) /\
  run (World (w_cache w) [([97], (f, fun _ => true))]) = Ok (NsValid, s', w') /\
  pb_data (st_block s') = DU8 [0; 0; 0; 255; 255; 255; 255; 255].
Proof.
  exists black_file, cut. do 4 eexists. split; [unfold whole_file, count_fits, two31; cbn; repeat split; lia|].
  split; [reflexivity|]. cbv zeta. split; [vm_compute; reflexivity|]. split; [vm_compute; reflexivity|reflexivity].
Qed.
Print Assumptions C88_completed_refuted.

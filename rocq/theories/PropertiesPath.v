(** C39-C42: frame padding, enumeration codes, configuration. *)
From Coq Require Import Floats.SpecFloat.
From Verif Require Import Machine Loops FloatModel PathModel PathSpec PathProofs
  EnumModel EnumSpec EnumProofs ConfigModel ConfigProofs.

(* ------------------------------ C39 ------------------------------ *)

(** Whatever the shell expansion [sh] is: the first run of 1 to 9 '#' is
    replaced by the frame number padded to at least that many characters. *)
Theorem C39_frame_padding : forall sh v frame pre n post,
  first_run (sh v) pre n post -> 1 <= n <= 9 -> PathSpec.in_i32 frame ->
  exists t, expand_string sh v frame = Ok (pre ++ t ++ post) /\ padded n frame t.
Proof. exact expand_spec. Qed.
Print Assumptions C39_frame_padding.

(** Every path has such a first run (empty when there is no '#'). *)
Theorem C39_run_exists : forall s, exists pre n post,
  first_run s pre n post /\ (In 35 s -> 1 <= n).
Proof. exact first_run_exists. Qed.
Print Assumptions C39_run_exists.

Theorem C39_no_padding : forall sh v frame, ~ In 35 (sh v) -> expand_string sh v frame = Ok (sh v).
Proof. exact expand_none. Qed.
Print Assumptions C39_no_padding.

Theorem C39_never_panics : forall sh v frame, exists r, expand_string sh v frame = Ok r.
Proof. exact expand_total. Qed.
Print Assumptions C39_never_panics.

Theorem C39_frames_distinct : forall sh v f g pre n post,
  first_run (sh v) pre n post -> 1 <= n <= 9 -> PathSpec.in_i32 f -> PathSpec.in_i32 g ->
  expand_string sh v f = expand_string sh v g -> f = g.
Proof. exact expand_inj. Qed.
Print Assumptions C39_frames_distinct.

(** Non-negative frames that fit the padding sort by name as by number. *)
Theorem C39_frames_sorted : forall sh v f g pre n post,
  first_run (sh v) pre n post -> 1 <= n <= 9 -> 0 <= f -> f < g -> g < 10 ^ n ->
  exists s t, expand_string sh v f = Ok s /\ expand_string sh v g = Ok t /\
    length s = length t /\ lex_lt s t.
Proof. exact expand_sorted. Qed.
Print Assumptions C39_frames_sorted.

(** "a.####.b#" at frame -7 is "a.-007.b#". *)
Example C39_hypotheses_met :
  first_run [97; 46; 35; 35; 35; 35; 46; 98; 35] [97; 46] 4 [46; 98; 35] /\
  expand_string (fun v => v) [97; 46; 35; 35; 35; 35; 46; 98; 35] (-7) =
    Ok [97; 46; 45; 48; 48; 55; 46; 98; 35] /\
  expand_string (fun v => v) [35] 123 = Ok [49; 50; 51].
Proof.
  split; [|split; reflexivity]. unfold first_run. split; [lia|]. split; [reflexivity|].
  split; [|discriminate]. intros [E|[E|[]]]; discriminate.
Qed.

(* ------------------------------ C40 ------------------------------ *)

(** Finding: ten or more '#' are removed and the frame number is not inserted,
    so every frame has the same file name. *)
Theorem C40_long_padding_refuted : forall sh v f g pre n post,
  first_run (sh v) pre n post -> 10 <= n ->
  expand_string sh v f = Ok (pre ++ post) /\ expand_string sh v f = expand_string sh v g.
Proof.
  intros sh v f g pre n post HR Hn. split; [|rewrite (expand_long sh v g pre n post) by assumption];
  apply expand_long with (n := n); assumption.
Qed.
Print Assumptions C40_long_padding_refuted.

Theorem C40_refuted : exists v, exists f g, f <> g /\
  first_run v [97] 10 [] /\ expand_string (fun v => v) v f = expand_string (fun v => v) v g.
Proof.
  exists ([97] ++ repeat 35 10). exists 1, 2. split; [discriminate|].
  split; [|reflexivity]. unfold first_run. split; [lia|]. split; [reflexivity|].
  split; [|exact I]. intros [E|[]]; discriminate.
Qed.
Print Assumptions C40_refuted.

(* ------------------------------ C41 ------------------------------ *)

Theorem C41_data_type : safe_decoding data_type_code DtUnknown data_type_from.
Proof. exact data_type_safe. Qed.
Print Assumptions C41_data_type.
Theorem C41_bake_option : safe_decoding bake_code BakeUninitialized bake_from.
Proof. exact bake_safe. Qed.
Print Assumptions C41_bake_option.
Theorem C41_merge_mode : safe_decoding merge_code MergeUninitialized merge_from.
Proof. exact merge_safe. Qed.
Print Assumptions C41_merge_mode.
Theorem C41_lens_direction : safe_decoding lens_code LensUninitialized lens_from.
Proof. exact lens_safe. Qed.
Print Assumptions C41_lens_direction.
Theorem C41_orientation : safe_decoding orient_code OrUninitialized orient_from.
Proof. exact orient_safe. Qed.
Print Assumptions C41_orientation.
Theorem C41_disk_cache_type : safe_decoding disk_code DiskUninitialized disk_from.
Proof. exact disk_safe. Qed.
Print Assumptions C41_disk_cache_type.
Theorem C41_crop_on_write : safe_decoding crop_code CropUninitialized crop_from.
Proof. exact crop_safe. Qed.
Print Assumptions C41_crop_on_write.
Theorem C41_jpeg_sampling : safe_decoding jpeg_code JpegUninitialized jpeg_from.
Proof. exact jpeg_safe. Qed.
Print Assumptions C41_jpeg_sampling.
Theorem C41_exr_compression : safe_decoding exr_code ExrUninitialized exr_from.
Proof. exact exr_safe. Qed.
Print Assumptions C41_exr_compression.

Example C41_some_codes :
  bake_from 3 = BakeAll /\ bake_from 4 = BakeUninitialized /\ exr_from (-1) = ExrUninitialized /\
  orient_from 255 = OrUninitialized /\ exr_from 10 = ExrDwab.
Proof. repeat split. Qed.

(* ------------------------------ C42 ------------------------------ *)

(** Finding: [.min(0.0).max(1.0)] makes the factor 1 for every setting (also
    NaN), so the whole memory is used whatever the configuration says. *)
Theorem C42_factor_always_one_refuted : forall p, ram_capacity_percent p = f32_of_Z 1.
Proof. exact percent_one. Qed.
Print Assumptions C42_factor_always_one_refuted.

Theorem C42_setting_ignored_refuted : forall ram p q,
  ram_capacity_bytes ram p = ram_capacity_bytes ram q.
Proof. exact capacity_constant. Qed.
Print Assumptions C42_setting_ignored_refuted.

(** 20 percent (the shipped configuration) of 16 GiB. *)
Theorem C42_refuted : exists ram p,
  p = f32_of_Z 20 /\ ram = 2 ^ 34 /\ ram_capacity_bytes ram p = 2 ^ 34.
Proof. exists (2 ^ 34), (f32_of_Z 20). repeat split; vm_compute; reflexivity. Qed.
Print Assumptions C42_refuted.

(** The part that holds: a setting of 100 percent gives the factor 1. *)
Theorem C42_full_partial : ram_capacity_percent (f32_of_Z 100) = f32_div (f32_of_Z 100) (f32_of_Z 100).
Proof. reflexivity. Qed.
Print Assumptions C42_full_partial.

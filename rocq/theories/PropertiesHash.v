(** C34-C36: what the cache keys of nodes identify. *)
From Coq Require String.
Import String.StringSyntax.
From Coq Require Import Floats.SpecFloat.
From Verif Require Import Machine FloatModel PathModel PathProofs AttrModel HashModel HashSpec HashProofs
  StreamModel DeformModel.
Local Open Scope string_scope.

(* ------------------------------ C34 ------------------------------ *)

(** Two active settings of the same node type that feed the same bytes to the
    hasher agree on every attribute that can influence the image, name the same
    file and have the same inputs.  (Lens distortion: see C36.) *)
Theorem C34_key_determines_settings_partial : forall p expand t b b' fr fr' ins ins' k,
  t <> TLens ->
  clean_paths expand -> wf_block b -> wf_block b' -> active t b -> active t b' ->
  Forall u64_value ins -> Forall u64_value ins' ->
  cache_hash_bytes p expand t b fr ins = Ok k -> cache_hash_bytes p expand t b' fr' ins' = Ok k ->
  agree_on (influences t b) b b' /\ same_path expand t b b' fr fr' /\ ins = ins'.
Proof. exact key_settings_no_lens. Qed.
Print Assumptions C34_key_determines_settings_partial.

(** Nodes of different types never share a key. *)
Theorem C34_key_determines_type : forall p expand t t' b b' fr fr' ins ins' k,
  cache_hash_bytes p expand t b fr ins = Ok k -> cache_hash_bytes p expand t' b' fr' ins' = Ok k ->
  t = t'.
Proof. exact key_type. Qed.
Print Assumptions C34_key_determines_type.

(** Hashing succeeds in both profiles. *)
Theorem C34_key_exists : forall p expand t b fr ins, wf_block b ->
  exists k, cache_hash_bytes p expand t b fr ins = Ok k.
Proof. exact key_exists. Qed.
Print Assumptions C34_key_exists.

(** Two crop settings that differ in the window: hypotheses met, keys differ. *)
Example C34_crop_case :
  let b := put_i32 crop_new "window_max_x" 100 in
  let b' := put_i32 crop_new "window_max_x" (-100) in
  active TCrop b /\ active TCrop b' /\ clean_paths (fun v => v) /\ wf_block b /\ wf_block b' /\
  (exists k k', cache_hash_bytes Debug (fun v => v) TCrop b (S754_zero false) [7] = Ok k /\
    cache_hash_bytes Debug (fun v => v) TCrop b' (S754_zero false) [7] = Ok k' /\ k <> k').
Proof.
  split; [reflexivity|]. split; [reflexivity|].
  split; [intros v H K; apply H in K; lia|].
  split; [apply put_i32_wf; [exact (default_wf TCrop)|lia]|].
  split; [apply put_i32_wf; [exact (default_wf TCrop)|lia]|].
  eexists; eexists; split; [vm_compute; reflexivity|]. split; [vm_compute; reflexivity|]. discriminate.
Qed.

(** The guard is needed: a Read node with [enable = 2] still reads its file (the
    code tests [enable == 0] and [enable == 1] in different places) but its key
    ignores the path, for every pair of paths. *)
Theorem C34_read_enable_two_refuted : forall p expand b fr path path' ins,
  b_i32 b "enable" = 2 ->
  cache_hash_bytes p expand TRead (put_str b "file_path" path) fr ins
  = cache_hash_bytes p expand TRead (put_str b "file_path" path') fr ins.
Proof. exact read_enable_two. Qed.
Print Assumptions C34_read_enable_two_refuted.

Example C34_read_enable_two_case : b_i32 (put_i32 read_new "enable" 2) "enable" = 2.
Proof. reflexivity. Qed.

(* ------------------------------ C35 ------------------------------ *)

Theorem C35_decode_injective : forall p a b, f32_pattern a -> f32_pattern b ->
  integer_decode_f32 p a = integer_decode_f32 p b -> a = b.
Proof. exact decode_inj. Qed.
Print Assumptions C35_decode_injective.

(** The decoded parts fit u64, i16 and i8 in both profiles. *)
Theorem C35_values_fit : forall p bits, f32_pattern bits ->
  exists m e s, integer_decode_f32 p bits = Ok (m, e, s) /\
    0 <= m < 2 ^ 64 /\ - 2 ^ 15 <= e < 2 ^ 15 /\ - 2 ^ 7 <= s < 2 ^ 7.
Proof. exact decode_fits. Qed.
Print Assumptions C35_values_fit.

(** Different bit patterns feed different bytes to the hasher. *)
Theorem C35_bytes_injective : forall p a b h, f32_pattern a -> f32_pattern b ->
  hash_f32 p a = Ok h -> hash_f32 p b = Ok h -> a = b.
Proof. exact hash_f32_inj. Qed.
Print Assumptions C35_bytes_injective.

(** Signed zeros, infinity, a NaN, the smallest denormal. *)
Example C35_cases : forall a, In a [0; 2147483648; 2139095040; 2143289344; 1] -> f32_pattern a.
Proof. intros a H. cbn in H. unfold f32_pattern. lia. Qed.

(* ------------------------------ C36 ------------------------------ *)

(** The distortion direction is not part of the key: any two directions share
    it, for all other settings, frames and inputs. *)
Theorem C36_direction_not_in_key : forall p expand b fr d d' ins,
  cache_hash_bytes p expand TLens (put_i32 b "direction" d) fr ins
  = cache_hash_bytes p expand TLens (put_i32 b "direction" d') fr ins.
Proof. exact lens_direction. Qed.
Print Assumptions C36_direction_not_in_key.

(** Every other setting is part of it. *)
Theorem C36_lens_key_partial : forall p expand b b' fr fr' ins ins' k,
  clean_paths expand -> wf_block b -> wf_block b' -> active TLens b -> active TLens b' ->
  Forall u64_value ins -> Forall u64_value ins' ->
  cache_hash_bytes p expand TLens b fr ins = Ok k -> cache_hash_bytes p expand TLens b' fr' ins' = Ok k ->
  agree_on [AF32 "lens_center_offset_x"; AF32 "lens_center_offset_y"; AF32 "distortion";
            AF32 "anamorphic_squeeze"; AF32 "curvature_x"; AF32 "curvature_y"; AF32 "quartic_distortion"] b b'
  /\ ins = ins'.
Proof. exact lens_key. Qed.
Print Assumptions C36_lens_key_partial.

(** Two settings with the same key that move a point differently: a lens plug-in
    that distorts by halving coordinates. *)
Definition halving : numerics :=
  let half z := f32_div z (f32_of_Z 2) in
  let twice z := f32_mul z (f32_of_Z 2) in
  Numerics (fun x _ => x) (fun x => x) (fun x => x) (fun _ => None)
    (fun _ distort pt => if distort then (half (fst pt), half (snd pt)) else (twice (fst pt), twice (snd pt)))
    (fun _ _ b => b).
Definition unit_box : bboxf := BBoxF f32_zero f32_zero f32_one f32_one.

Theorem C36_refuted : exists b b' k,
  active TLens b /\ active TLens b' /\
  cache_hash_bytes Release (fun v => v) TLens b (S754_zero false) [] = Ok k /\
  cache_hash_bytes Release (fun v => v) TLens b' (S754_zero false) [] = Ok k /\
  tde4_apply halving (Vals [("direction", b_i32 b "direction")] []) unit_box false (f32_one, f32_one)
  <> tde4_apply halving (Vals [("direction", b_i32 b' "direction")] []) unit_box false (f32_one, f32_one).
Proof.
  exists lens_new, (put_i32 lens_new "direction" 1).
  eexists. split; [reflexivity|]. split; [reflexivity|].
  split; [vm_compute; reflexivity|]. split; [vm_compute; reflexivity|].
  vm_compute. discriminate.
Qed.
Print Assumptions C36_refuted.

From Verif Require Import Machine EnumModel EnumSpec.

Lemma safe_by_cases : forall {E : Type} (code : E -> Z) (invalid : E) (decode : Z -> E),
  (forall e, decode (code e) = e) ->
  (forall z, decode z = invalid \/ code (decode z) = z) ->
  (forall e, 0 <= code e < 256) ->
  safe_decoding code invalid decode.
Proof.
  intros E code invalid decode H1 H2 H3. split; [exact H1|]. split.
  - intros z (e & <-). rewrite H1. reflexivity.
  - split; [|split; [|exact H3]].
    + intros z HN. destruct (H2 z) as [H|H]; [exact H|]. contradiction (HN (decode z) H).
    + intros e e' HE. rewrite <- (H1 e), <- (H1 e'), HE. reflexivity.
Qed.

Ltac safe :=
  apply safe_by_cases;
  [ intros []; reflexivity
  | intros z; destruct z as [|z|z]; try (right; reflexivity); try (left; reflexivity);
    do 4 (try (destruct z as [z|z|]; try (right; reflexivity); try (left; reflexivity)))
  | intros []; cbn; lia ].

Lemma data_type_safe : safe_decoding data_type_code DtUnknown data_type_from. Proof. safe. Qed.
Lemma bake_safe : safe_decoding bake_code BakeUninitialized bake_from. Proof. safe. Qed.
Lemma merge_safe : safe_decoding merge_code MergeUninitialized merge_from. Proof. safe. Qed.
Lemma lens_safe : safe_decoding lens_code LensUninitialized lens_from. Proof. safe. Qed.
Lemma orient_safe : safe_decoding orient_code OrUninitialized orient_from. Proof. safe. Qed.
Lemma disk_safe : safe_decoding disk_code DiskUninitialized disk_from. Proof. safe. Qed.
Lemma crop_safe : safe_decoding crop_code CropUninitialized crop_from. Proof. safe. Qed.
Lemma jpeg_safe : safe_decoding jpeg_code JpegUninitialized jpeg_from. Proof. safe. Qed.
Lemma exr_safe : safe_decoding exr_code ExrUninitialized exr_from. Proof. safe. Qed.

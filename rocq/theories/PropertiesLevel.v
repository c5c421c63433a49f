(** C97: changing the number format of a picture. *)
From Coq Require Import Reals Floats.SpecFloat Psatz.
From Flocq Require Import Core.Core.
From Verif Require Import Machine FloatModel FloatReal PixelModel MergeSpec BakeSpec LineProofs UndoPower LevelSpec LevelProofs.
Local Open Scope R_scope.

(** Floats as 8 or 16 bit levels. *)
Theorem C97_bytes : forall l, Forall f32_ok l ->
  exists l', db_convert (DF32 l) UInt8 = Ok (DU8 l') /\ Forall2 (levelled 255) l l'.
Proof. exact bytes_right. Qed.
Print Assumptions C97_bytes.
Theorem C97_words : forall l, Forall f32_ok l ->
  exists l', db_convert (DF32 l) UInt16 = Ok (DU16 l') /\ Forall2 (levelled 65535) l l'.
Proof. exact words_right. Qed.
Print Assumptions C97_words.

(** Brighter stays at least as bright. *)
Theorem C97_order_bytes : forall x y, f32_ok x -> f32_ok y -> f32_le x y = true ->
  exists s t, db_convert (DF32 [x; y]) UInt8 = Ok (DU8 [s; t]) /\ (s <= t)%Z.
Proof. exact order_8. Qed.
Print Assumptions C97_order_bytes.
Theorem C97_order_words : forall x y, f32_ok x -> f32_ok y -> f32_le x y = true ->
  exists s t, db_convert (DF32 [x; y]) UInt16 = Ok (DU16 [s; t]) /\ (s <= t)%Z.
Proof. exact order_16. Qed.
Print Assumptions C97_order_words.

(** Levels as floats. *)
Theorem C97_shades_bytes : forall l, Forall (fun t => 0 <= t <= 255)%Z l ->
  exists l', db_convert (DU8 l) Float32 = Ok (DF32 l') /\ Forall2 (shade_of 255) l l'.
Proof. exact shades_8. Qed.
Print Assumptions C97_shades_bytes.
Theorem C97_shades_words : forall l, Forall (fun t => 0 <= t <= 65535)%Z l ->
  exists l', db_convert (DU16 l) Float32 = Ok (DF32 l') /\ Forall2 (shade_of 65535) l l'.
Proof. exact shades_16. Qed.
Print Assumptions C97_shades_words.

(** Halves: the nearest one, and the same number back. *)
Theorem C97_halves : forall l, exists l', db_convert (DF32 l) Half16 = Ok (DF16 l') /\ Forall2 nearest_half l l'.
Proof. exact halves_right. Qed.
Print Assumptions C97_halves.
Theorem C97_halves_back : forall l, Forall (fun h => is_half h /\ f32_finite h) l ->
  exists l', db_convert (DF16 l) Float32 = Ok (DF32 l') /\ Forall2 (fun h x => plain_value x /\ R32 x = R32 h) l l'.
Proof. exact halves_back. Qed.
Print Assumptions C97_halves_back.

(** 16 bits to 8 keeps the upper level, exactly. *)
Theorem C97_narrow : forall l, Forall (fun t => 0 <= t <= 65535)%Z l ->
  db_convert (DU16 l) UInt8 = Ok (DU8 (map (fun t => t / 257)%Z l)).
Proof. exact narrow_all. Qed.
Print Assumptions C97_narrow.
(** All other conversions go by way of floats. *)
Theorem C97_through_float : forall d t, db_type d <> t -> t <> Float32 -> t <> UnknownType -> db_type d <> Float32 ->
  db_convert d t = let* d' := db_convert d Float32 in db_convert d' t.
Proof. exact through_float. Qed.
Print Assumptions C97_through_float.

(** Three quarters, infinity and NaN. *)
Example C97_example : Forall f32_ok [S754_finite false 12582912 (-24); S754_infinity false; S754_nan] /\
  db_convert (DF32 [S754_finite false 12582912 (-24); S754_infinity false; S754_nan]) UInt8 = Ok (DU8 [191; 255; 0]%Z) /\
  db_convert (DF32 [S754_finite false 12582912 (-24); S754_infinity false; S754_nan]) Half16
    = Ok (DF16 [S754_finite false 1536 (-11); S754_infinity false; S754_nan]).
Proof. split; [repeat constructor|]. split; vm_compute; reflexivity. Qed.

(** The level is not the nearest one: one unit below one is nearly white but
    counts as 254. *)
Theorem C97_nearest_refuted : exists x t, f32_ok x /\ db_convert (DF32 [x]) UInt8 = Ok (DU8 [t]) /\
  Rabs (IZR (t + 1) - 255 * R32 x) < Rabs (IZR t - 255 * R32 x).
Proof.
  exists (S754_finite false 16777215 (-24)), 254%Z. split; [reflexivity|]. split; [vm_compute; reflexivity|].
  unfold R32, BinarySingleNaN.SF2R, F2R. cbn [Fnum Fexp SpecFloat.cond_Zopp]. change (bpow radix2 (-24)) with (/ 16777216).
  rewrite Rabs_pos_eq by (change (254 + 1)%Z with 255%Z; lra). rewrite Rabs_left1 by lra. change (254 + 1)%Z with 255%Z. lra.
Qed.
Print Assumptions C97_nearest_refuted.

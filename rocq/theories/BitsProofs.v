(** The bit patterns of f32 attributes against Flocq's reading of them. *)
From Coq Require Import Floats.SpecFloat Lia.
From Flocq Require Import IEEE754.Binary IEEE754.Bits.
From Verif Require Import Machine FloatModel StreamModel.

Lemma bits_read b : 0 <= b < 2 ^ 32 -> FF2SF (binary_float_of_bits_aux 23 8 b) = f32_of_bits b.
Proof.
  intros B. unfold binary_float_of_bits_aux, split_bits, f32_of_bits.
  rewrite !Z.shiftr_div_pow2 by lia.
  change 255 with (Z.ones 8). change 8388607 with (Z.ones 23). rewrite !Z.land_ones by lia.
  change (2 ^ 8 - 1) with (Z.ones 8). change (2 ^ 23) with 8388608. change (2 ^ 8) with 256. change (2 ^ 31) with 2147483648. change (Z.ones 8) with 255.
  change (8388608 * 256) with 2147483648. change (2 ^ 32) with 4294967296 in B.
  replace (negb (b / 2147483648 =? 0)) with (2147483648 <=? b).
  2:{ destruct (Z.leb_spec 2147483648 b) as [L|L].
      - destruct (Z.eqb_spec (b / 2147483648) 0) as [E|E]; [|reflexivity]. exfalso.
        pose proof (Z.div_le_mono 2147483648 b 2147483648 ltac:(lia) L) as X. change (2147483648 / 2147483648) with 1 in X. lia.
      - rewrite Z.div_small by lia. reflexivity. }
  set (e := (b / 8388608) mod 256). set (m := b mod 8388608).
  assert (M : 0 <= m < 8388608) by (apply Z.mod_pos_bound; lia).
  assert (E : 0 <= e < 256) by (apply Z.mod_pos_bound; lia). clearbody e m.
  unfold Zeq_bool. rewrite !Z.eqb_compare.
  destruct (Z.compare_spec e 255) as [->|H|H]; cbn [FF2SF].
  - change (255 ?= 0) with Gt. cbv iota. destruct m as [|m|m]; [reflexivity|reflexivity|lia].
  - destruct (Z.compare_spec e 0) as [->|K|K]; [|lia|].
    + destruct m as [|m|m]; [reflexivity|reflexivity|lia].
    + destruct (m + 8388608) eqn:S; [lia| |lia]. cbn [FF2SF]. apply (f_equal (S754_finite _ _)). match goal with |- ?l = _ => replace l with (e + -149 - 1) by reflexivity end. lia.
  - lia.
Qed.

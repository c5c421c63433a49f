From Coq Require Import Floats.SpecFloat.
From Verif Require Import Machine FloatModel ConfigModel.

Lemma min_zero_shape : forall x, exists s y, f32_min x f32_zero = y /\
  (y = S754_zero s \/ (exists m e, y = S754_finite true m e) \/ y = S754_infinity true).
Proof.
  intros [s|s| |s m e]; unfold f32_min, is_nan_sf, f32_lt, SFltb, SFcompare, f32_zero; try destruct s;
    first [ exists false; eexists; split; [reflexivity|]; auto; right; left; eauto; fail
          | exists true; eexists; split; [reflexivity|]; auto; right; left; eauto; fail
          | exists true; eexists; split; [reflexivity|]; eauto ].
Qed.

Lemma percent_one : forall p, ram_capacity_percent p = f32_one.
Proof.
  intros p. unfold ram_capacity_percent.
  destruct (min_zero_shape (f32_div p (f32_of_Z 100))) as (s & y & -> & [->|[(m & e & ->)| ->]]);
    try destruct s; reflexivity.
Qed.

Lemma capacity_constant : forall ram p q, ram_capacity_bytes ram p = ram_capacity_bytes ram q.
Proof. intros. unfold ram_capacity_bytes. rewrite !percent_one. reflexivity. Qed.

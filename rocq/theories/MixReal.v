(** Merging: error bounds (uses the axioms of Coq's real numbers). *)
From Coq Require Import Reals Floats.SpecFloat Psatz.
From Flocq Require Import Core.Core.
From Verif Require Import Machine FloatModel FloatReal GeomReal UndoReal LineReal BBoxModel PixelModel MergeModel MergeSpec MixSpec.
Local Open Scope R_scope.

Lemma stands_weaken v U k M N B k' N' B' : stands v U k M N B -> k <= k' -> N <= N' -> B <= B' -> stands v U k' M N' B'.
Proof.
  intros (V & F & D & S & L) HK HN HB. assert (0 <= M) by (pose proof (Rabs_pos U); lra).
  pose proof eps_small as E. pose proof eta_pos as T. split; [exact V|]. split; [exact F|]. split; [|split; [exact S|lra]].
  eapply Rle_trans; [exact D|]. apply Rplus_le_compat.
  - apply Rmult_le_compat_r; [assumption|]. apply Rmult_le_compat_r; lra.
  - apply Rmult_le_compat_r; lra.
Qed.

(** The sizes of values that stand for others. *)
Definition size_of (mode : merge_mode) (m aa va vb : R) : R :=
  match mode with
  | MAdd => va + vb * m
  | MOver => va + vb * ((1 + aa) * m)
  | MMultiply => va * (vb * m)
  | _ => 0
  end.

Section Composite.
Variables va vb aa mix : f32.
Variables A B C kA kB kC MA MB MC N L : R.
Hypothesis SA : stands va A kA MA N L.
Hypothesis SB : stands vb B kB MB N L.
Hypothesis SC : stands aa C kC MC N L.
Hypothesis SM : stands mix (R32 mix) 0 (Rabs (R32 mix)) 0 1.
Variable k : R.
Hypothesis KA : 0 <= kA. Hypothesis KB : 0 <= kB. Hypothesis KC : 0 <= kC.
Hypothesis KAB : kA + kB <= k. Hypothesis KBC : kB + kC <= k. Hypothesis K5 : k <= 5.
Hypothesis HN : 0 <= N <= 10 ^ 10.
Hypothesis HL : 1 <= L <= 10 ^ 13.

Lemma composite_stands mode : known_mode mode ->
  stands (formula mode mix aa va vb) (exact_merge mode (R32 mix) C A B) (k + 401 / 100) (size_of mode (Rabs (R32 mix)) MC MA MB) (100 * ((N + 1) * L)) (4 * (L * L)).
Proof.
  pose proof huge_big as HU. pose proof big90 as H90. pose proof big98 as H98.
  assert (HNN : 0 <= N <= huge) by (rewrite HU; lra). assert (H0 : 0 <= 0 <= huge) by (rewrite HU; lra).
  assert (NL : 0 <= N * L) by (apply Rmult_le_pos; lra). assert (NLL : N <= N * L) by (clear - HN HL; nra).
  assert (LL : L <= L * L) by (clear - HL; nra). assert (LU : L * L <= 10 ^ 26) by (clear - HL; replace (10 ^ 26) with (10 ^ 13 * 10 ^ 13) by ring; apply Rmult_le_compat; lra).
  assert (NU : N * L <= 10 ^ 23) by (replace (10 ^ 23) with (10 ^ 10 * 10 ^ 13) by ring; apply Rmult_le_compat; lra).
  intros [->|[->| ->]]; cbn [formula exact_merge size_of].
  - pose proof (stands_mul vb mix _ _ kB 0 _ _ N 0 L 1 SB SM ltac:(lra) ltac:(lra) HNN H0 ltac:(lra) ltac:(lra) ltac:(lra) ltac:(lra) ltac:(lra) ltac:(lra)) as P.
    pose proof (stands_add va _ _ _ _ _ _ _ _ _ _ _ SA P ltac:(lra) ltac:(lra) HNN ltac:(rewrite HU; lra) (k + 1002 / 1000)
      ltac:(lra) ltac:(lra) ltac:(lra) ltac:(lra)) as Q.
    eapply stands_weaken; [exact Q|lra|lra|lra].
  - destruct one_real as (V1 & F1 & E1).
    assert (S1 : stands f32_one 1 0 1 0 1).
    { pose proof (stands_exact f32_one 1 V1 F1) as S. rewrite E1, Rabs_R1 in S. apply S. lra. }
    pose proof (stands_sub f32_one aa _ _ _ _ _ _ _ _ _ _ S1 SC ltac:(lra) ltac:(lra) H0 HNN k ltac:(lra) ltac:(lra) ltac:(lra) ltac:(lra)) as P0.
    assert (P1 : stands (f32_sub f32_one aa) (1 - C) (kC + 1001 / 1000) (1 + MC) (2 * (0 + N) + 1) (1 + L)).
    { pose proof (stands_sub f32_one aa _ _ _ _ _ _ _ _ _ _ S1 SC ltac:(lra) ltac:(lra) H0 HNN kC ltac:(lra) ltac:(lra) ltac:(lra) ltac:(lra)) as X. exact X. }
    pose proof (stands_mul _ mix _ _ _ 0 _ _ _ 0 _ 1 P1 SM ltac:(lra) ltac:(lra) ltac:(rewrite HU; lra) H0 ltac:(lra) ltac:(lra) ltac:(lra) ltac:(lra) ltac:(lra) ltac:(lra)) as P2.
    set (N2 := 4 * ((2 * (0 + N) + 1) * 1 + 0 * (1 + L)) + 1) in *. assert (HN2 : 0 <= N2 <= 8 * N + 5) by (unfold N2; lra).
    pose proof (stands_mul vb _ _ _ kB _ _ _ N N2 L _ SB P2 ltac:(lra) ltac:(lra) HNN ltac:(rewrite HU; lra) ltac:(lra) ltac:(lra) ltac:(lra) ltac:(lra) ltac:(lra) ltac:(lra)) as P3.
    set (N3 := 4 * (N * ((1 + L) * 1) + N2 * L) + 1) in *.
    assert (HN3 : 0 <= N3 <= 40 * (N * L) + 21 * L).
    { assert (N2 * L <= (8 * N + 5) * L) by (apply Rmult_le_compat_r; lra). assert (0 <= N2 * L) by (apply Rmult_le_pos; lra).
      unfold N3. split; [apply Rplus_le_le_0_compat; [|lra]; apply Rmult_le_pos; [lra|]; apply Rplus_le_le_0_compat; [|assumption]; apply Rmult_le_pos; lra|].
      lra. }
    pose proof (stands_add va _ _ _ _ _ _ _ _ _ _ _ SA P3 ltac:(lra) ltac:(lra) HNN ltac:(rewrite HU; lra) (k + 3005 / 1000)
      ltac:(lra) ltac:(lra) ltac:(lra) ltac:(lra)) as Q.
    eapply stands_weaken; [exact Q|lra|lra|lra].
  - pose proof (stands_mul vb mix _ _ kB 0 _ _ N 0 L 1 SB SM ltac:(lra) ltac:(lra) HNN H0 ltac:(lra) ltac:(lra) ltac:(lra) ltac:(lra) ltac:(lra) ltac:(lra)) as P.
    set (N1 := 4 * (N * 1 + 0 * L) + 1) in *. assert (HN1 : 0 <= N1 <= 4 * N + 1) by (unfold N1; lra).
    pose proof (stands_mul va _ _ _ kA _ _ _ N N1 L _ SA P ltac:(lra) ltac:(lra) HNN ltac:(rewrite HU; lra) ltac:(lra) ltac:(lra) ltac:(lra) ltac:(lra) ltac:(lra) ltac:(lra)) as Q.
    assert (N1 * L <= (4 * N + 1) * L) by (apply Rmult_le_compat_r; lra).
    eapply stands_weaken; [exact Q|lra|lra|lra].
Qed.
End Composite.

(** Without a cache, nodes make what they show. *)
From Coq Require String.
Import String.StringSyntax.
From Coq Require Import Floats.SpecFloat.
From Verif Require Import Machine Loops CacheModel AttrModel StreamModel GraphModel NodeModel SoundProofs1 UncachedSpec.

Section Uncached.
Context {D : Type}.
Variable p : profile.
Variable x : externals D.
Notation bare := (@uncached D).
Lemma bare_cached {A} use h (w : world D) (hit : A) make r : bare w -> cached p use h w hit make = Ok r ->
  make = Ok (fst r) /\ bare (snd r).
Proof.
  intros (C & L) H. unfold cached in H. destruct use.
  - unfold get, lhm_get_refresh in H. rewrite L in H. cbn [lhm_find find] in H.
    destruct make as [[img e]|]; [|discriminate H]. cbn [bind] in H. unfold insert in H. cbn [capacity] in H. rewrite C in H.
    cbn [Z.eqb bind] in H. injection H as <-. split; [reflexivity|]. split; reflexivity.
  - destruct make as [[img e]|]; [|discriminate H]. cbn [bind] in H. injection H as <-. split; [reflexivity|]. split; [exact C|exact L].
Qed.
Lemma bare_compute t b fr h mode ins out w st s w' : bare w ->
  compute_op p x t b fr h mode ins out w = Ok (st, s, w') -> bare w'.
Proof.
  intros BW H. rewrite (compute_plan p x) in H. destruct (skips t mode); [injection H as _ _ <-; exact BW|].
  destruct (plan_of p x t b fr h ins (w_disk w)) as [|r|st0 s0|use hit make fin]; cbn [run_plan] in H.
  - injection H as _ _ <-. exact BW.
  - destruct r as [[[a q] d]|]; [|discriminate H]. cbn [bind] in H. injection H as _ _ <-. exact BW.
  - injection H as _ _ <-. exact BW.
  - destruct (cached p use h w hit make) as [[[img [s1 st1]] w1]|] eqn:E; [|discriminate H]. cbn [bind] in H.
    injection H as _ _ <-. exact (proj2 (bare_cached _ _ _ _ _ _ BW E)).
Qed.
Lemma made_anew {A} use h (w : world D) (hit : A) make r : use = 0 \/ bare w -> cached p (negb (use =? 0)) h w hit make = Ok r ->
  make = Ok (fst r).
Proof.
  intros [->|BW] H; [|exact (proj1 (bare_cached _ _ _ _ _ _ BW H))].
  cbn [Z.eqb negb cached] in H. destruct make as [[img e]|]; [|discriminate H]. cbn [bind] in H. now injection H as <-.
Qed.
End Uncached.

(** Proofs about the thread setting. *)
From Verif Require Import Machine ThreadModel ThreadSpec.

Section Proofs.
Context {L Q A : Type}.
Variable get : L -> option Z.
Variable set : L -> Z -> L.
Variable perform : L -> Q -> L * A.
Variable processors : Z.
Hypothesis H : has_setting get set perform processors.

Lemma request_kept c l q n : get l = Some n -> 1 <= n -> get (fst (node_request get set perform c l q)) = Some n.
Proof.
  intros G N. unfold node_request, with_threads. rewrite G. destruct (perform (set l 0) q) as [l' a]. cbn [fst].
  apply (set_found _ _ _ _ H). exact N.
Qed.
Lemma session_kept c qs : forall l n, get l = Some n -> 1 <= n -> get (fst (session get set perform c l qs)) = Some n.
Proof.
  induction qs as [|q t IH]; intros l n G N; [exact G|]. cbn [session].
  pose proof (request_kept c l q n G N) as K. destruct (node_request get set perform c l q) as [l' a]. cbn [fst] in K.
  specialize (IH l' n K N). destruct (session get set perform c l' t) as [l'' r]. exact IH.
Qed.
(** The setting of every request. *)
Lemma session_noted c qs : forall l ns,
  let get' := fun s : L * list (option Z) => get (fst s) in
  let r := session get' (noting_set set) (noting get perform) c (l, ns) qs in
  snd (fst r) = (ns ++ repeat (Some processors) (length qs))%list /\
  fst (fst r) = fst (session get set perform c l qs) /\ snd r = snd (session get set perform c l qs).
Proof.
  induction qs as [|q t IH]; intros l ns; [cbn; now rewrite app_nil_r|].
  cbv zeta. cbn [session length repeat]. unfold node_request, with_threads, noting, noting_set. cbn [fst snd].
  destruct (perform (set l 0) q) as [l' a] eqn:E. cbn [fst snd].
  set (l2 := set l' match get l with Some n => n | None => 0 end).
  rewrite (set_zero _ _ _ _ H).
  specialize (IH l2 (ns ++ [Some processors])%list). cbv zeta in IH. fold (noting get perform) in IH |- *. fold (noting_set set) in IH |- *.
  destruct (session _ _ _ c (l2, (ns ++ [Some processors])%list) t) as [x r'].
  destruct (session get set perform c l2 t) as [y r'']. cbn [fst snd] in *. destruct IH as (I1 & I2 & I3).
  rewrite I1, <- app_assoc. split; [reflexivity|]. split; [exact I2|now rewrite I3].
Qed.
End Proofs.

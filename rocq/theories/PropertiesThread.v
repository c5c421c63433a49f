(** C83: the thread setting of the image library. *)
From Verif Require Import Machine ThreadModel ThreadSpec ThreadProofs.

(** Reading and writing leave the setting as it was. *)
Theorem C83_setting_kept : forall (L Q A : Type) (get : L -> option Z) set (perform : L -> Q -> L * A) processors,
  has_setting get set perform processors ->
  forall c qs l n, get l = Some n -> 1 <= n -> get (fst (session get set perform c l qs)) = Some n.
Proof. exact @session_kept. Qed.
Print Assumptions C83_setting_kept.

(** Every request is performed with as many threads as there are processors,
    whatever the configuration and the setting before; answers and library are
    those of the session. *)
Theorem C83_all_processors : forall (L Q A : Type) (get : L -> option Z) set (perform : L -> Q -> L * A) processors,
  has_setting get set perform processors ->
  forall c qs l ns,
  let get' := fun s : L * list (option Z) => get (fst s) in
  let r := session get' (noting_set set) (noting get perform) c (l, ns) qs in
  snd (fst r) = (ns ++ repeat (Some processors) (length qs))%list /\
  fst (fst r) = fst (session get set perform c l qs) /\ snd r = snd (session get set perform c l qs).
Proof. exact @session_noted. Qed.
Print Assumptions C83_all_processors.

(** A library on eight processors that answers with the setting in force. *)
Definition plain_set (l n : Z) : Z := if n =? 0 then 8 else n.
Definition plain_perform (l : Z) (q : unit) : Z * Z := (l, l).
Lemma plain_library : has_setting Some plain_set plain_perform 8.
Proof.
  split; [|reflexivity|reflexivity]. intros l n N. unfold plain_set. destruct (Z.eqb_spec n 0); [lia|reflexivity].
Qed.
(** Two threads are configured, eight are used. *)
Theorem C83_configured_refuted :
  exists c, cf_threads c = 2 /\ session Some plain_set plain_perform c 3 [tt; tt] = (3, [8; 8]).
Proof. exists (Config 2). split; reflexivity. Qed.
Print Assumptions C83_configured_refuted.
Example C83_example : has_setting Some plain_set plain_perform 8 /\
  fst (session Some plain_set plain_perform (Config 2) 3 [tt; tt; tt]) = 3.
Proof. split; [exact plain_library|reflexivity]. Qed.

(** Running a list of calls, to exhibit concrete histories in examples. *)
From Verif Require Import Machine GraphModel GraphSpec.

Section Play.
Context {N St Ca F W : Type}.
Variable ops : nodeops N St Ca F W.
Variable srt : edge_sort.

Definition play_one (fuel : nat) (g : graph N St) (c : Ca) (call : gcall N F W) : option (graph N St * Ca) :=
  match call with
  | GAdd n => match add_node ops g n with Ok (g', _) => Some (g', c) | Panic => None end
  | GRemove id => Some (fst (remove_node g id), c)
  | GConnect s d k => match connect g s d k with Ok g' => Some (g', c) | Panic => None end
  | GDisconnect d k => Some (disconnect_input g d k, c)
  | GWrite id w => match write_node ops g id w with Ok g' => Some (g', c) | Panic => None end
  | GExecute id fs =>
      match execute ops srt fuel g id fs c with Some (Ok (g', c', _)) => Some (g', c') | _ => None end
  end.

Fixpoint play (fuel : nat) (g : graph N St) (c : Ca) (h : list (gcall N F W)) : option (graph N St * Ca) :=
  match h with
  | [] => Some (g, c)
  | call :: t => match play_one fuel g c call with Some (g', c') => play fuel g' c' t | None => None end
  end.

Lemma play_one_calls : forall fuel g c call g' c', play_one fuel g c call = Some (g', c') ->
  calls ops srt g c call g' c'.
Proof.
  intros fuel g c call g' c' H. destruct call; cbn [play_one calls] in *.
  - destruct (add_node ops g n) as [(g1, i)|]; [|discriminate]. injection H as <- <-. eauto.
  - injection H as <- <-. auto.
  - destruct (connect g src dst slot) as [g1|]; [|discriminate]. injection H as <- <-. auto.
  - injection H as <- <-. auto.
  - destruct (write_node ops g id w) as [g1|]; [|discriminate]. injection H as <- <-. auto.
  - destruct (execute ops srt fuel g id frames c) as [[((g1, c1), st)|]|] eqn:E; try discriminate.
    injection H as <- <-. eauto.
Qed.

Lemma play_history : forall fuel s0 c0 h g c h0 g' c', history ops srt s0 c0 h0 g c ->
  play fuel g c h = Some (g', c') -> history ops srt s0 c0 (h0 ++ h) g' c'.
Proof.
  intros fuel s0 c0. induction h as [|call h IH]; intros g c h0 g' c' H P; cbn [play] in P.
  - injection P as <- <-. now rewrite app_nil_r.
  - destruct (play_one fuel g c call) as [(g1, c1)|] eqn:E; [|discriminate].
    change (call :: h) with ([call] ++ h). rewrite app_assoc. apply (IH g1 c1); [|exact P].
    econstructor; [exact H|]. exact (play_one_calls _ _ _ _ _ _ E).
Qed.

Definition played (fuel : nat) (s0 : St) (c0 : Ca) (h : list (gcall N F W)) :=
  play fuel (graph_new s0) c0 h.

Lemma played_history : forall fuel s0 c0 h g c, played fuel s0 c0 h = Some (g, c) ->
  history ops srt s0 c0 h g c.
Proof. intros fuel s0 c0 h g c P. exact (play_history fuel s0 c0 h _ _ [] _ _ (h_new ops srt s0 c0) P). Qed.
End Play.

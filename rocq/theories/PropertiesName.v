(** C122: names cross to the lens model and back. *)
From Coq Require String.
Import String.StringSyntax.
From Coq Require Import Lia.
From Verif Require Import Machine PathModel LutModel StreamModel LensModel LensSpec BakeModel BakeProofs NameModel NameSpec NameProofs.
Local Open Scope string_scope.

(** What is set arrives under its own name, whatever follows the name in memory. *)
Theorem C122_set : forall L (hear : L -> list Z -> Z -> option L) (P : plugin L) beyond,
  (forall l n v, pg_set P l n v = hear l (ascii_bytes n) v) ->
  forall v l, say_all hear beyond v parameters l = set_all P v parameters l.
Proof. exact @said_all. Qed.
Print Assumptions C122_set.
(** Any name that ends with a zero byte does. *)
Theorem C122_terminated : forall name rest beyond, ~ In 0 name -> heard beyond (name ++ 0 :: rest) = name.
Proof. exact heard_terminated. Qed.
Print Assumptions C122_terminated.
(** One that does not is heard together with whatever follows. *)
Theorem C122_unterminated : forall name beyond, ~ In 0 name -> heard beyond name = (name ++ beyond)%list.
Proof. exact heard_unterminated. Qed.
Print Assumptions C122_unterminated.
Theorem C122_unterminated_refuted : exists name beyond, ~ In 0 name /\ In ("Distortion", "distortion") parameters /\
  name = ascii_bytes "Distortion" /\ heard beyond name <> name.
Proof.
  exists (ascii_bytes "Distortion"), [33]. split; [vm_compute; intuition discriminate|]. split; [unfold parameters; cbn [In]; tauto|].
  split; [reflexivity|]. vm_compute. discriminate.
Qed.
Print Assumptions C122_unterminated_refuted.

(** A name that the lens model gave means the same to it when it is given back,
    if and only if it is UTF-8. *)
Theorem C122_back : forall name, c_string name -> (length name <= 99)%nat ->
  exists s, given (Some name) = Ok s /\ forall beyond, (heard beyond s = name <-> utf8 name).
Proof. exact given_back. Qed.
Print Assumptions C122_back.
Theorem C122_long : forall name, (99 < length name)%nat -> given (Some name) = Panic.
Proof. exact given_long. Qed.
Print Assumptions C122_long.

(** A lens model whose names are UTF-8 and short describes itself: one line for
    each parameter, with that parameter's type, default and range. *)
Theorem C122_described : forall beyond show_type show_f64 I model count name, describable I model count name ->
  exists lines, lens_text beyond show_type show_f64 I =
    Ok (ascii_bytes "Model=" ++ filled model ++ ascii_bytes " number of params=" ++ digits (Z.of_nat count) ++ List.concat lines)%list /\
  length lines = count /\ forall i line, nth_error lines i = Some line -> about show_type show_f64 I (name i) line.
Proof. exact lens_described. Qed.
Print Assumptions C122_described.

(** What is not UTF-8 is replaced, and only that. *)
Theorem C122_replaced : forall s, Forall (fun b => 0 <= b < 256) s -> utf8 (lossy s) /\ (lossy s = s <-> utf8 s).
Proof. exact (fun s F => conj (lossy_utf8 (length s) s (le_n _) F) (lossy_exact s F)). Qed.
Print Assumptions C122_replaced.

(* ------------------------------ examples ------------------------------ *)

(** Two parameters, the first a number; the second is called as given. *)
Definition two_params (second : list Z) : lens_info :=
  Info (Some (ascii_bytes "3DE Classic LD Model")) (Some 2)
    (fun i => if i =? 0 then Some (ascii_bytes "Distortion") else if i =? 1 then Some second else None)
    (fun n => if bytes_eqb n (ascii_bytes "Distortion") then Some 5 else if bytes_eqb n second then Some 0 else None)
    (fun n => if bytes_eqb n (ascii_bytes "Distortion") then Some 0 else None)
    (fun n => if bytes_eqb n (ascii_bytes "Distortion") then Some (7, 8) else None).
(** "µ" in UTF-8 and in Latin-1. *)
Definition micro : list Z := [194; 181].
Definition micro_latin : list Z := [181].
Definition show (z : Z) : list Z := digits z.

Lemma ascii_utf8 s : forallb (fun b => (1 <=? b) && (b <? 128)) s = true -> utf8 s /\ ~ In 0 s.
Proof.
  intro F. rewrite forallb_forall in F. assert (K : forall b, In b s -> 1 <= b < 128).
  { intros b I. specialize (F b I). apply andb_prop in F. destruct F as (A & B). apply Z.leb_le in A. apply Z.ltb_lt in B. lia. }
  split; [|intro I; specialize (K 0 I); lia]. exists s. split.
  - apply Forall_forall. intros b I. specialize (K b I). left. lia.
  - clear F. induction s as [|b t IH]; [reflexivity|]. cbn [map List.concat]. unfold utf8_char at 1.
    specialize (K b (or_introl eq_refl)) as B. destruct (Z.ltb_spec b 128); [|lia]. cbn [app]. f_equal. apply IH. intros c I. apply K. right. exact I.
Qed.
Lemma micro_nameable : nameable micro.
Proof.
  split; [intros [H|[H|[]]]; discriminate H|]. split; [exists [181]; split; [constructor; [left; lia|constructor]|reflexivity]|cbn; lia].
Qed.
Example C122_example : describable (two_params micro) (ascii_bytes "3DE Classic LD Model") 2 (fun i => match i with O => ascii_bytes "Distortion" | _ => micro end) /\
  (exists t, lens_text (fun _ => [33]) show show (two_params micro) = Ok t) /\
  heard [] (said "Curvature X") = ascii_bytes "Curvature X".
Proof.
  split; [|split; [eexists; vm_compute; reflexivity|vm_compute; reflexivity]].
  assert (N : forall s, forallb (fun b => (1 <=? b) && (b <? 128)) s = true -> (length s <= 99)%nat -> nameable s).
  { intros s F L. destruct (ascii_utf8 s F) as (U & Z0). split; [exact Z0|]. split; [exact U|exact L]. }
  constructor.
  - split; [reflexivity|]. apply N; [vm_compute; reflexivity|cbn; lia].
  - split; [reflexivity|reflexivity].
  - intros [|[|i]] L; [| |lia]; (split; [reflexivity|]); [apply N; [vm_compute; reflexivity|cbn; lia]|exact micro_nameable].
  - intros [|[|i]] L; [| |lia]; [exists 5|exists 0]; (split; [vm_compute; reflexivity|]); intro NU.
    + exists 0, (7, 8). split; vm_compute; reflexivity.
    + destruct NU as [H|H]; discriminate H.
Qed.

(** The guard is needed: with the name in Latin-1 the process is ended, although
    the lens model answers every question about its parameters. *)
Theorem C122_latin_refuted : exists I name beyond, c_string name /\ (length name <= 99)%nat /\ li_name I 1 = Some name /\ li_type I name = Some 0 /\
  ~ utf8 name /\ lens_text beyond show show I = Panic.
Proof.
  assert (C : c_string micro_latin) by (split; [intros [H|[]]; discriminate H|constructor; [lia|constructor]]).
  exists (two_params micro_latin), micro_latin, (fun _ => []). split; [exact C|]. split; [cbn; lia|]. split; [reflexivity|]. split; [vm_compute; reflexivity|].
  split; [|vm_compute; reflexivity]. intro U. apply lossy_same in U. vm_compute in U. discriminate U.
Qed.
Print Assumptions C122_latin_refuted.

(** The text is not what a person would expect: it has zero bytes in it, and one
    parameter follows the other without anything between them. *)
Theorem C122_zero_bytes_refuted : exists I model count name t, describable I model count name /\
  lens_text (fun _ => []) show show I = Ok t /\ In 0 t.
Proof.
  destruct C122_example as (D & _). do 4 eexists. eexists. split; [exact D|]. split; [vm_compute; reflexivity|]. vm_compute. tauto.
Qed.
Print Assumptions C122_zero_bytes_refuted.

(** A lens model that notes what it hears. *)
Definition noting : plugin (list (list Z * Z)) :=
  Plugin _ [] (fun l n v => Some ((ascii_bytes n, v) :: l)) (fun l => Some l) (fun l _ p => (p, l)) (fun l _ b => (b, l)).
Example C122_set_example : (forall l n v, pg_set noting l n v = (fun l n v => Some ((n, v) :: l)) l (ascii_bytes n) v) /\
  exists l, say_all (fun l n v => Some ((n, v) :: l)) (fun _ => [33]) (Vals [] [("curvature_x", 7)]) parameters [] = Ok l /\
    In (ascii_bytes "Curvature X", 7) l /\ length l = 11%nat.
Proof.
  split; [reflexivity|]. eexists. split; [vm_compute; reflexivity|]. split; [vm_compute; tauto|reflexivity].
Qed.

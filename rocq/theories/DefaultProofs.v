(** The attributes of a new node. *)
From Coq Require String.
Import String.StringSyntax.
From Coq Require Import List.
From Verif Require Import Machine AttrModel AttrSpec AttrProofs GraphModel GraphSpec.

Lemma preset_known : forall t k name, has_attr t k name -> forall id, get_value k name (create_node t id) = preset t k name.
Proof.
  intros t k name H id.
  assert (A : forallb (fun a => match get_value (fst a) (snd a) (create_node t 0), preset t (fst a) (snd a) with
     | VI a, VI b => a =? b | VF a, VF b => a =? b | VS a, VS b => if list_eq_dec Z.eq_dec a b then true else false | _, _ => false end) (attributes t) = true)
    by (destruct t; vm_compute; reflexivity).
  rewrite forallb_forall in A. specialize (A (k, name) H). cbn [fst snd] in A.
  replace (get_value k name (create_node t id)) with (get_value k name (create_node t 0)) by (destruct k; reflexivity).
  destruct (get_value k name (create_node t 0)), (preset t k name); try discriminate A.
  - apply Z.eqb_eq in A. congruence.
  - apply Z.eqb_eq in A. congruence.
  - destruct (list_eq_dec Z.eq_dec bytes bytes0); [congruence|discriminate A].
Qed.
Lemma preset_unknown t k name : ~ has_attr t k name -> preset t k name = zero_value k.
Proof.
  intros H. unfold preset. destruct (find _ (presets t)) as [[n v]|] eqn:E; [|reflexivity].
  apply find_some in E. destruct E as (I & E). cbn [fst snd] in E. apply andb_true_iff in E. destruct E as (K & E).
  exfalso. apply H.
  assert (n = name) as -> by now apply seqb_eq.
  assert (A : forallb (fun a => is_attr t (match snd a with VI _ => KI32 | VF _ => KF32 | VS _ => KStr end) (fst a)) (presets t) = true)
    by (destruct t; vm_compute; reflexivity).
  rewrite forallb_forall in A. specialize (A _ I). cbn [fst snd] in A. apply is_attr_spec in A.
  destruct v, k; try discriminate K; exact A.
Qed.
Lemma new_node t id k name : get_value k name (create_node t id) = preset t k name.
Proof.
  destruct (is_attr t k name) eqn:E.
  - apply preset_known. now apply is_attr_spec.
  - assert (H : ~ has_attr t k name) by (intro H; apply is_attr_spec in H; congruence).
    rewrite preset_unknown by exact H. exact (get_lacks (create_node t id) k name H).
Qed.

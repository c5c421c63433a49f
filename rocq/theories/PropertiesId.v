(** C70: ids made from names. *)
From Coq Require String.
Import String.StringSyntax.
From Verif Require Import Machine FloatModel PixelModel EnumModel AttrModel StreamModel GraphModel GraphSpec GraphPlay NodeModel NodeExamples
  FxModel FxProofs PropertiesNode PropertiesShow PropertiesPeel.
Local Open Scope string_scope.

(** Names of one length, eight bytes at most: different names, different ids. *)
Theorem C70_short_names : forall n m,
  Forall (fun b => 0 <= b < 256) n -> Forall (fun b => 0 <= b < 256) m ->
  length n = length m -> (length n <= 8)%nat ->
  generate_id_from_name n = generate_id_from_name m -> n = m.
Proof. exact short_ids. Qed.
Print Assumptions C70_short_names.

Definition bfta1 : list Z := [98; 102; 116; 97; 49].
Definition samxydXx : list Z := [115; 97; 109; 120; 121; 100; 88; 120].
(** "readnodeaaaaaaaa" and "brdtykvkvkbfzanl" *)
Definition long_a : list Z := [114; 101; 97; 100; 110; 111; 100; 101; 97; 97; 97; 97; 97; 97; 97; 97].
Definition long_b : list Z := [98; 114; 100; 116; 121; 107; 118; 107; 118; 107; 98; 102; 122; 97; 110; 108].

(** Not so for names of different lengths, nor for longer names. *)
Theorem C70_collision_refuted :
  bfta1 <> samxydXx /\ generate_id_from_name bfta1 = generate_id_from_name samxydXx /\
  long_a <> long_b /\ length long_a = length long_b /\ generate_id_from_name long_a = generate_id_from_name long_b.
Proof.
  split; [discriminate|]. split; [vm_compute; reflexivity|]. split; [discriminate|]. split; [reflexivity|]. vm_compute. reflexivity.
Qed.
Print Assumptions C70_collision_refuted.

(** Executing the node named "samxydXx", which reads file b, shows file a. *)
Theorem C70_session_refuted :
  shows [GAdd (setup TRead (generate_id_from_name bfta1) [WStr "file_path" [97]]);
         GAdd (setup TRead (generate_id_from_name samxydXx) [WStr "file_path" [98]])]
    (generate_id_from_name samxydXx) (demo_world two_files 193600) (sh_block (level f32_one)) /\
  disk_find [98] two_files = Some (level f32_zero) /\ f32_one <> f32_zero.
Proof. split; [apply shows_ok; vm_compute; reflexivity|]. split; [vm_compute; reflexivity|]. vm_compute. discriminate. Qed.
Print Assumptions C70_session_refuted.

(** "read" and "blur", "viewer1" and "viewer2". *)
Example C70_example :
  generate_id_from_name [114; 101; 97; 100] <> generate_id_from_name [98; 108; 117; 114] /\
  generate_id_from_name [118; 105; 101; 119; 101; 114; 49] <> generate_id_from_name [118; 105; 101; 119; 101; 114; 50].
Proof.
  assert (B : forall l, forallb (fun b => (0 <=? b) && (b <? 256)) l = true -> Forall (fun b => 0 <= b < 256) l).
  { intros l H. apply Forall_forall. intros b I. rewrite forallb_forall in H. specialize (H b I). lia. }
  split; intros E.
  - assert (X : [114; 101; 97; 100] = [98; 108; 117; 114]).
    { apply C70_short_names; [apply B; reflexivity|apply B; reflexivity|reflexivity|repeat constructor|exact E]. }
    discriminate X.
  - assert (X : [118; 105; 101; 119; 101; 114; 49] = [118; 105; 101; 119; 101; 114; 50]).
    { apply C70_short_names; [apply B; reflexivity|apply B; reflexivity|reflexivity|repeat constructor|exact E]. }
    discriminate X.
Qed.

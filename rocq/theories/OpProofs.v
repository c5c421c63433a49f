(** Proofs about the operators that nodes build. *)
From Coq Require String.
Import String.StringSyntax.
From Verif Require Import Machine AttrModel AttrSpec AttrProofs StreamModel NodeModel OpModel OpSpec.

Local Open Scope string_scope.

Lemma same_lists l l' : forallb (fun n => existsb (seqb n) l') l = true -> forallb (fun n => existsb (seqb n) l) l' = true ->
  forall n, In n l <-> In n l'.
Proof. intros H K n. split; [apply incl_check; exact H|apply incl_check; exact K]. Qed.

Lemma arm_same l n : arm (same l) n = if existsb (seqb n) l then Some n else None.
Proof.
  destruct (existsb (seqb n) l) eqn:E.
  - apply arm_same_in, mem_in. exact E.
  - apply arm_same_out. intro H. apply mem_in in H. congruence.
Qed.

Lemma upd_same {A} (f : string -> A) k v : upd f k v k = v.
Proof. unfold upd. now rewrite seqb_refl. Qed.
Lemma upd_other {A} (f : string -> A) k k' v : k' <> k -> upd f k v k' = f k'.
Proof. intro H. unfold upd. apply seqb_neq in H. now rewrite H. Qed.

Lemma arms_keep ex gi si gf sf ints floats :
  (forall n, In n ex <-> In n (ints ++ floats)) ->
  (forall n, In n gi <-> In n ints) -> (forall n, In n si <-> In n ints) ->
  (forall n, In n gf <-> In n floats) -> (forall n, In n sf <-> In n floats) ->
  keeps_attributes (Arms ex (same gi) (same si) (same gf) (same sf) (same []) (same [])) ints floats.
Proof.
  intros HE HGI HSI HGF HSF.
  unfold keeps_attributes, attr_exists, blk_get_i32, blk_set_i32, blk_get_f32, blk_set_f32, blk_get_str, blk_set_str.
  cbn [a_exists a_get_i32 a_set_i32 a_get_f32 a_set_f32 a_get_str a_set_str].
  split. { intro n. rewrite mem_in, HE, in_app_iff. reflexivity. }
  split. { intros b n v H. rewrite (arm_same_in si n) by now apply HSI. rewrite (arm_same_in gi n) by now apply HGI. apply upd_same. }
  split. { intros b n v H. rewrite (arm_same_in sf n) by now apply HSF. rewrite (arm_same_in gf n) by now apply HGF. apply upd_same. }
  split. { intros b n m v H. rewrite !arm_same. destruct (existsb (seqb n) si), (existsb (seqb m) gi); try reflexivity. now apply upd_other. }
  split. { intros b n m v H. rewrite !arm_same. destruct (existsb (seqb n) sf), (existsb (seqb m) gf); try reflexivity. now apply upd_other. }
  split. { intros b n m v. rewrite !arm_same. split.
    - destruct (existsb (seqb n) si), (existsb (seqb m) gf); reflexivity.
    - destruct (existsb (seqb n) sf), (existsb (seqb m) gi); reflexivity. }
  split. { intros b n v H. rewrite (arm_same_out gi n) by now rewrite HGI. rewrite (arm_same_out si n) by now rewrite HSI. split; reflexivity. }
  split. { intros b n v H. rewrite (arm_same_out gf n) by now rewrite HGF. rewrite (arm_same_out sf n) by now rewrite HSF. split; reflexivity. }
  intros b n v. split; reflexivity.
Qed.

Definition arms_for (o : operator) : arms :=
  match o with OpGrade => gradeop_arms | OpTransform => xformdef_arms | OpBrownian => brownian_arms | OpLens => tde4_arms end.

Lemma operators_keep o : keeps_attributes (arms_for o) (op_ints o) (op_floats o).
Proof.
  destruct o; (apply arms_keep; apply same_lists; vm_compute; reflexivity).
Qed.

Ltac each H := repeat (destruct H as [<- | H]; [vm_compute; reflexivity|]); destruct H.

Lemma grade_carries b : carries TGrade gradeop_arms b (grade_built b) gradeop_new (op_ints OpGrade) (op_floats OpGrade).
Proof. split; intros n H; each H. Qed.
Lemma transform_carries b :
  carries TTransform xformdef_arms b (transform_built b) xformdef_new (op_ints OpTransform) (op_floats OpTransform).
Proof. split; intros n H; each H. Qed.
Lemma lens_carries b : carries TLens tde4_arms b (lens_built b) tde4_new (op_ints OpLens) (op_floats OpLens).
Proof. split; intros n H; each H. Qed.

Lemma grade_tells b : tells (grade_op b) gradeop_arms (grade_built b) (op_ints OpGrade) (op_floats OpGrade).
Proof. split; intros n H; each H. Qed.
Lemma transform_tells b : tells (transform_op b) xformdef_arms (transform_built b) (op_ints OpTransform) (op_floats OpTransform).
Proof. split; intros n H; each H. Qed.
Lemma lens_tells b : tells (lens_op b) tde4_arms (lens_built b) (op_ints OpLens) (op_floats OpLens).
Proof. split; intros n H; each H. Qed.

Lemma fresh_grade : alike gradeop_arms (grade_built (default_attrs TGrade)) gradeop_new (op_ints OpGrade) (op_floats OpGrade).
Proof. split; intros n H; each H. Qed.
Lemma fresh_transform :
  alike xformdef_arms (transform_built (default_attrs TTransform)) xformdef_new (op_ints OpTransform) (op_floats OpTransform).
Proof. split; intros n H; each H. Qed.
Lemma fresh_lens : alike tde4_arms (lens_built (default_attrs TLens)) tde4_new (op_ints OpLens) (op_floats OpLens).
Proof. split; intros n H; each H. Qed.

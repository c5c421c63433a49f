(** Theorems about the operators that nodes build from their attributes (C32). *)
From Coq Require String.
Import String.StringSyntax.
From Verif Require Import Machine AttrModel AttrSpec StreamModel NodeModel OpModel OpSpec OpProofs.

Local Open Scope string_scope.

(** The colour operation and the deformers keep their attributes like nodes do:
    written values are read back, and no write reaches another attribute. *)
Theorem C32_operators :
  keeps_attributes gradeop_arms (op_ints OpGrade) (op_floats OpGrade) /\
  keeps_attributes xformdef_arms (op_ints OpTransform) (op_floats OpTransform) /\
  keeps_attributes brownian_arms (op_ints OpBrownian) (op_floats OpBrownian) /\
  keeps_attributes tde4_arms (op_ints OpLens) (op_floats OpLens).
Proof. exact (conj (operators_keep OpGrade) (conj (operators_keep OpTransform) (conj (operators_keep OpBrownian) (operators_keep OpLens)))). Qed.
Print Assumptions C32_operators.

(** Whatever the attributes of a node are, the operator it builds, call by
    call, carries its value of every attribute the two share. *)
Theorem C32_carried : forall b,
  carries TGrade gradeop_arms b (grade_built b) gradeop_new (op_ints OpGrade) (op_floats OpGrade) /\
  carries TTransform xformdef_arms b (transform_built b) xformdef_new (op_ints OpTransform) (op_floats OpTransform) /\
  carries TLens tde4_arms b (lens_built b) tde4_new (op_ints OpLens) (op_floats OpLens).
Proof. intro b. exact (conj (grade_carries b) (conj (transform_carries b) (lens_carries b))). Qed.
Print Assumptions C32_carried.

(** The table of values that the other theorems take for the operator says the
    same. *)
Theorem C32_told : forall b,
  tells (grade_op b) gradeop_arms (grade_built b) (op_ints OpGrade) (op_floats OpGrade) /\
  tells (transform_op b) xformdef_arms (transform_built b) (op_ints OpTransform) (op_floats OpTransform) /\
  tells (lens_op b) tde4_arms (lens_built b) (op_ints OpLens) (op_floats OpLens).
Proof. intro b. exact (conj (grade_tells b) (conj (transform_tells b) (lens_tells b))). Qed.
Print Assumptions C32_told.

(** A new node builds exactly the operator's own default. *)
Theorem C32_fresh :
  alike gradeop_arms (grade_built (default_attrs TGrade)) gradeop_new (op_ints OpGrade) (op_floats OpGrade) /\
  alike xformdef_arms (transform_built (default_attrs TTransform)) xformdef_new (op_ints OpTransform) (op_floats OpTransform) /\
  alike tde4_arms (lens_built (default_attrs TLens)) tde4_new (op_ints OpLens) (op_floats OpLens).
Proof. exact (conj fresh_grade (conj fresh_transform fresh_lens)). Qed.
Print Assumptions C32_fresh.

(** A grade node whose green gain was set to two builds an operation whose
    green gain is two and whose red gain is one. *)
Example C32_carried_case :
  let b := grade_built (blk_set_f32 grade_arms (default_attrs TGrade) "gain_g" 1073741824) in
  blk_get_f32 gradeop_arms b "gain_g" = 1073741824 /\ blk_get_f32 gradeop_arms b "gain_r" = f1.
Proof. vm_compute. split; reflexivity. Qed.

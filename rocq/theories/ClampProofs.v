(** Proofs: clamp and premultiply settings of a grade are ignored. *)
From Coq Require String.
Import String.StringSyntax.
From Coq Require Import Floats.SpecFloat Lia.
From Verif Require Import Machine Loops FloatModel PixelModel AttrModel AttrSpec AttrProofs HashModel HashSpec HashProofs StreamModel
  DeformModel GradeModel BakeModel GraphModel NodeModel PassSpec PassProofs NewSpec NewProofs.
Local Open Scope string_scope.

Lemma ignored_pixels powf n name v nc pixels : nd_type n = TGrade ->
  In name ["clamp_black"; "clamp_white"; "premult"] ->
  apply_grade powf (grade_op (nd_attrs (node_write n (WI32 name v)))) nc pixels = apply_grade powf (grade_op (nd_attrs n)) nc pixels.
Proof.
  intros T I. rewrite write_has.
  - destruct I as [<-|[<-|[<-|[]]]]; reflexivity.
  - rewrite T. apply names_of_in. destruct I as [<-|[<-|[<-|[]]]]; vm_compute; tauto.
Qed.
Lemma ignored_ops powf n name v nc l pixels : nd_type n = TGrade ->
  In name ["clamp_black"; "clamp_white"; "premult"] ->
  apply_color_ops powf (l ++ [grade_op (nd_attrs (node_write n (WI32 name v)))])%list nc pixels =
  apply_color_ops powf (l ++ [grade_op (nd_attrs n)])%list nc pixels.
Proof.
  intros T I. unfold apply_color_ops. destruct (nc <=? 0); [reflexivity|]. rewrite !filter_app, !each_app.
  change (filter _ [grade_op (nd_attrs n)]) with [grade_op (nd_attrs n)].
  change (filter _ [grade_op (nd_attrs (node_write n (WI32 name v)))]) with [grade_op (nd_attrs (node_write n (WI32 name v)))].
  destruct (apply_each _ _ _) as [r|]; cbn [bind apply_each]; [|reflexivity]. now rewrite ignored_pixels.
Qed.

Lemma ignored {D} p (x : externals D) n name v fr mode s ins out w n1 st o w1 : nd_type n = TGrade ->
  In name ["clamp_black"; "clamp_white"; "premult"] -> wf_block (nd_attrs n) -> - 2 ^ 31 <= v < 2 ^ 31 ->
  node_compute p x n fr mode (s :: ins) out w = Ok (n1, st, o, w1) ->
  exists n2 o', node_compute p x (node_write n (WI32 name v)) fr mode (s :: ins) out w = Ok (n2, st, o', w1) /\
    same_but_colour o' o /\ do_the_same (nx_powf (x_numerics x)) (st_ops o) (st_ops o').
Proof.
  intros T I W R H. unfold node_compute in *. rewrite write_type. rewrite T in *.
  assert (HA : has_attr (nd_type n) (w_kind (WI32 name v)) (w_name (WI32 name v))).
  { rewrite T. apply names_of_in. destruct I as [<-|[<-|[<-|[]]]]; vm_compute; tauto. }
  assert (W' : wf_block (nd_attrs (node_write n (WI32 name v)))).
  { rewrite write_has by exact HA. cbn [AttrModel.with_attrs nd_attrs put]. apply put_i32_wf; assumption. }
  destruct (cache_hash_exists p x TGrade (nd_attrs (node_write n (WI32 name v))) fr (map st_hash (s :: ins)) W') as (h' & ->).
  destruct (cache_hash_exists p x TGrade (nd_attrs n) fr (map st_hash (s :: ins)) W) as (h & E). rewrite E in H. cbn [bind] in *.
  unfold compute_op, grade_compute in *. cbn [first_input] in *.
  assert (G : forall k, In k ["enable"; "process_r"; "process_g"; "process_b"; "process_a"] ->
    gi TGrade (nd_attrs (node_write n (WI32 name v))) k = gi TGrade (nd_attrs n) k).
  { intros k K. rewrite write_has by exact HA.
    destruct I as [<-|[<-|[<-|[]]]]; repeat (destruct K as [<-|K]; [reflexivity|]); destruct K. }
  rewrite !G by (cbn; tauto). clear G.
  match type of H with context [if negb ?c then _ else _] => destruct (negb c) end; cbn [bind] in *.
  - injection H as <- <- <- <-. do 2 eexists. split; [reflexivity|]. split; [repeat split|]. intros nc px. reflexivity.
  - injection H as <- <- <- <-. do 2 eexists. split; [reflexivity|]. split; [repeat split|]. intros nc px.
    now apply ignored_ops.
Qed.

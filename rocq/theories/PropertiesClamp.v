(** C74: the clamp and premultiply settings of a grade. *)
From Coq Require String.
Import String.StringSyntax.
From Coq Require Import Floats.SpecFloat Lia.
From Verif Require Import Machine CacheModel FloatModel BBoxModel PixelModel EnumModel AttrModel HashModel HashSpec HashProofs StreamModel
  DeformModel GradeModel BakeModel GraphModel GraphSpec GraphPlay NodeModel NodeExamples NewSpec ClampProofs PropertiesNode PropertiesSafe PropertiesShow.
Local Open Scope string_scope.

(** Whatever the three settings are changed to, the node computes what it
    computed before: same status, same effects, same picture, and pending
    colour operations that give every buffer the same result. Only the cache
    key may change. *)
Theorem C74_ignored : forall D p (x : externals D) n name v fr mode s ins out w n1 st o w1, nd_type n = TGrade ->
  In name ["clamp_black"; "clamp_white"; "premult"] -> wf_block (nd_attrs n) -> - 2 ^ 31 <= v < 2 ^ 31 ->
  node_compute p x n fr mode (s :: ins) out w = Ok (n1, st, o, w1) ->
  exists n2 o', node_compute p x (node_write n (WI32 name v)) fr mode (s :: ins) out w = Ok (n2, st, o', w1) /\
    same_but_colour o' o /\ do_the_same (nx_powf (x_numerics x)) (st_ops o) (st_ops o').
Proof. exact @ignored. Qed.
Print Assumptions C74_ignored.

(** A value of one, lowered by two with "clamp_black" on: minus one is written.
    Doubled with "clamp_white" on: two is written. *)
Definition minus_two : Z := 3221225472.
Definition plus_two : Z := 1073741824.
Definition lowered : node_type * list awrite :=
  (TGrade, [WF32 "offset_r" minus_two; WF32 "offset_g" minus_two; WF32 "offset_b" minus_two; WI32 "clamp_black" 1; WI32 "clamp_white" 1]).
Definition raised : node_type * list awrite :=
  (TGrade, [WF32 "gain_r" plus_two; WF32 "gain_g" plus_two; WF32 "gain_b" plus_two; WI32 "clamp_black" 1; WI32 "clamp_white" 1]).
Theorem C74_refuted :
  leaves demo (line [on_a; lowered; out_c]) 3 (demo_world [([97], level (f32_of_Z 1))] 193600)
    [([99], level (f32_of_Z (-1))); ([97], level (f32_of_Z 1))] /\
  leaves demo (line [on_a; raised; out_c]) 3 (demo_world [([97], level (f32_of_Z 1))] 193600)
    [([99], level (f32_of_Z 2)); ([97], level (f32_of_Z 1))] /\
  f32_lt (f32_of_Z (-1)) f32_zero = true /\ f32_lt f32_one (f32_of_Z 2) = true.
Proof.
  split; [apply leaves_ok; vm_compute; reflexivity|]. split; [apply leaves_ok; vm_compute; reflexivity|]. split; reflexivity.
Qed.
Print Assumptions C74_refuted.

(** The setting does change the cache key, so the case is not trivial. *)
Example C74_example :
  let n := setup TGrade 2 (snd lowered) in
  exists n1 o w1, node_compute Debug demo n frame0 1 [stream_new] stream_new (demo_world [] 193600) = Ok (n1, NsValid, o, w1) /\
  exists n2 o', node_compute Debug demo (node_write n (WI32 "clamp_black" 0)) frame0 1 [stream_new] stream_new (demo_world [] 193600) = Ok (n2, NsValid, o', w1) /\
    st_hash o' <> st_hash o /\ st_ops o' <> st_ops o /\ wf_block (nd_attrs n).
Proof.
  cbv zeta. do 3 eexists. split; [vm_compute; reflexivity|]. do 2 eexists. split; [vm_compute; reflexivity|].
  split; [vm_compute; discriminate|]. split; [vm_compute; discriminate|].
  apply setup_wf; [apply default_wf|]. intros w H. cbn in H. repeat (destruct H as [<-|H]; [cbn; unfold minus_two; lia|]). destruct H.
Qed.

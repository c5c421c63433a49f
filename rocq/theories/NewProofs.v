(** Proofs about nodes as they are created. *)
From Coq Require String.
Import String.StringSyntax.
From Coq Require Import Floats.SpecFloat Lia.
From Verif Require Import Machine Loops FloatModel PixelModel MergeSpec MergeProofs EnumModel AttrModel HashModel HashSpec HashProofs StreamModel
  DeformModel GradeModel BakeSpec BakeModel BakeProofs GraphModel GraphSpec GraphWalk GraphExec GraphHistory NodeModel AttrProofs PeelSpec PeelProofs PassSpec PassProofs NewSpec.
Local Open Scope string_scope.

Lemma each_app {A} (f : A -> list f32 -> Res (list f32)) l l' buf :
  apply_each f (l ++ l')%list buf = (let* r := apply_each f l buf in apply_each f l' r).
Proof. revert buf. induction l as [|a l IH]; intros buf; cbn [app apply_each bind]; [reflexivity|]. destruct (f a buf); cbn [bind]; [apply IH|reflexivity]. Qed.

Definition new_grade : vals := grade_op (default_attrs TGrade).

Lemma grade_length powf o nc pixels r : apply_grade powf o (Z.of_nat nc) pixels = Ok r -> length r = length pixels.
Proof.
  unfold apply_grade. destruct (negb _); [congruence|]. unfold per_pixel.
  assert (M3 : forall f l, length (map3 f l) = length l).
  { intros f. fix IH 1. intros [|a [|b [|c l]]]; try reflexivity. cbn [map3]. destruct (f a b c) as ((?, ?), ?). cbn [length]. now rewrite IH. }
  assert (M4 : forall f l, length (map4 f l) = length l).
  { intros f. fix IH 1. intros [|a [|b [|c [|d l]]]]; try reflexivity. cbn [map4]. destruct (f (a, b, c, d)) as (((?, ?), ?), ?). cbn [length]. now rewrite IH. }
  destruct (_ =? 1); [intros [= <-]; apply map_length|]. destruct (_ =? 3); [intros [= <-]; apply M3|]. destruct (_ =? 4); [intros [= <-]; apply M4|discriminate].
Qed.
Lemma ops_length powf l nc : forall pixels r,
  apply_each (fun o => apply_grade powf o (Z.of_nat nc)) l pixels = Ok r -> length r = length pixels.
Proof.
  induction l as [|o l IH]; intros pixels r H; cbn [apply_each] in H; [congruence|].
  destruct (apply_grade powf o _ pixels) as [q|] eqn:E; [|discriminate H]. cbn [bind] in H. apply IH in H. apply grade_length in E. congruence.
Qed.

Lemma same_trans x y z : same_number x y -> same_number y z -> same_number x z.
Proof. intros [->|(s & t & A & B)] [E|(s' & t' & A' & B')]; subst; [now left|right; eauto|right; eauto|right; eauto]. Qed.

Lemma neutral powf nc n pixels : (forall v, good v -> powf v f32_one = v) ->
  (nc = 1 \/ nc = 3 \/ nc = 4)%nat -> length pixels = (n * nc)%nat -> Forall good pixels ->
  exists r, apply_grade powf new_grade (Z.of_nat nc) pixels = Ok r /\ Forall2 same_number r pixels.
Proof.
  intros P NC L G.
  destruct (grade_channels powf new_grade nc n pixels) as (r & E & LR & H); try assumption; [reflexivity|left; vm_compute; discriminate|].
  exists r. split; [exact E|].
  assert (GV : forall c v, good v -> f32_ok (graded_value powf new_grade c v) /\ f32_finite (graded_value powf new_grade c v) /\ same_number (graded_value powf new_grade c v) v).
  { intros c v (F & K).
    assert (X : graded_value powf new_grade c v = powf (f32_add (f32_mul f32_one v) f32_zero) f32_one).
    { rewrite ?graded_value_eq; unfold grade_single. destruct c; vm_compute (negb (vi new_grade "reverse" =? 0)); cbn [negb]; reflexivity. }
    rewrite X. assert (M : f32_mul f32_one v = v).
    { replace (f32_mul f32_one v) with (f32_mul v f32_one); [apply f32_mul_one, K|].
      unfold f32_mul, SFmul. change f32_one with (S754_finite false 8388608 (-23)). destruct v as [s|s| |s m e]; try reflexivity; try (now destruct s).
      rewrite xorb_false_r, xorb_false_l, Pos.mul_comm, Z.add_comm. reflexivity. }
    rewrite M. pose proof (add_zero_r false v ltac:(intros ->; exact F)) as S.
    assert (GZ : good (f32_add v f32_zero)).
    { destruct v as [s|s| |s m e]; try contradiction; [destruct s; split; (exact I || reflexivity)|]. split; assumption. }
    rewrite (P _ GZ). split; [apply GZ|]. split; [apply GZ|exact S]. }
  assert (N : forall i v, nth_error pixels i = Some v -> exists v', nth_error r i = Some v' /\ same_number v' v).
  { intros i v V. destruct (H i v V) as (v' & V' & A & B). exists v'. split; [exact V'|].
    assert (GO : good v) by (rewrite Forall_forall in G; eapply G, nth_error_In, V).
    destruct (GV (colour_of nc (i mod nc)) v GO) as (G1 & G2 & G3).
    assert (MX : f32_of_bits (vf new_grade "mix") = f32_one) by reflexivity.
    destruct (Z.eq_dec (process new_grade (colour_of nc (i mod nc))) 0) as [Z0|Z0].
    - apply A; [exact Z0|rewrite MX; exact I|exact G2|apply GO].
    - assert (O : process new_grade (colour_of nc (i mod nc)) = 1).
      { destruct (colour_of nc (i mod nc)); [reflexivity|reflexivity|reflexivity|]. exfalso. apply Z0. reflexivity. }
      eapply same_trans; [apply B; [exact O|exact MX|exact G1|apply GO]|exact G3]. }
  clear - LR N. revert r LR N. induction pixels as [|v l IH]; intros [|w r] LR N; try discriminate LR; constructor.
  - destruct (N 0%nat v eq_refl) as (v' & [= ->] & S). exact S.
  - apply IH; [now injection LR|]. intros i. exact (N (S i)).
Qed.

Lemma new_grade_colours powf l : (forall v, good v -> powf v f32_one = v) -> same_colours powf l (l ++ [new_grade])%list.
Proof.
  intros P nc n pixels r NC L H G. unfold apply_color_ops in *. destruct (_ <=? 0); [discriminate H|].
  rewrite filter_app, each_app, H. cbn [bind]. replace (filter _ [new_grade]) with [new_grade] by reflexivity. cbn [apply_each].
  destruct (neutral powf nc n r P NC) as (r' & E & S); [|exact G|].
  - rewrite <- L. exact (ops_length _ _ _ _ _ H).
  - rewrite E. cbn [bind]. eauto.
Qed.

Section New.
Context {D : Type}.
Variable p : profile.
Variable x : externals D.
Variable srt : edge_sort.
Hypothesis HS : sorts srt.
Variables (g : graph node stream) (start a : nat) (id ida : Z) (t : node_type) (fr : spec_float) (w : world D) (fuel : nat) (g1 : graph node stream) (w1 : world D).
Hypothesis WF : wf_graph (node_ops p x) g.
Hypothesis FI : find_index g id = Some start.
Hypothesis FA : find_index g ida = Some a.
Hypothesis NN : nth_error (g_nodes g) start = Some (create_node t id).
Hypothesis IN : inputs_in_slot_order (g_graph g) start [a].
Hypothesis NC : ~ reaches (g_graph g) start a.
Hypothesis X : execute (node_ops p x) srt fuel g ida [fr] w = Some (Ok (g1, w1, ExSuccess)).

Lemma new_passes : t = TNull \/ t = TResample \/ t = TViewer ->
  exists g', execute (node_ops p x) srt (S fuel) g id [fr] w = Some (Ok (g', w1, ExSuccess)) /\ same_view (g_output g') (g_output g1).
Proof.
  intros T. apply (run_passes p x srt HS g start a id ida (create_node t id) WF FI FA NN IN NC fr w fuel g1 w1); [apply default_wf| |exact X].
  destruct T as [-> | [-> | ->]]; unfold passes; [left; reflexivity|right; right; left; split; reflexivity|].
  do 5 right. split; [reflexivity|right; reflexivity].
Qed.

Lemma new_grade_run : t = TGrade -> (forall v, good v -> nx_powf (x_numerics x) v f32_one = v) ->
  exists g', execute (node_ops p x) srt (S fuel) g id [fr] w = Some (Ok (g', w1, ExSuccess)) /\
    same_but_colour (g_output g') (g_output g1) /\
    same_colours (nx_powf (x_numerics x)) (st_ops (g_output g1)) (st_ops (g_output g')).
Proof.
  intros -> P. rewrite (run_peel p x srt HS g start a id ida _ WF FI FA NN IN NC fr w fuel) by (left; discriminate). rewrite X.
  cbn [then_node n_compute node_ops]. unfold node_compute.
  destruct (cache_hash_exists p x TGrade (default_attrs TGrade) fr (map st_hash [g_output g1]) (default_wf _)) as (h & E).
  change (nd_type (create_node TGrade id)) with TGrade. change (nd_attrs (create_node TGrade id)) with (default_attrs TGrade). rewrite E.
  cbn [bind]. unfold compute_op, grade_compute. cbn [first_input].
  match goal with |- context [if negb ?c then _ else _] => change (negb c) with false end. cbv iota.
  cbn [bind]. eexists. split; [reflexivity|]. split; [repeat split|]. apply new_grade_colours. exact P.
Qed.
End New.

(** Proofs: what nodes show that have nothing to show. *)
From Coq Require String.
Import String.StringSyntax.
From Coq Require Import Floats.SpecFloat Permutation.
From Verif Require Import Machine Loops CacheModel FloatModel BBoxModel PixelModel PathModel EnumModel AttrModel HashModel HashSpec HashProofs StreamModel DeformModel BakeModel
  GraphModel GraphSpec GraphWalk GraphExec GraphHistory GraphAlone NodeModel AttrProofs IsoProofs PassSpec PassProofs AloneSpec BarSpec.
Local Open Scope string_scope.

Lemma hi_nearest : nearest bar_hi 9215 10000.
Proof. exists 15460205%positive, 24. split; [reflexivity|]. vm_compute. repeat split; discriminate. Qed.
Lemma lo_nearest : nearest bar_lo 627 10000.
Proof. exists 8415452%positive, 27. split; [reflexivity|]. vm_compute. repeat split; discriminate. Qed.

Lemma new_bars : shows_bars stream_new.
Proof.
  unfold shows_bars. cbn [stream_new st_block st_display st_data st_spec color_bars pb_size pb_data]. repeat (split; [reflexivity|]).
  eexists. split; [reflexivity|]. split; [reflexivity|]. intros c r ch HC HR HH.
  pose proof hi_nearest as A. pose proof lo_nearest as B.
  destruct c as [|[|[|[|c]]]]; [| | | |exfalso; lia]; (destruct r as [|[|[|[|r]]]]; [| | | |exfalso; lia]);
    (destruct ch as [|[|[|ch]]]; [| | |exfalso; lia]); first [exact A|exact B].
Qed.

Section Idle.
Context {D : Type}.
Variable p : profile.
Variable x : externals D.

Lemma get_gs t n name : nd_type n = t -> attr_exists (arms_of t) name = true -> node_get_str n name = gs t (nd_attrs n) name.
Proof. intros <- H. unfold node_get_str. now rewrite H. Qed.

Lemma validate_none n h : n_validate (node_ops p x) n mode_all h [] = Ok [].
Proof. cbn [n_validate node_ops]. unfold node_validate, validate_op. cbn [length]. destruct (nd_type n); reflexivity. Qed.

Lemma idle_compute n fr out w : wf_block (nd_attrs n) -> idle x (w_disk w) fr n ->
  exists n' st s, node_compute p x n fr mode_all [] out w = Ok (n', st, s, w) /\ nd_status n' = status_code st /\
    shows_bars s /\ st_matrix s = identity4 /\ only_own n s /\ (silent n -> st = NsValid) /\ (~ silent n -> st = NsWarning).
Proof.
  intros W I. unfold node_compute. destruct (cache_hash_exists p x (nd_type n) (nd_attrs n) fr (map st_hash []) W) as (h & ->). cbn [bind].
  assert (K : exists st s, compute_op p x (nd_type n) (nd_attrs n) fr h mode_all [] out w = Ok (st, s, w) /\
    shows_bars s /\ st_matrix s = identity4 /\ only_own n s /\ (silent n -> st = NsValid) /\ (~ silent n -> st = NsWarning)).
  { pose proof new_bars as B. unfold idle, silent, only_own in *. unfold compute_op.
    assert (NE : forall v k, v <> k -> (v =? k) = false) by (intros; now apply Z.eqb_neq).
    destruct (nd_type n) eqn:T.
    - exists NsWarning, stream_new. split; [reflexivity|]. split; [exact B|]. cbn. intuition (auto; congruence).
    - exists NsWarning, stream_new. split; [|split; [exact B|cbn; intuition (auto; congruence)]].
      unfold read_compute. change (Z.land mode_all m_pixel =? 0) with false. cbn [negb].
      destruct I as [I|(path & E & I)].
      + rewrite (get_gi _ n _ T) in I by reflexivity. rewrite I. reflexivity.
      + rewrite (get_gs _ n _ T) in E by reflexivity. destruct (_ =? 0); [reflexivity|]. rewrite E. cbn [bind]. rewrite I. reflexivity.
    - unfold write_compute. rewrite <- (get_gi _ n "enable" T) by reflexivity. destruct (Z.eqb_spec (node_get_i32 n "enable") 0) as [E|E].
      + exists NsValid, stream_new. split; [reflexivity|]. split; [exact B|]. cbn. intuition (auto; congruence).
      + exists NsWarning, stream_new. split; [reflexivity|]. split; [exact B|]. cbn. intuition (auto; congruence).
    - unfold grade_compute. cbn [first_input].
      match goal with |- context [if negb ?b then _ else _] => destruct b end; cbn [negb].
      + eexists _, _. split; [reflexivity|]. split; [exact B|]. cbn. intuition (auto; congruence).
      + eexists _, _. split; [reflexivity|]. split; [exact B|]. cbn. intuition (auto; congruence).
    - unfold lens_compute. cbn [first_input]. rewrite <- (get_gi _ n "enable" T) by reflexivity.
      destruct (Z.eqb_spec (node_get_i32 n "enable") 1) as [E|E].
      + destruct I as [I|I]; [congruence|]. rewrite I.
        eexists _, _. split; [reflexivity|]. split; [exact B|]. cbn. intuition (auto; congruence).
      + eexists _, _. split; [reflexivity|]. split; [exact B|]. cbn. intuition (auto; congruence).
    - unfold transform_compute. cbn [first_input]. destruct (_ =? 1).
      + eexists _, _. split; [reflexivity|]. split; [exact B|]. cbn. intuition (auto; congruence).
      + eexists _, _. split; [reflexivity|]. split; [exact B|]. cbn. intuition (auto; congruence).
    - unfold merge_compute. destruct (_ =? 1); cbn [negb].
      + eexists _, _. split; [reflexivity|]. split; [exact B|]. cbn. intuition (auto; congruence).
      + eexists _, _. split; [reflexivity|]. split; [exact B|]. cbn. intuition (auto; congruence).
    - exists NsWarning, stream_new. split; [reflexivity|]. split; [exact B|]. cbn. intuition (auto; congruence).
    - exists NsValid, stream_new. split; [|split; [exact B|cbn; intuition (auto; congruence)]].
      destruct I as (E & O). rewrite (get_gi _ n _ T) in E by reflexivity. rewrite (get_gi _ n _ T) in O by reflexivity.
      unfold viewer_compute. rewrite E, O. reflexivity.
    - exists NsWarning, stream_new. split; [reflexivity|]. split; [exact B|]. cbn. intuition (auto; congruence). }
  destruct K as (st & s & -> & K). cbn [bind]. eexists _, st, s. split; [reflexivity|]. split; [reflexivity|exact K].
Qed.

Variable srt : edge_sort.
Hypothesis HS : sorts srt.
Theorem run_idle (g : graph node stream) start id n fr w fuel : wf_graph (node_ops p x) g ->
  find_index g id = Some start -> nth_error (g_nodes g) start = Some n ->
  sg_live (g_graph g) start = true -> (forall m, ~ link (g_graph g) m start) ->
  wf_block (nd_attrs n) -> idle x (w_disk w) fr n ->
  exists g' n', execute (node_ops p x) srt (S (S fuel)) g id [fr] w = Some (Ok (g', w, ExSuccess)) /\
    shows_bars (g_output g') /\ st_matrix (g_output g') = identity4 /\ only_own n (g_output g') /\
    nth_error (g_nodes g') start = Some n' /\ (silent n -> nd_status n' = 1) /\ (~ silent n -> nd_status n' = 2).
Proof.
  intros WF FI NN LV NL W I. rewrite (execute_alone (node_ops p x) srt HS g start id n fr w fuel WF FI NN LV NL (validate_none n)). unfold alone.
  cbn [n_compute node_ops]. destruct (idle_compute n fr (g_output g) w W I) as (n' & st & s & -> & ES & B & M & O & S1 & S2).
  assert (ST : st = NsValid \/ st = NsWarning).
  { destruct (nd_type n) eqn:T; try (right; apply S2; unfold silent; rewrite T; intuition congruence).
    - destruct (Z.eq_dec (node_get_i32 n "enable") 0) as [E|E]; [left; apply S1; right; auto|right; apply S2; intros [X|(_ & X)]; congruence].
    - left. apply S1. now left. }
  assert (LT : (start < length (g_nodes g))%nat) by (apply nth_error_Some; congruence).
  exists (Graph (set_nth (g_nodes g) start n') (g_ids g) (g_graph g) s GsClean ExSuccess), n'.
  split; [destruct ST as [-> | ->]; reflexivity|]. cbn [g_output g_nodes]. split; [exact B|]. split; [exact M|]. split; [exact O|].
  split; [now apply set_nth_same|]. split; intros H; rewrite ES; [rewrite (S1 H)|rewrite (S2 H)]; reflexivity.
Qed.
End Idle.

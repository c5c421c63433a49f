(** C120: the text of a graph lists the nodes created. *)
From Coq Require String.
Import String.StringSyntax.
From Verif Require Import Machine PathSpec PathModel AttrModel AttrSpec TextSpec LutModel StreamModel GraphModel NodeModel ClientModel ClientSpec ClientProofs ListingModel ListingSpec ListingProofs NodeExamples PropertiesNode PropertiesSafe PropertiesTotal PropertiesClient2.
Local Open Scope string_scope.

(** After the drawing of the connections there is one line per node created, in
    order of creation, with what the getters answer. *)
Theorem C120_listing : forall D p (x : externals D) srt draw show_status show_attrs h cl i,
  past p x srt h cl -> (forall s, ~ In 10 (show_status s)) -> (forall t b, ~ In 10 (show_attrs t b)) ->
  (forall id, In id (made_ids i h) -> 0 <= id < two64) -> Z.of_nat (length (made_ids i h)) <= two64 ->
  exists lines, graph_text draw show_status show_attrs (cl_graphs cl i) = Ok (draw (g_graph (cl_graphs cl i)) ++ concat (map (fun l => l ++ [10]) lines))%list /\
  length lines = length (made_ids i h) /\
  forall k id, nth_error (made_ids i h) k = Some id -> exists line st n, nth_error lines k = Some line /\ ~ In 10 line /\
    says line (Z.of_nat k) id (show_status st) (show_attrs (nd_type n) (nd_attrs n)) /\ first_created i id h = Some (nd_type n) /\
    forall t, answers p x srt cl (CStatus i (Handle t id)) (RNumber st) /\
      forall kd name, answers p x srt cl (asking kd i (Handle t id) name) (reply_of (get_value kd name n)).
Proof. exact @listing. Qed.
Print Assumptions C120_listing.

Lemma prepare_past calls : forall h0 cl h cl', past Debug demo insertion_sort h0 cl -> prepare cl calls = Some (h, cl') -> past Debug demo insertion_sort (h0 ++ h) cl'.
Proof.
  induction calls as [|c calls IH]; intros h0 cl h cl' P R; cbn [prepare] in R.
  - injection R as <- <-. now rewrite app_nil_r.
  - destruct (client_call Debug demo insertion_sort 99 cl c) as [[[cl1 r]|]|] eqn:EC; try discriminate R.
    destruct (prepare cl1 calls) as [[h1 cl2]|] eqn:E2; [|discriminate R]. injection R as <- <-.
    change (h0 ++ (c, r) :: h1)%list with (h0 ++ [(c, r)] ++ h1)%list. rewrite app_assoc. exact (IH _ _ _ _ (p_call _ _ _ _ _ _ _ _ _ P EC) E2).
Qed.

(** What is printed when statuses are shown as digits and attributes as the value
    of "file_path". *)
Definition show_path (t : node_type) (b : block) : list Z := filter (fun c => negb (c =? 10)) (node_get_str (Node t 0 0 b) "file_path").
Definition two_nodes_made : list ccall :=
  [CCreate 0 TRead (ById 7); CCreate 1 TGrade (ById 9); CCreate 0 TWrite (ById 12); CSet 0 (Handle TWrite 12) (WStr "file_path" [98; 99]); CSet 0 (Handle TRead 7) (WStr "file_path" [97]);
   CConnect 0 (Handle TRead 7) (Handle TWrite 12) 0].
Example C120_example : exists h cl, past Debug demo insertion_sort h cl /\ made_ids 0 h = [7; 12] /\
  (forall s, ~ In 10 (digits (Z.abs s mod 256))) /\ (forall t b, ~ In 10 (show_path t b)) /\
  graph_text (fun _ => [33]) (fun s => digits (Z.abs s mod 256)) show_path (cl_graphs cl 0) =
    Ok (bytes_of "!index=0 id=7 status=255 attrs=a" ++ [10] ++ bytes_of "index=1 id=12 status=255 attrs=bc" ++ [10])%list.
Proof.
  destruct (prepare (client_new safe_disk) two_nodes_made) as [[h cl]|] eqn:E; [|vm_compute in E; discriminate E].
  exists h, cl. split; [exact (prepare_past _ [] _ _ _ (p_new _ _ _ _) E)|].
  assert (X : made_ids 0 h = [7; 12] /\ graph_text (fun _ => [33]) (fun s => digits (Z.abs s mod 256)) show_path (cl_graphs cl 0) =
    Ok (bytes_of "!index=0 id=7 status=255 attrs=a" ++ [10] ++ bytes_of "index=1 id=12 status=255 attrs=bc" ++ [10])%list)
    by (vm_compute in E; injection E as <- <-; vm_compute; split; reflexivity).
  split; [exact (proj1 X)|]. split; [|split; [|exact (proj2 X)]].
  - intro s. apply digits_no. pose proof (Z.mod_pos_bound (Z.abs s) 256 eq_refl). unfold two64. split; [apply H|]. eapply Z.lt_trans; [apply H|reflexivity].
  - intros t b I. apply filter_In in I. destruct I as (_ & I). discriminate I.
Qed.

(** Two nodes created under one id: the second line shows the first node. *)
Theorem C120_namesake_refuted : exists h cl, past Debug demo insertion_sort h cl /\
  (exists r1 r2, h = [(CCreate 0 TRead (ById 7), r1); (CCreate 0 TGrade (ById 7), r2)]) /\
  forall draw show_status show_attrs, exists status attrs, attrs = show_attrs TRead (nd_attrs (create_node TRead 7)) /\
    graph_text draw show_status show_attrs (cl_graphs cl 0) =
    Ok (draw (g_graph (cl_graphs cl 0)) ++ text_line 0 7 status attrs ++ text_line 1 7 status attrs)%list.
Proof.
  destruct (prepare (client_new safe_disk) [CCreate 0 TRead (ById 7); CCreate 0 TGrade (ById 7)]) as [[h cl]|] eqn:E; [|vm_compute in E; discriminate E].
  exists h, cl. split; [exact (prepare_past _ [] _ _ _ (p_new _ _ _ _) E)|]. cbn [prepare] in E.
  split; [vm_compute in E; injection E as <- _; do 2 eexists; reflexivity|].
  intros draw show_status show_attrs. exists (show_status (nd_status (create_node TRead 7))), (show_attrs TRead (nd_attrs (create_node TRead 7))). split; [reflexivity|].
  assert (G : cl_graphs cl 0%nat = fst (match add_node (node_ops Debug demo) (graph_new stream_new) (create_node TRead 7) with
    Ok (g, _) => match add_node (node_ops Debug demo) g (create_node TGrade 7) with Ok r => r | Panic => (g, 0%nat) end | Panic => (graph_new stream_new, 0%nat) end)).
  { vm_compute in E. injection E as _ <-. vm_compute. reflexivity. }
  rewrite G. unfold graph_text. cbn [add_node graph_new sg_add_node sg_empty sg_free sg_nodes g_graph g_nodes g_ids length Nat.eqb app fst text_lines attrs_text read_node find_index position nth_error node_ops n_id].
  cbn [nd_id create_node]. cbn -[text_line create_node digits]. now rewrite app_nil_r.
Qed.
Print Assumptions C120_namesake_refuted.

(** A deleted node is still listed. *)
Theorem C120_deleted_refuted : exists h cl, past Debug demo insertion_sort h cl /\
  (exists r, h = [(CCreate 0 TRead (ById 7), r); (CDelete 0 (Handle TRead 7), RBool true)]) /\
  forall draw show_status show_attrs, exists status attrs, attrs = show_attrs TRead (nd_attrs (create_node TRead 7)) /\
    graph_text draw show_status show_attrs (cl_graphs cl 0) = Ok (draw (g_graph (cl_graphs cl 0)) ++ text_line 0 7 status attrs)%list.
Proof.
  destruct (prepare (client_new safe_disk) [CCreate 0 TRead (ById 7); CDelete 0 (Handle TRead 7)]) as [[h cl]|] eqn:E; [|vm_compute in E; discriminate E].
  exists h, cl. split; [exact (prepare_past _ [] _ _ _ (p_new _ _ _ _) E)|].
  split; [vm_compute in E; injection E as <- _; eexists; reflexivity|].
  intros draw show_status show_attrs. exists (show_status (nd_status (create_node TRead 7))), (show_attrs TRead (nd_attrs (create_node TRead 7))). split; [reflexivity|].
  assert (G : g_ids (cl_graphs cl 0%nat) = [7] /\ g_nodes (cl_graphs cl 0%nat) = [create_node TRead 7]) by (vm_compute in E; injection E as _ <-; vm_compute; split; reflexivity).
  destruct G as (G1 & G2). unfold graph_text. rewrite G1. cbn [text_lines]. unfold attrs_text, read_node, find_index. rewrite G1, G2. cbn [position Z.eqb Pos.eqb nth_error bind].
  now rewrite app_nil_r.
Qed.
Print Assumptions C120_deleted_refuted.

(** C113: the C++ classes. *)
From Coq Require Import String.
From Coq Require Import Floats.SpecFloat.
From Verif Require Import Machine CacheModel AttrModel AttrSpec StreamModel GraphModel GraphSpec NodeModel NodeExamples FxModel FrameModel
  ClientModel ClientSpec ClientProofs.
Local Open Scope string_scope.

(** A handle that was handed out for an id not created in the graph before is,
    whatever is done later and with whatever graphs and caches, the node it says
    it is: it exists, has the attributes of the type the handle names, and each
    reads as last set since, or as a new node of that type has it. *)
Theorem C113_handle : forall D p (x : externals D) srt h1 h2 cl i t how r,
  past p x srt (h1 ++ (CCreate i t how, r) :: h2) cl -> first_created i (creation_id how) h1 = None ->
  exists n, r = RNode n /\ hd_type n = t /\ answers p x srt cl (CExists i n) (RBool true) /\
    (forall name, exists b, answers p x srt cl (CAttrExists i n name) (RBool b) /\ (b = true <-> exists k, has_attr (hd_type n) k name)) /\
    (forall k name, has_attr (hd_type n) k name -> answers p x srt cl (asking k i n name)
       (reply_of (match last_set i (hd_id n) k name h2 with Some v => v | None => preset (hd_type n) k name end))) /\
    (forall k name, ~ has_attr (hd_type n) k name -> answers p x srt cl (asking k i n name) (reply_of (zero_value k))).
Proof. exact @handle_tells. Qed.
Print Assumptions C113_handle.

(** Any handle is, in any graph, the first node created there under its id. *)
Theorem C113_first : forall D p (x : externals D) srt h cl i n, past p x srt h cl ->
  answers p x srt cl (CExists i n) (RBool (match first_created i (hd_id n) h with Some _ => true | None => false end)) /\
  forall t name, first_created i (hd_id n) h = Some t ->
    exists b, answers p x srt cl (CAttrExists i n name) (RBool b) /\ (b = true <-> exists k, has_attr t k name).
Proof.
  intros D p x srt h cl i n H.
  exact (conj (answers_exists p x srt h cl i n H) (fun t name F => answers_attr p x srt h cl i n t name H F)).
Qed.
Print Assumptions C113_first.

(** Calls through a handle whose id was never created in the graph (such as
    [Node()], or a handle of another graph) say so and change nothing but the
    status of the last execution. *)
Theorem C113_stranger : forall D p (x : externals D) srt h cl i n call fuel,
  past p x srt h cl -> first_created i (hd_id n) h = None -> through i n call ->
  exists cl', client_call p x srt fuel cl call = Some (Ok (cl', answer_missing call)) /\ same_but_status cl cl'.
Proof. exact @stranger. Qed.
Print Assumptions C113_stranger.

(** A cache that was lent to an execution has been given back. *)
Theorem C113_cache_returned : forall D p (x : externals D) srt h cl k, past p x srt h cl -> exists c, cl_caches cl k = Some c.
Proof. exact @past_caches. Qed.
Print Assumptions C113_cache_returned.

(** "a" for a read node, then "a" for a grade node, which is set up; graph 1
    gets a grade node of that name. *)
Definition name_a : list Z := [97].
Definition id_a : Z := generate_id_from_name name_a.
Definition namesakes : list (ccall * reply) :=
  [(CCreate 0 TRead (ByName name_a), RNode (Handle TRead id_a));
   (CCreate 1 TGrade (ByName name_a), RNode (Handle TGrade id_a));
   (CSetCapacity 0 1000, RVoid);
   (CSet 1 (Handle TGrade id_a) (WF32 "gain_r" 1073741824), RVoid);
   (CExecuteWhole 1 (Handle TGrade id_a) [5] 0, RStatus ExSuccess);
   (CCreate 0 TGrade (ByName name_a), RNode (Handle TGrade id_a))].
Fixpoint replay (fuel : nat) (cl : client disk) (calls : list ccall) : option (list (ccall * reply) * client disk) :=
  match calls with
  | [] => Some ([], cl)
  | c :: rest =>
      match client_call Debug demo insertion_sort fuel cl c with
      | Some (Ok (cl', r)) => match replay fuel cl' rest with Some (h, cl'') => Some ((c, r) :: h, cl'') | None => None end
      | _ => None
      end
  end.
Lemma replay_past fuel calls : forall h0 cl h cl', past Debug demo insertion_sort h0 cl -> replay fuel cl calls = Some (h, cl') ->
  past Debug demo insertion_sort (h0 ++ h) cl'.
Proof.
  induction calls as [|c calls IH]; intros h0 cl h cl' P R; cbn [replay] in R.
  - injection R as <- <-. rewrite app_nil_r. exact P.
  - destruct (client_call Debug demo insertion_sort fuel cl c) as [[[cl1 r]|]|] eqn:E; try discriminate R.
    destruct (replay fuel cl1 calls) as [[h1 cl2]|] eqn:E2; [|discriminate R]. injection R as <- <-.
    change (h0 ++ (c, r) :: h1)%list with (h0 ++ [(c, r)] ++ h1)%list. rewrite app_assoc. apply (IH _ _ _ _ (p_call _ _ _ _ _ _ _ _ _ P E) E2).
Qed.
Lemma namesakes_past : exists cl, past Debug demo insertion_sort namesakes cl.
Proof.
  destruct (replay 99 (client_new []) (map fst namesakes)) as [[h cl]|] eqn:E; [|vm_compute in E; discriminate E].
  exists cl. assert (H : h = namesakes). { vm_compute in E. injection E as <- _. vm_compute. reflexivity. }
  rewrite <- H. exact (replay_past 99 (map fst namesakes) [] (client_new []) h cl (p_new _ _ _ []) E).
Qed.

(** Without "not created before" the handle lies: the second "a" of graph 0 says
    it is a grade and has none of a grade's settings; what is set through it is
    lost. *)
Theorem C113_namesake_refuted : exists D p (x : externals D) srt h cl i n name, past p x srt h cl /\
  In (CCreate i (hd_type n) (ByName name_a), RNode n) h /\ hd_id n = creation_id (ByName name_a) /\
  has_attr (hd_type n) KF32 name /\ answers p x srt cl (CAttrExists i n name) (RBool false) /\
  forall v fuel, exists cl', client_call p x srt fuel cl (CSet i n (WF32 name v)) = Some (Ok (cl', RVoid)) /\
    g_nodes (cl_graphs cl' i) = g_nodes (cl_graphs cl i).
Proof.
  destruct namesakes_past as (cl & P). exists disk, Debug, demo, insertion_sort, namesakes, cl, 0%nat, (Handle TGrade id_a), "gain_r".
  exact (namesake_lost Debug demo insertion_sort namesakes cl 0 (Handle TGrade id_a) (ByName name_a) TRead "gain_r" P
    (or_intror (or_intror (or_intror (or_intror (or_intror (or_introl eq_refl)))))) eq_refl eq_refl
    (is_attr_true TGrade KF32 "gain_r" eq_refl) (is_attr_false TRead "gain_r" eq_refl)).
Qed.
Print Assumptions C113_namesake_refuted.

(** In the same past the read node of graph 0 and the grade of graph 1 are what
    their handles say, "gain_r" of the grade has been set and "gain_g" has not,
    and a node made up from nothing is a stranger to both graphs. *)
Example C113_example : exists cl, past Debug demo insertion_sort namesakes cl /\
  first_created 0 id_a [] = None /\ first_created 1 id_a (firstn 1 namesakes) = None /\
  answers Debug demo insertion_sort cl (CGetF32 1 (Handle TGrade id_a) "gain_r") (RNumber 1073741824) /\
  answers Debug demo insertion_sort cl (CGetF32 1 (Handle TGrade id_a) "gain_g") (RNumber one_bits) /\
  first_created 0 (hd_id no_handle) namesakes = None /\ first_created 1 (hd_id no_handle) namesakes = None.
Proof.
  destruct namesakes_past as (cl & P). exists cl. split; [exact P|]. split; [reflexivity|]. split; [reflexivity|].
  destruct (C113_handle _ _ _ _ (firstn 1 namesakes) (skipn 2 namesakes) cl 1 TGrade (ByName name_a) _ P eq_refl) as (n & RN & _ & _ & _ & V & _).
  injection RN as <-. split; [|split; [|split; reflexivity]].
  - exact (V KF32 "gain_r" (is_attr_true TGrade KF32 "gain_r" eq_refl)).
  - exact (V KF32 "gain_g" (is_attr_true TGrade KF32 "gain_g" eq_refl)).
Qed.

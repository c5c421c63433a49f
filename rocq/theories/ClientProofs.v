(** Proofs about clients of the C++ classes. *)
From Coq Require Import String Floats.SpecFloat.
From Verif Require Import Machine CacheModel AttrModel AttrSpec AttrProofs DefaultProofs StreamModel GraphModel GraphSpec GraphWalk GraphExec
  GraphHistory GraphHistory2 NodeModel FrameModel ClientModel ClientSpec.

(** The graph call a client call makes on graph [i]. *)
Definition on_graph (i : nat) (call : ccall) : list (gcall node spec_float awrite) :=
  match call with
  | CCreate j t how => if Nat.eqb j i then [GAdd (create_node t (creation_id how))] else []
  | CDelete j n => if Nat.eqb j i then [GRemove (hd_id n)] else []
  | CSet j n w => if Nat.eqb j i then [GWrite (hd_id n) w] else []
  | CConnect j a b s => if Nat.eqb j i then [GConnect (hd_id a) (hd_id b) s] else []
  | CDisconnect j n s => if Nat.eqb j i then [GDisconnect (hd_id n) s] else []
  | CExecuteWhole j n fs _ => if Nat.eqb j i then [GExecute (hd_id n) (map f64_of_Z fs)] else []
  | CExecute j n fs _ => if Nat.eqb j i then [GExecute (hd_id n) fs] else []
  | _ => []
  end.

Section Client.
Context {D : Type}.
Variable p : profile.
Variable x : externals D.
Variable srt : edge_sort.
Notation ops := (node_ops p x).
Notation ccalls := (client_call p x srt).

Lemma put_eq {A} (f : nat -> A) i a : put f i a i = a.
Proof. unfold put. now rewrite Nat.eqb_refl. Qed.
Lemma put_same {A} (f : nat -> A) i j a : j = i -> put f i a j = a.
Proof. intros ->. apply put_eq. Qed.
Lemma put_other {A} (f : nat -> A) i j a : j <> i -> put f i a j = f j.
Proof. intro H. unfold put. apply Nat.eqb_neq in H. now rewrite H. Qed.

Lemma gives_ok {A} (r : Res A) (f : A -> client D * reply) v : gives r f = Some (Ok v) -> exists a, r = Ok a /\ v = f a.
Proof. unfold gives. destruct r as [a|]; [|discriminate]. intros [= <-]. eauto. Qed.

Lemma table_ok cl k f v : table_call cl k f = Some (Ok v) -> exists c (a : shared * cache shared), cl_caches cl k = Some c /\ f c = Ok a /\
  v = (Client (cl_graphs cl) (put (cl_caches cl) k (Some (snd a))) (cl_disk cl : D), RTable (fst a)).
Proof. unfold table_call. destruct (cl_caches cl k) as [c|]; [|discriminate]. intro H. apply gives_ok in H. destruct H as (a & E & ->). eauto 6. Qed.

(** One call: what it does to graph [i]. *)
Lemma call_graph fuel cl call cl' r i : ccalls fuel cl call = Some (Ok (cl', r)) ->
  (on_graph i call = [] /\ cl_graphs cl' i = cl_graphs cl i) \/
  (exists gc w w', on_graph i call = [gc] /\ calls ops srt (cl_graphs cl i) w gc (cl_graphs cl' i) w').
Proof.
  assert (W : forall w : world D, exists w' : world D, True) by eauto.
  assert (AT : forall j g, (Nat.eqb j i = true /\ j = i /\ cl_graphs (with_graph_at cl j g) i = g) \/
                          (Nat.eqb j i = false /\ cl_graphs (with_graph_at cl j g) i = cl_graphs cl i)).
  { intros j g. destruct (Nat.eqb j i) eqn:E; [left|right].
    - apply Nat.eqb_eq in E. subst j. cbn. now rewrite put_eq.
    - apply Nat.eqb_neq in E. cbn. rewrite put_other by congruence. auto. }
  assert (w0 : world D) by exact (World (with_capacity 0) (cl_disk cl)).
  assert (EX : forall j n fs k, execute_call p x srt fuel cl j n fs k = Some (Ok (cl', r)) ->
    (Nat.eqb j i = false /\ cl_graphs cl' i = cl_graphs cl i) \/
    (Nat.eqb j i = true /\ exists w w', calls ops srt (cl_graphs cl i) w (GExecute (hd_id n) fs) (cl_graphs cl' i) w')).
  { intros j n fs k H. unfold execute_call in H. destruct (cl_caches cl k) as [c|]; [|discriminate H].
    destruct (execute ops srt fuel (cl_graphs cl j) (hd_id n) fs (World c (cl_disk cl))) as [[[[g w] st]|]|] eqn:EE; try discriminate H.
    injection H as <- _. destruct (Nat.eqb j i) eqn:E; [right|left].
    - apply Nat.eqb_eq in E. subst j. split; [reflexivity|]. exists (World c (cl_disk cl)), w. cbn [cl_graphs]. rewrite put_eq.
      exists fuel, st. exact EE.
    - apply Nat.eqb_neq in E. cbn [cl_graphs]. rewrite put_other by congruence. auto. }
  intro H. destruct call; cbn [client_call on_graph] in H |- *.
  all: try (left; split; [reflexivity|]; try (injection H as <- _; reflexivity);
            try (apply gives_ok in H; destruct H as (a & _ & H); injection H as -> _; reflexivity);
            try (unfold of_cache in H; destruct (cl_caches cl k) as [c|]; [|discriminate H]; injection H as <- _; reflexivity); fail).
  - apply gives_ok in H. destruct H as ((g, nd) & E & H). injection H as -> _.
    destruct (AT i0 g) as [(-> & -> & HG)|(-> & HG)]; [right|left; split; [reflexivity|exact HG]].
    do 3 eexists. split; [reflexivity|]. cbn [fst]. rewrite HG. split; [reflexivity|]. exists nd. exact E.
  - apply gives_ok in H. destruct H as (r0 & E & H). injection E as <-. injection H as -> _.
    destruct (AT i0 (fst (remove_node (cl_graphs cl i0) (hd_id n)))) as [(-> & -> & HG)|(-> & HG)]; [right|left; split; [reflexivity|exact HG]].
    do 3 eexists. split; [reflexivity|]. rewrite HG. split; reflexivity.
  - apply gives_ok in H. destruct H as (g & E & H). injection H as -> _.
    destruct (AT i0 g) as [(-> & -> & HG)|(-> & HG)]; [right|left; split; [reflexivity|exact HG]].
    do 3 eexists. split; [reflexivity|]. rewrite HG. split; [reflexivity|]. exact E.
  - apply gives_ok in H. destruct H as (g & E & H). injection H as -> _.
    destruct (AT i0 g) as [(-> & -> & HG)|(-> & HG)]; [right|left; split; [reflexivity|exact HG]].
    do 3 eexists. split; [reflexivity|]. rewrite HG. split; [reflexivity|]. exact E.
  - apply gives_ok in H. destruct H as (g & E & H). injection E as <-. injection H as -> _.
    destruct (AT i0 (disconnect_input (cl_graphs cl i0) (hd_id dst) slot)) as [(-> & -> & HG)|(-> & HG)]; [right|left; split; [reflexivity|exact HG]].
    do 3 eexists. split; [reflexivity|]. rewrite HG. split; reflexivity.
  - destruct (EX _ _ _ _ H) as [(-> & HG)|(-> & w & w' & HC)]; [left; auto|right]. eauto 6.
  - destruct (EX _ _ _ _ H) as [(-> & HG)|(-> & w & w' & HC)]; [left; auto|right]. eauto 6.
  - left. split; [reflexivity|]. destruct (cl_caches cl k); [|discriminate H]. apply gives_ok in H. destruct H as (c' & _ & H). injection H as -> _. reflexivity.
  - left. split; [reflexivity|]. apply table_ok in H. destruct H as (c & a & _ & _ & H). injection H as -> _. reflexivity.
  - left. split; [reflexivity|]. apply table_ok in H. destruct H as (c & a & _ & _ & H). injection H as -> _. reflexivity.
  Unshelve. all: exact w0.
Qed.

Definition projected (i : nat) (h : list (ccall * reply)) : list (gcall node spec_float awrite) :=
  flat_map (fun c => on_graph i (fst c)) h.
Lemma projected_app i h h' : projected i (h ++ h') = (projected i h ++ projected i h')%list.
Proof. unfold projected. apply flat_map_app. Qed.

Lemma past_graph h cl i id k name : past p x srt h cl ->
  wf_graph ops (cl_graphs cl i) /\
  read_node (cl_graphs cl i) id (reads k name) None = Ok (attr_after (projected i h) id k name).
Proof.
  intro H. induction H as [d|h cl fuel call cl' r H IH HC|h cl d H IH].
  - split; [|reflexivity]. apply wf_new.
  - destruct IH as (WG & IH). rewrite projected_app. unfold attr_after. rewrite fold_left_app.
    replace (projected i [(call, r)]) with (on_graph i call) by (cbn; now rewrite app_nil_r).
    destruct (call_graph _ _ _ _ _ i HC) as [(-> & ->)|(gc & w & w' & -> & HG)]; [now split|].
    destruct (calls_wf ops srt (node_keeps_id p x) _ _ _ _ _ WG HG) as (WG' & _ & _).
    split; [exact WG'|]. cbn [fold_left]. exact (attr_call p x srt _ _ _ _ _ _ _ _ _ WG HG IH).
  - exact IH.
Qed.

(** The cache is always given back. *)
Lemma past_caches h cl k : past p x srt h cl -> exists c, cl_caches cl k = Some c.
Proof.
  intro H. induction H as [d|h cl fuel call cl' r H IH HC|h cl d H IH].
  - cbn. eauto.
  - assert (PUT : forall j c, exists c', put (cl_caches cl) j (Some c) k = Some c').
    { intros j c. unfold put. destruct (Nat.eqb k j); eauto. }
    destruct call; cbn [client_call] in HC;
      try (injection HC as <- _; exact IH);
      try (apply gives_ok in HC; destruct HC as (a & _ & HC); injection HC as -> _; exact IH);
      try (unfold of_cache in HC; destruct (cl_caches cl k0) as [c|]; [|discriminate HC]; injection HC as <- _; exact IH).
    1, 2: unfold execute_call in HC; destruct (cl_caches cl k0) as [c|]; [|discriminate HC];
      destruct (execute _ _ _ _ _ _ _) as [[[[g w] st]|]|]; try discriminate HC; injection HC as <- _; apply PUT.
    2, 3: apply table_ok in HC; destruct HC as (c & a & _ & _ & HC); injection HC as -> _; apply PUT.
    destruct (cl_caches cl k0) as [c|]; [|discriminate HC]. apply gives_ok in HC. destruct HC as (c' & _ & HC). injection HC as -> _. apply PUT.
  - exact IH.
Qed.

(* ------------------------- what the calls add up to ------------------------- *)

Lemma step_created i id k name call r : 
  fold_left (attr_step id k name) (on_graph i call) None =
  match first_created i id [(call, r)] with Some t => Some (t, preset t k name) | None => None end.
Proof.
  destruct call; cbn [on_graph first_created]; try reflexivity;
    destruct (Nat.eqb i0 i); try reflexivity.
  cbn [fold_left attr_step andb]. cbn [nd_id create_node]. destruct (creation_id how =? id); [|reflexivity].
  rewrite new_node. reflexivity.
Qed.

Lemma fold_none i id k name h : first_created i id h = None ->
  fold_left (attr_step id k name) (projected i h) None = None.
Proof.
  induction h as [|[call r] h IH]; [reflexivity|]. intro H.
  change (projected i ((call, r) :: h)) with (on_graph i call ++ projected i h)%list. rewrite fold_left_app.
  rewrite (step_created i id k name call r).
  assert (E : first_created i id [(call, r)] = None /\ first_created i id h = None).
  { destruct call; cbn [first_created] in H |- *; try (split; [reflexivity|exact H]).
    destruct (_ && _); [discriminate H|]. now split. }
  destruct E as (-> & E). exact (IH E).
Qed.

Definition latest (t : node_type) (k : kind) (name : string) (o : option value) (v : value) : value :=
  if is_attr t k name then match o with Some u => u | None => v end else v.
Lemma fold_some i id k name h t v :
  fold_left (attr_step id k name) (projected i h) (Some (t, v)) = Some (t, latest t k name (last_set i id k name h) v).
Proof.
  revert v. induction h as [|[call r] h IH]; intro v.
  - unfold latest. cbn. now destruct (is_attr t k name).
  - change (projected i ((call, r) :: h)) with (on_graph i call ++ projected i h)%list. rewrite fold_left_app.
    destruct call; cbn [on_graph last_set]; try (destruct (Nat.eqb i0 i)); cbn [fold_left attr_step]; try apply IH.
    + cbn [andb]. change (String.eqb (w_name w) name) with (seqb (w_name w) name).
      destruct ((hd_id n =? id) && kind_eqb (w_kind w) k && seqb (w_name w) name); cbn [andb].
      * unfold latest in IH |- *. destruct (is_attr t k name); rewrite IH; [|reflexivity]. now destruct (last_set i id k name h).
      * rewrite IH. unfold latest. now destruct (last_set i id k name h).
    + cbn [andb]. rewrite IH. unfold latest. now destruct (last_set i id k name h).
Qed.

Lemma first_created_app i id h h' : first_created i id (h ++ h') =
  match first_created i id h with Some t => Some t | None => first_created i id h' end.
Proof.
  induction h as [|[call r] h IH]; [reflexivity|]. cbn [app]. destruct call; cbn [first_created]; try exact IH.
  destruct (_ && _); [reflexivity|exact IH].
Qed.

Lemma first_split i id h t : first_created i id h = Some t -> exists h1 how r h2,
  h = (h1 ++ (CCreate i t how, r) :: h2)%list /\ first_created i id h1 = None /\ creation_id how = id.
Proof.
  induction h as [|[call r] h IH]; [discriminate|]. intro H.
  assert (R : first_created i id h = Some t -> first_created i id [(call, r)] = None -> exists h1 how r' h2,
    ((call, r) :: h = h1 ++ (CCreate i t how, r') :: h2)%list /\ first_created i id h1 = None /\ creation_id how = id).
  { intros H1 E. destruct (IH H1) as (h1 & how & r' & h2 & -> & N & I). exists ((call, r) :: h1), how, r', h2.
    split; [reflexivity|]. split; [|exact I]. change ((call, r) :: h1) with ([(call, r)] ++ h1). now rewrite first_created_app, E. }
  destruct call; cbn [first_created] in H; try (apply (R H); reflexivity).
  destruct (Nat.eqb i0 i && (creation_id how =? id)) eqn:E.
  - injection H as <-. apply andb_prop in E. destruct E as (E1 & E2). apply Nat.eqb_eq in E1. apply Z.eqb_eq in E2. subst i0.
    exists [], how, r, h. auto.
  - apply (R H). cbn [first_created]. now rewrite E.
Qed.

Lemma after_first i id k name h1 t how r h2 : first_created i id h1 = None -> creation_id how = id ->
  attr_after (projected i (h1 ++ (CCreate i t how, r) :: h2)) id k name =
  Some (t, latest t k name (last_set i id k name h2) (preset t k name)).
Proof.
  intros N I. rewrite projected_app. unfold attr_after. rewrite fold_left_app, (fold_none _ _ _ _ _ N).
  change (projected i ((CCreate i t how, r) :: h2)) with (on_graph i (CCreate i t how) ++ projected i h2)%list.
  rewrite fold_left_app, (step_created i id k name _ r). cbn [first_created]. rewrite Nat.eqb_refl, I, Z.eqb_refl. cbn [andb].
  apply fold_some.
Qed.

(* ------------------------------ the answers ------------------------------ *)

Lemma found h cl i id t : past p x srt h cl -> first_created i id h = Some t ->
  exists j n, find_index (cl_graphs cl i) id = Some j /\ nth_error (g_nodes (cl_graphs cl i)) j = Some n /\ nd_type n = t.
Proof.
  intros H F. destruct (first_split _ _ _ _ F) as (h1 & how & r & h2 & -> & N & I).
  destruct (past_graph _ _ i id KI32 EmptyString H) as (_ & R). rewrite (after_first _ _ _ _ _ _ _ _ _ N I) in R.
  destruct (read_some _ _ _ _ R) as (j & n & Fi & En & E). injection E as E _. eauto.
Qed.
Lemma not_found h cl i id : past p x srt h cl -> first_created i id h = None -> find_index (cl_graphs cl i) id = None.
Proof.
  intros H F. destruct (past_graph _ _ i id KI32 EmptyString H) as (_ & R). unfold attr_after in R. rewrite (fold_none _ _ _ _ _ F) in R.
  exact (read_none _ _ _ R).
Qed.

Theorem answers_exists h cl i n : past p x srt h cl ->
  answers p x srt cl (CExists i n) (RBool (match first_created i (hd_id n) h with Some _ => true | None => false end)).
Proof.
  intros H fuel. cbn [client_call gives]. unfold gives, node_exists. destruct (first_created i (hd_id n) h) as [t|] eqn:F.
  - destruct (found _ _ _ _ _ H F) as (j & m & -> & _). reflexivity.
  - now rewrite (not_found _ _ _ _ H F).
Qed.

Theorem answers_attr h cl i n t name : past p x srt h cl -> first_created i (hd_id n) h = Some t ->
  exists b, answers p x srt cl (CAttrExists i n name) (RBool b) /\ (b = true <-> exists k, has_attr t k name).
Proof.
  intros H F. destruct (found _ _ _ _ _ H F) as (j & m & Fi & En & T). exists (node_attr_exists m name). split.
  - intro fuel. cbn [client_call]. unfold gives, read_node. now rewrite Fi, En.
  - rewrite attr_exists_table, T. reflexivity.
Qed.

Theorem answers_value h1 h2 cl i n t how r k name : past p x srt (h1 ++ (CCreate i t how, r) :: h2) cl ->
  first_created i (hd_id n) h1 = None -> creation_id how = hd_id n -> has_attr t k name ->
  answers p x srt cl (asking k i n name)
    (reply_of (match last_set i (hd_id n) k name h2 with Some v => v | None => preset t k name end)).
Proof.
  intros H N I A fuel. destruct (past_graph _ _ i (hd_id n) k name H) as (_ & R). rewrite (after_first _ _ _ _ _ _ _ _ _ N I) in R.
  unfold latest in R. rewrite (proj2 (is_attr_spec t k name) A) in R.
  destruct (read_some _ _ _ _ R) as (j & m & Fi & En & E). injection E as _ ->.
  destruct k; cbn [asking client_call get_value reply_of]; unfold gives, read_node; now rewrite Fi, En.
Qed.

Theorem answers_no_value h cl i n t k name : past p x srt h cl -> first_created i (hd_id n) h = Some t -> ~ has_attr t k name ->
  answers p x srt cl (asking k i n name) (reply_of (zero_value k)).
Proof.
  intros H F A fuel. destruct (found _ _ _ _ _ H F) as (j & m & Fi & En & T). subst t. pose proof (get_lacks m k name A) as G.
  destruct k; cbn [asking client_call get_value zero_value reply_of] in *; unfold gives, read_node; rewrite Fi, En;
    injection G as ->; reflexivity.
Qed.

(** A new handle. *)
Lemma created_handle h cl i t how r : past p x srt h cl -> In (CCreate i t how, r) h -> r = RNode (Handle t (creation_id how)).
Proof.
  intro H. induction H as [d|h cl fuel call cl' r' H IH HC|h cl d H IH]; [intros []| |exact IH].
  intro I. apply in_app_iff in I. destruct I as [I|[I|[]]]; [exact (IH I)|]. injection I as -> ->. cbn [client_call] in HC.
  apply gives_ok in HC. destruct HC as (a & _ & E). now injection E as _ ->.
Qed.

(** Handles nobody created. *)
Lemma same_refl (cl : client D) : same_but_status cl cl.
Proof. unfold same_but_status. auto 10. Qed.

Lemma put_id (cl : client D) i : same_but_status cl (with_graph_at cl i (cl_graphs cl i)).
Proof.
  unfold same_but_status. cbn. split; [|auto]. intro j. destruct (Nat.eqb j i) eqn:E.
  - apply Nat.eqb_eq in E. rewrite E, put_eq. auto 10.
  - apply Nat.eqb_neq in E. rewrite put_other by exact E. auto 10.
Qed.

Theorem stranger h cl i n call fuel : past p x srt h cl -> first_created i (hd_id n) h = None -> through i n call ->
  exists cl', ccalls fuel cl call = Some (Ok (cl', answer_missing call)) /\ same_but_status cl cl'.
Proof.
  intros H F T. pose proof (not_found _ _ _ _ H F) as NF.
  assert (EX : forall fs k, exists cl', execute_call p x srt fuel cl i n fs k = Some (Ok (cl', RStatus ExError)) /\ same_but_status cl cl').
  { intros fs k. destruct (past_caches _ _ k H) as (c & C). unfold execute_call, execute. rewrite C, NF.
    eexists. split; [reflexivity|]. unfold same_but_status. cbn [cl_graphs cl_caches cl_disk w_cache w_disk]. split; [|split; [|reflexivity]].
    - intro j. destruct (Nat.eqb j i) eqn:E.
      + apply Nat.eqb_eq in E. rewrite E, put_eq. cbn. auto 10.
      + apply Nat.eqb_neq in E. rewrite put_other by exact E. auto 10.
    - intro j. destruct (Nat.eqb j k) eqn:E.
      + apply Nat.eqb_eq in E. rewrite E, put_eq. now rewrite C.
      + apply Nat.eqb_neq in E. now rewrite put_other. }
  destruct call; cbn [through] in T; try contradiction T; try (destruct T as (-> & ->)); cbn [client_call answer_missing]; try apply EX;
    try (unfold gives, node_exists, read_node, write_node, remove_node, disconnect_input; rewrite NF; cbn [fst snd];
         eexists; (split; [reflexivity|]; first [apply same_refl | apply put_id]); fail).
  destruct T as (-> & T). unfold gives. rewrite unknown_connect by (destruct T as [-> | ->]; auto).
  eexists. split; [reflexivity|]. apply put_id.
Qed.
End Client.

Section Handles.
Context {D : Type}.
Variable p : profile.
Variable x : externals D.
Variable srt : edge_sort.

Lemma first_here i t how r h1 h2 : first_created i (creation_id how) h1 = None ->
  first_created i (creation_id how) (h1 ++ (CCreate i t how, r) :: h2) = Some t.
Proof. intro N. rewrite first_created_app, N. cbn [first_created]. now rewrite Nat.eqb_refl, Z.eqb_refl. Qed.

Theorem handle_tells h1 h2 cl i t how r : past p x srt (h1 ++ (CCreate i t how, r) :: h2) cl ->
  first_created i (creation_id how) h1 = None ->
  exists n, r = RNode n /\ hd_type n = t /\ answers p x srt cl (CExists i n) (RBool true) /\
    (forall name, exists b, answers p x srt cl (CAttrExists i n name) (RBool b) /\ (b = true <-> exists k, has_attr (hd_type n) k name)) /\
    (forall k name, has_attr (hd_type n) k name -> answers p x srt cl (asking k i n name)
       (reply_of (match last_set i (hd_id n) k name h2 with Some v => v | None => preset (hd_type n) k name end))) /\
    (forall k name, ~ has_attr (hd_type n) k name -> answers p x srt cl (asking k i n name) (reply_of (zero_value k))).
Proof.
  intros H N. exists (Handle t (creation_id how)).
  assert (I : In (CCreate i t how, r) (h1 ++ (CCreate i t how, r) :: h2)) by (apply in_elt).
  split; [exact (created_handle p x srt _ _ _ _ _ _ H I)|]. split; [reflexivity|].
  pose proof (first_here i t how r h1 h2 N) as F. split.
  { pose proof (answers_exists p x srt _ _ i (Handle t (creation_id how)) H) as A. cbn [hd_id] in A. rewrite F in A. exact A. }
  split; [intro name; exact (answers_attr p x srt _ _ i (Handle t (creation_id how)) t name H F)|]. split.
  - intros k name A. exact (answers_value p x srt _ _ _ i (Handle t (creation_id how)) t how r k name H N eq_refl A).
  - intros k name A. exact (answers_no_value p x srt _ _ i (Handle t (creation_id how)) t k name H F A).
Qed.
End Handles.

Lemma is_attr_true t k name : is_attr t k name = true -> has_attr t k name.
Proof. apply is_attr_spec. Qed.
Lemma is_attr_false t name : existsb (fun k => is_attr t k name) [KI32; KF32; KStr] = false -> forall k, ~ has_attr t k name.
Proof.
  intros E k A. apply is_attr_spec in A. cbn [existsb] in E. destruct k; rewrite A in E; destruct (is_attr t KI32 name), (is_attr t KF32 name); discriminate E.
Qed.

Lemma namesake_lost {D} p (x : externals D) srt h cl i n how t name : past p x srt h cl ->
  In (CCreate i (hd_type n) how, RNode n) h -> hd_id n = creation_id how ->
  first_created i (hd_id n) h = Some t -> has_attr (hd_type n) KF32 name -> (forall k, ~ has_attr t k name) ->
  past p x srt h cl /\ In (CCreate i (hd_type n) how, RNode n) h /\ hd_id n = creation_id how /\
  has_attr (hd_type n) KF32 name /\ answers p x srt cl (CAttrExists i n name) (RBool false) /\
  forall v fuel, exists cl', client_call p x srt fuel cl (CSet i n (WF32 name v)) = Some (Ok (cl', RVoid)) /\
    g_nodes (cl_graphs cl' i) = g_nodes (cl_graphs cl i).
Proof.
  intros P I E F A L. split; [exact P|]. split; [exact I|]. split; [exact E|]. split; [exact A|]. split.
  - destruct (answers_attr p x srt h cl i n t name P F) as (b & B & T). destruct b; [|exact B].
    destruct (proj1 T eq_refl) as (k & K). now elim (L k).
  - intros v fuel. destruct (found p x srt h cl i (hd_id n) t P F) as (j & m & Fi & En & T). subst t.
    cbn [client_call]. unfold gives, write_node. rewrite Fi, En. eexists. split; [reflexivity|].
    cbn [cl_graphs with_graph_at]. rewrite put_eq. cbn [g_nodes with_state with_nodes n_write node_ops].
    rewrite (write_lacks m (WF32 name v) (L _)). exact (set_nth_same_value _ _ _ En).
Qed.

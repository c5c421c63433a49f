(** The text of a graph has a line for each node created. *)
From Coq Require String.
Import String.StringSyntax.
From Coq Require Import Lia.
From Verif Require Import Machine PathModel PathSpec PathProofs ObjProofs AttrModel AttrSpec AttrProofs StreamModel GraphModel GraphSpec GraphHistory NodeModel LutModel ClientModel ClientSpec ClientProofs ListingModel ListingSpec.
Local Open Scope string_scope.

Section Past.
Context {D : Type}.
Variable p : profile.
Variable x : externals D.
Variable srt : edge_sort.
Local Notation ops := (node_ops p x).

Lemma made_app i h h' : made_ids i (h ++ h') = (made_ids i h ++ made_ids i h')%list.
Proof. unfold made_ids. apply flat_map_app. Qed.

Lemma past_ids h cl i : past p x srt h cl -> wf_graph ops (cl_graphs cl i) /\ g_ids (cl_graphs cl i) = made_ids i h.
Proof.
  intro H. induction H as [d|h cl fuel call cl' r H IH HC|h cl d H IH]; [split; [apply wf_new|reflexivity]| |exact IH].
  destruct IH as (WG & IH). rewrite made_app.
  destruct (call_graph p x srt _ _ _ _ _ i HC) as [(OG & ->)|(gc & w & w' & OG & HG)].
  - split; [exact WG|]. rewrite IH. enough (made_ids i [(call, r)] = []) as -> by now rewrite app_nil_r.
    destruct call; cbn in OG |- *; try reflexivity. destruct (Nat.eqb i0 i); [discriminate OG|reflexivity].
  - destruct (calls_wf ops srt (node_keeps_id p x) _ _ _ _ _ WG HG) as (WG' & IDS & _). split; [exact WG'|].
    rewrite IDS, IH. f_equal. destruct call; cbn in OG |- *; try discriminate OG; destruct (Nat.eqb _ i); try discriminate OG; injection OG as <-; reflexivity.
Qed.

Section Show.
Variable draw : stable -> list Z.
Variable show_status : Z -> list Z.
Variable show_attrs : node_type -> block -> list Z.

Definition bare (i id : Z) (status attrs : list Z) : list Z :=
  (ascii_bytes "index=" ++ digits i ++ ascii_bytes " id=" ++ digits id ++ ascii_bytes " status=" ++ status ++ ascii_bytes " attrs=" ++ attrs)%list.
Lemma line_bare i id s a : text_line i id s a = (bare i id s a ++ [10])%list.
Proof. unfold text_line, bare. now rewrite <- !app_assoc. Qed.

Lemma position_some (id : Z) : forall l, In id l -> exists j, position id l = Some j /\ (j < length l)%nat.
Proof.
  induction l as [|a l IH]; [intros []|]. intro I. cbn [position]. destruct (Z.eqb_spec a id); [exists 0%nat; split; [reflexivity|cbn; lia]|].
  destruct I as [->|I]; [contradiction|]. destruct (IH I) as (j & -> & L). exists (S j). split; [reflexivity|cbn; lia].
Qed.
Lemma node_found (g : graph node stream) id : wf_graph ops g -> In id (g_ids g) ->
  exists n, forall A (read : node -> A) dflt, read_node g id read dflt = Ok (read n).
Proof.
  intros WG I. destruct (position_some _ _ I) as (j & P & L). rewrite (wg_ids _ _ WG), map_length in L.
  destruct (nth_error (g_nodes g) j) as [n|] eqn:N; [|apply nth_error_None in N; lia].
  exists n. intros A read dflt. unfold read_node, find_index. now rewrite P, N.
Qed.
Lemma lines_shown (g : graph node stream) : wf_graph ops g -> forall ids i, (forall id, In id ids -> In id (g_ids g)) ->
  exists ls, text_lines show_status show_attrs g i ids = Ok (concat (map (fun l => l ++ [10])%list ls)) /\ length ls = length ids /\
  forall k id, nth_error ids k = Some id -> exists n, (forall A (read : node -> A) dflt, read_node g id read dflt = Ok (read n)) /\
    nth_error ls k = Some (bare (i + Z.of_nat k) id (show_status (nd_status n)) (show_attrs (nd_type n) (nd_attrs n))).
Proof.
  intro WG. induction ids as [|id ids IH]; intros i S.
  - exists []. split; [reflexivity|]. split; [reflexivity|]. intros [|k] id H; discriminate H.
  - destruct (IH (i + 1)) as (ls & E & L & K); [intros; apply S; now right|]. destruct (node_found g id WG (S id (or_introl eq_refl))) as (n & R).
    exists (bare i id (show_status (nd_status n)) (show_attrs (nd_type n) (nd_attrs n)) :: ls). split; [|split; [cbn; now rewrite L|]].
    + cbn [text_lines]. unfold attrs_text. rewrite !R, E. cbn [bind map concat]. rewrite line_bare. reflexivity.
    + intros [|k] id' H; cbn [nth_error] in H |- *.
      * injection H as <-. exists n. split; [exact R|]. now rewrite Z.add_0_r.
      * destruct (K k id' H) as (n' & R' & N'). exists n'. split; [exact R'|]. rewrite N'. do 2 f_equal. lia.
Qed.

Lemma digits_no n : 0 <= n < two64 -> ~ In 10 (digits n) /\ read_digits 0 (digits n) = Some n.
Proof. intro H. assert (R : 0 <= n < 10 ^ 40) by (unfold two64 in H; lia). split; [now apply digits_clean|now apply digits_ok]. Qed.
Lemma ascii_no s : forallb (fun c => negb (c =? 10)) (ascii_bytes s) = true -> ~ In 10 (ascii_bytes s).
Proof. intros H I. rewrite forallb_forall in H. specialize (H _ I). discriminate H. Qed.

Theorem listing h cl i : past p x srt h cl -> (forall s, ~ In 10 (show_status s)) -> (forall t b, ~ In 10 (show_attrs t b)) ->
  (forall id, In id (made_ids i h) -> 0 <= id < two64) -> Z.of_nat (length (made_ids i h)) <= two64 ->
  exists lines, graph_text draw show_status show_attrs (cl_graphs cl i) = Ok (draw (g_graph (cl_graphs cl i)) ++ concat (map (fun l => l ++ [10]) lines))%list /\
  length lines = length (made_ids i h) /\
  forall k id, nth_error (made_ids i h) k = Some id -> exists line st n, nth_error lines k = Some line /\ ~ In 10 line /\
    says line (Z.of_nat k) id (show_status st) (show_attrs (nd_type n) (nd_attrs n)) /\ first_created i id h = Some (nd_type n) /\
    forall t, answers p x srt cl (CStatus i (Handle t id)) (RNumber st) /\
      forall kd name, answers p x srt cl (asking kd i (Handle t id) name) (reply_of (get_value kd name n)).
Proof.
  intros H NS NA U C. destruct (past_ids h cl i H) as (WG & IDS).
  destruct (lines_shown (cl_graphs cl i) WG (made_ids i h) 0) as (ls & E & L & K); [intros id I; now rewrite IDS|].
  exists ls. split; [unfold graph_text; rewrite IDS, E; reflexivity|]. split; [exact L|]. intros k id N. destruct (K k id N) as (n & R & NL).
  rewrite Z.add_0_l in NL. exists (bare (Z.of_nat k) id (show_status (nd_status n)) (show_attrs (nd_type n) (nd_attrs n))), (nd_status n), n. split; [exact NL|].
  assert (I : In id (made_ids i h)) by (apply nth_error_In in N; exact N).
  assert (KB : 0 <= Z.of_nat k < two64) by (pose proof (proj1 (nth_error_Some (made_ids i h) k) ltac:(congruence)); lia).
  destruct (digits_no _ KB) as (DK & RK), (digits_no _ (U id I)) as (DI & RI).
  split.
  { unfold bare. rewrite !in_app_iff. pose proof (NS (nd_status n)) as X1. pose proof (NA (nd_type n) (nd_attrs n)) as X2.
    pose proof (ascii_no "index=" eq_refl). pose proof (ascii_no " id=" eq_refl). pose proof (ascii_no " status=" eq_refl). pose proof (ascii_no " attrs=" eq_refl). tauto. }
  split; [exists (digits (Z.of_nat k)), (digits id); split; [reflexivity|split; assumption]|].
  split.
  { destruct (first_created i id h) as [t|] eqn:F.
    - destruct (found p x srt h cl i id t H F) as (j & m & Fi & En & <-). specialize (R node_type nd_type TNull). unfold read_node in R. rewrite Fi, En in R. injection R as ->. reflexivity.
    - pose proof (not_found p x srt h cl i id H F) as NF. unfold find_index in NF. rewrite IDS in NF. destruct (position_some _ _ I) as (j & P & _). congruence. }
  intro t. split.
  - intro fuel. cbn [client_call hd_id]. rewrite R. reflexivity.
  - intros kd name fuel. destruct kd; cbn [asking client_call hd_id get_value reply_of]; rewrite R; reflexivity.
Qed.
End Show.
End Past.

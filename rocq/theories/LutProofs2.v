(** Proofs about the keys of the lookup tables. *)
From Coq Require String.
Import String.StringSyntax.
From Coq Require Import Floats.SpecFloat.
From Verif Require Import Machine Loops FloatModel PixelModel MergeModel CacheModel CacheProofs CacheEntries AttrModel HashModel
  HashSpec HashProofs StreamModel GradeModel DeformModel BakeModel NodeModel LutModel LutSpec LutHistory.

(* ------------------------------ the two keys ------------------------------ *)

Lemma colon_split a a' b b' : ~ In 58 a -> ~ In 58 a' -> a ++ 58 :: b = a' ++ 58 :: b' -> a = a' /\ b = b'.
Proof.
  revert a'. induction a as [|x a IH]; intros [|y a'] N N' E; cbn [app] in E.
  - injection E as ->. auto.
  - injection E as <- E. exfalso. apply N'. now left.
  - injection E as -> E. exfalso. apply N. now left.
  - injection E as <- E. destruct (IH a') as [-> ->]; auto; intro I; [apply N|apply N']; now right.
Qed.

Lemma transform_key n n' from from' to to' : - 2 ^ 31 <= n < 2 ^ 31 -> - 2 ^ 31 <= n' < 2 ^ 31 ->
  ~ In 58 from -> ~ In 58 from' ->
  transform_lut_bytes n from to = transform_lut_bytes n' from' to' -> n = n' /\ from = from' /\ to = to'.
Proof.
  intros N N' F F' E. unfold transform_lut_bytes in E.
  apply app_split in E; [|reflexivity]. destruct E as [_ E].
  apply hash_i32_split in E; [|exact N|exact N']. destruct E as [-> E].
  apply app_split in E; [|reflexivity]. destruct E as [_ E].
  change (ascii_bytes "To:"%string) with ([84; 111] ++ [58]) in E.
  rewrite <- !(app_assoc [84; 111]) in E. rewrite !(app_assoc _ [84; 111]) in E. cbn [app] in E.
  apply colon_split in E.
  - destruct E as [E ->]. apply app_inj_tail_iff in E || idtac.
    split; [reflexivity|]. split; [|reflexivity].
    apply (f_equal (fun l => firstn (length l - 2) l)) in E. rewrite !app_length in E. cbn [length] in E.
    rewrite !Nat.add_sub in E. rewrite !firstn_app, !firstn_all, !Nat.sub_diag in E. cbn [firstn] in E.
    now rewrite !app_nil_r in E.
  - intro I. apply in_app_or in I. destruct I as [I|I]; [now apply F|]. cbn in I. lia.
  - intro I. apply in_app_or in I. destruct I as [I|I]; [now apply F'|]. cbn in I. lia.
Qed.

Section Ops.
Context {D : Type}.
Variable p : profile.
Variable X : externals D.
Variable used : list (list Z).
Hypothesis NC : no_collisions (x_digest X) used.
Hypothesis U : digest_u64 (x_digest X).

Local Open Scope string_scope.

Lemma op_wf o : op_values o -> wf_block (op_block o).
Proof. intros (I & F). split; [exact I|]. split; [exact F|]. intros n c []. Qed.

(** What the hash of an operation determines. *)
Definition op_same (o o' : vals) : Prop :=
  vi o "enable" = vi o' "enable"
  /\ (vi o "enable" = 1 -> agree_on (influences TGrade (op_block o)) (op_block o) (op_block o')).

Lemma hash_start b h : grade_hash p b = Ok h -> exists r, h = (hash_i32 (b_i32 b "enable") ++ r)%list.
Proof.
  unfold grade_hash. cbv zeta. destruct (b_i32 b "enable" =? 0).
  - intro H. exists []. rewrite app_nil_r. congruence.
  - intro H. repeat (apply bind_ok in H; destruct H as (? & _ & H)). apply Ok_inj in H. subst h. eexists. reflexivity.
Qed.

Lemma op_hash_inj o o' h : op_values o -> op_values o' ->
  (forall l, grade_hash p (op_block o) = Ok l -> In l used) ->
  (forall l, grade_hash p (op_block o') = Ok l -> In l used) ->
  op_hash p X o = Ok h -> op_hash p X o' = Ok h -> op_same o o'.
Proof.
  intros W W' IU IU' E E'. unfold op_hash in *. apply bind_ok in E, E'.
  destruct E as (b & E & Eb), E' as (b' & E' & Eb').
  assert (b = b'). { apply NC; [now apply IU|now apply IU'|congruence]. } subst b'.
  destruct (hash_start _ _ E) as (r & R). destruct (hash_start _ _ E') as (r' & R').
  assert (S : vi o "enable" = vi o' "enable").
  { rewrite R in R'. apply hash_i32_split in R'; [apply R'|apply W|apply W']. }
  split; [exact S|]. intro A.
  destruct (grade_split p (op_block o) (op_block o') b b [] [] (op_wf o W) (op_wf o' W')) as [G _]; auto.
  cbn [active op_block b_i32]. congruence.
Qed.

Lemma op_hash_u64 o h : op_hash p X o = Ok h -> u64_value h.
Proof. unfold op_hash. intro E. apply bind_ok in E. destruct E as (b & _ & E). injection E as <-. apply U. Qed.

Lemma ops_bytes_inj ops ops' l : Forall op_values ops -> Forall op_values ops' ->
  (forall o l, In o ops -> grade_hash p (op_block o) = Ok l -> In l used) ->
  (forall o l, In o ops' -> grade_hash p (op_block o) = Ok l -> In l used) ->
  ops_bytes p X ops = Ok l -> ops_bytes p X ops' = Ok l -> Forall2 op_same ops ops'.
Proof.
  intro W. revert ops' l. induction W as [|o ops Wo W IH]; intros ops' l W' IU IU' E E'.
  - cbn [ops_bytes] in E. destruct W' as [|o' ops' Wo' W']; [constructor|]. exfalso.
    cbn [ops_bytes] in E'. apply bind_ok in E'. destruct E' as (h & _ & E'). apply bind_ok in E'.
    destruct E' as (r & _ & E'). assert (L : (hash_u64 h ++ r)%list = []) by congruence.
    apply app_eq_nil in L. destruct L as [L _]. discriminate L.
  - cbn [ops_bytes] in E. apply bind_ok in E. destruct E as (h & Eh & E). apply bind_ok in E. destruct E as (r & Er & E).
    destruct W' as [|o' ops' Wo' W'].
    { exfalso. cbn [ops_bytes] in E'. assert (L : (hash_u64 h ++ r)%list = []) by congruence.
      apply app_eq_nil in L. destruct L as [L _]. discriminate L. }
    cbn [ops_bytes] in E'. apply bind_ok in E'. destruct E' as (h' & Eh' & E'). apply bind_ok in E'.
    destruct E' as (r' & Er' & E').
    assert (L : (hash_u64 h ++ r)%list = (hash_u64 h' ++ r')%list) by congruence.
    apply hash_u64_split in L; [|eapply op_hash_u64; eassumption|eapply op_hash_u64; eassumption].
    destruct L as [<- <-]. constructor.
    + eapply op_hash_inj; [exact Wo|exact Wo'|intro l0; apply IU; now left|intro l0; apply IU'; now left|exact Eh|exact Eh'].
    + eapply IH; [exact W'|intros o0 l0 J; apply IU; now right|intros o0 l0 J; apply IU'; now right|exact Er|exact Er'].
Qed.

Lemma ops_key ops ops' n n' nc nc' l : - 2 ^ 31 <= n < 2 ^ 31 -> - 2 ^ 31 <= n' < 2 ^ 31 ->
  - 2 ^ 31 <= nc < 2 ^ 31 -> - 2 ^ 31 <= nc' < 2 ^ 31 -> Forall op_values ops -> Forall op_values ops' ->
  (forall l, ops_hashed p X ops l \/ ops_hashed p X ops' l -> In l used) ->
  ops_lut_bytes p X n nc ops = Ok l -> ops_lut_bytes p X n' nc' ops' = Ok l ->
  n = n' /\ nc = nc' /\ Forall2 op_same ops ops'.
Proof.
  intros N N' C C' W W' IU E E'. unfold ops_lut_bytes, ops_hash in *. apply bind_ok in E, E'.
  destruct E as (h & E & El), E' as (h' & E' & El').
  apply bind_ok in E, E'. destruct E as (b & E & Eb), E' as (b' & E' & Eb').
  rewrite <- El' in El. apply Ok_inj in El.
  apply app_split in El; [|reflexivity]. destruct El as [_ El].
  apply app_split in El; [|reflexivity]. destruct El as [_ El].
  apply hash_i32_split in El; [|exact N|exact N']. destruct El as [-> El].
  apply app_split in El; [|reflexivity]. destruct El as [_ El].
  apply hash_i32_split in El; [|exact C|exact C']. destruct El as [-> El].
  apply app_split in El; [|reflexivity]. destruct El as [_ El].
  rewrite <- (app_nil_r (hash_u64 h)), <- (app_nil_r (hash_u64 h')) in El.
  assert (Uh : u64_value h) by (injection Eb as <-; apply U).
  assert (Uh' : u64_value h') by (injection Eb' as <-; apply U).
  apply hash_u64_split in El; [|exact Uh|exact Uh']. destruct El as [<- _].
  assert (b = b'). { apply NC; [apply IU; left; now left|apply IU; right; now left|congruence]. } subst b'.
  split; [reflexivity|]. split; [reflexivity|]. eapply ops_bytes_inj; [exact W|exact W'| | |exact E|exact E'].
  - intros o l0 J G. apply IU. left. right. eauto.
  - intros o l0 J G. apply IU. right. right. eauto.
Qed.

(* ------------------------------ same operations, same table ------------------------------ *)

Lemma map3_ext f g l : (forall r g' b, f r g' b = g r g' b) -> map3 f l = map3 g l.
Proof.
  intro E. remember (length l) as n eqn:L. revert l L.
  induction n as [n IH] using lt_wf_ind. intros l L.
  destruct l as [|r [|g' [|b l]]]; try reflexivity. cbn [map3]. rewrite E. destruct (g r g' b) as [[x y] z].
  do 3 f_equal. eapply IH; [|reflexivity]. rewrite L. cbn [length]. lia.
Qed.

Lemma agree_f32 l b b' n : agree_on l b b' -> In (AF32 n) l -> b_f32 b n = b_f32 b' n.
Proof. intros A I. exact (A _ I). Qed.
Lemma agree_i32 l b b' n : agree_on l b b' -> In (AI32 n) l -> b_i32 b n = b_i32 b' n.
Proof. intros A I. exact (A _ I). Qed.

Lemma apply_grade_same pw o o' nc px : op_same o o' -> op_covers nc o ->
  apply_grade pw o nc px = apply_grade pw o' nc px.
Proof.
  intros (S & A) CV. unfold apply_grade. rewrite <- S.
  destruct (Z.eqb_spec (vi o "enable") 1) as [E|_]; [|reflexivity].
  specialize (A E). specialize (CV E).
  assert (I : forall n, In (AI32 n) (influences TGrade (op_block o)) -> vi o n = vi o' n)
    by (intros n; apply (agree_i32 _ _ _ n A)).
  assert (F : forall n, In (AF32 n) (influences TGrade (op_block o)) -> vf o n = vf o' n)
    by (intros n; apply (agree_f32 _ _ _ n A)).
  clear A. cbn [influences] in I, F. unfold processed in I, F. cbn [op_block b_i32] in I, F.
  rewrite <- (I "process_r"), <- (I "process_g"), <- (I "process_b"), <- (I "process_a") by (cbn [In app]; tauto).
  destruct (negb (true && (negb (vi o "process_r" =? 0) || negb (vi o "process_g" =? 0)
    || negb (vi o "process_b" =? 0) || negb (vi o "process_a" =? 0)))) eqn:W; [reflexivity|].
  assert (ALL : (vi o "process_r" =? 0) && (vi o "process_g" =? 0) && (vi o "process_b" =? 0) && (vi o "process_a" =? 0) = false).
  { destruct (vi o "process_r" =? 0), (vi o "process_g" =? 0), (vi o "process_b" =? 0), (vi o "process_a" =? 0);
      cbn in W |- *; congruence. }
  rewrite ALL in I, F.
  assert (RV : vi o "reverse" = vi o' "reverse").
  { apply I. rewrite !in_app_iff. right. right. right. right. right. now left. }
  assert (MX : vf o "mix" = vf o' "mix").
  { apply F. rewrite !in_app_iff. right. right. right. right. right. right. now left. }
  rewrite <- RV, <- MX. destruct CV as [CV|[(-> & PA)|(-> & PR & PG & PB)]].
  - exfalso. destruct CV as (R0 & G0 & B0 & A0). rewrite R0, G0, B0, A0 in W. discriminate W.
  - unfold per_pixel. change (1 =? 1) with true. cbv iota. f_equal. apply map_ext. intro a.
    unfold grade_pixel. replace (op_a o') with (op_a o); [reflexivity|].
    apply Z.eqb_neq in PA. rewrite PA in F. unfold op_a, op_channel. rewrite <- (I "process_a") by (cbn [In app]; tauto).
    rewrite <- !F; [reflexivity|..]; rewrite !in_app_iff; do 4 right; left; cbn; tauto.
  - unfold per_pixel. change (3 =? 1) with false. change (3 =? 3) with true. cbv iota. f_equal. apply map3_ext.
    intros r g b. unfold grade_pixel.
    apply Z.eqb_neq in PR, PG, PB. rewrite PR, PG, PB in F.
    replace (op_r o') with (op_r o); [replace (op_g o') with (op_g o); [replace (op_b o') with (op_b o); [reflexivity|]|]|].
    + unfold op_b, op_channel. rewrite <- (I "process_b") by (cbn [In app]; tauto).
      rewrite <- !F; [reflexivity|..]; rewrite !in_app_iff; do 3 right; left; cbn; tauto.
    + unfold op_g, op_channel. rewrite <- (I "process_g") by (cbn [In app]; tauto).
      rewrite <- !F; [reflexivity|..]; rewrite !in_app_iff; do 2 right; left; cbn; tauto.
    + unfold op_r, op_channel. rewrite <- (I "process_r") by (cbn [In app]; tauto).
      rewrite <- !F; [reflexivity|..]; rewrite !in_app_iff; do 1 right; left; cbn; tauto.
Qed.

Lemma apply_ops_same pw ops ops' nc px : Forall2 op_same ops ops' -> Forall (op_covers nc) ops ->
  apply_color_ops pw ops nc px = apply_color_ops pw ops' nc px.
Proof.
  intros S CV. unfold apply_color_ops. destruct (nc <=? 0); [reflexivity|].
  revert px. induction S as [|o o' ops ops' So S IH]; intro px; [reflexivity|].
  inversion CV as [|? ? Co CV']; subst. cbn [filter]. rewrite <- (proj1 So).
  destruct (vi o "enable" =? 1).
  - cbn [apply_each]. rewrite (apply_grade_same pw o o' nc px So Co).
    destruct (apply_grade pw o' nc px) as [px'|]; cbn [bind]; [|reflexivity]. now apply IH.
  - now apply IH.
Qed.

Lemma ops_lut_same n nc ops ops' : Forall2 op_same ops ops' -> Forall (op_covers nc) ops ->
  generate_ops_lut p X n nc ops = generate_ops_lut p X n nc ops'.
Proof.
  intros S CV. unfold generate_ops_lut. destruct (identity_block p n nc) as [blk|] eqn:B; cbn [bind]; [|reflexivity].
  assert (NCc : bs_nc (pb_size blk) = nc).
  { unfold identity_block in B. apply bind_ok in B. destruct B as ([w h] & _ & B). apply bind_ok in B.
    destruct B as (b0 & _ & B). apply bind_ok in B. destruct B as (i0 & _ & B). apply bind_ok in B.
    destruct B as (i1 & _ & B). injection B as <-. reflexivity. }
  unfold bake_colorgrade. rewrite NCc.
  destruct (slice_f32 (pb_data blk)) as [px|]; cbn [bind]; [|reflexivity].
  destruct (apply_color_matrix identity4 nc px) as [px'|]; cbn [bind]; [|reflexivity].
  now rewrite (apply_ops_same _ ops ops' nc px' S CV).
Qed.

(* ------------------------------ histories ------------------------------ *)

Local Close Scope string_scope.

(** The bytes hashed for a request. *)
Definition request_bytes (r : request) : Res (list Z) :=
  match r with
  | RTransform from to n => Ok (transform_lut_bytes n from to)
  | ROps s n nc => ops_lut_bytes p X n nc (st_ops s)
  end.

Lemma call_lut r c img c' : call p X r c = Ok (img, c') ->
  exists l, request_bytes r = Ok l /\ get_lut p (x_digest X l) (wanted p X r) c = Ok (img, c').
Proof.
  destruct r as [from to n|s n nc]; cbn [call request_bytes wanted].
  - unfold get_transform_lut. eauto.
  - unfold get_ops_lut. intro H. apply bind_ok in H. destruct H as (l & E & H). eauto.
Qed.

Lemma request_bytes_hashed r l : request_bytes r = Ok l -> hashed p X r l.
Proof. destruct r as [from to n|s n nc]; cbn [request_bytes hashed]; intro H; [congruence|now left]. Qed.

Lemma requests_same r r' l : request_ok r -> request_ok r' ->
  (forall l, hashed p X r l -> In l used) -> (forall l, hashed p X r' l -> In l used) ->
  request_bytes r = Ok l -> request_bytes r' = Ok l -> wanted p X r = wanted p X r'.
Proof.
  destruct r as [from to n|s n nc], r' as [from' to' n'|s' n' nc']; cbn [request_ok request_bytes wanted hashed].
  - intros (N & F) (N' & F') _ _ E E'. rewrite <- E' in E. apply Ok_inj in E.
    apply transform_key in E; auto. destruct E as (-> & -> & ->). reflexivity.
  - intros _ _ _ _ E E'. exfalso. unfold ops_lut_bytes in E'. apply bind_ok in E'. destruct E' as (h & _ & E').
    rewrite <- E in E'. discriminate E'.
  - intros _ _ _ _ E E'. exfalso. unfold ops_lut_bytes in E. apply bind_ok in E. destruct E as (h & _ & E).
    rewrite <- E' in E. discriminate E.
  - intros (N & C & W) (N' & C' & W') IU IU' E E'.
    assert (V : Forall op_values (st_ops s)) by (apply Forall_forall; intros o I; apply W, I).
    assert (V' : Forall op_values (st_ops s')) by (apply Forall_forall; intros o I; apply W', I).
    assert (IUs : forall l, ops_hashed p X (st_ops s) l \/ ops_hashed p X (st_ops s') l -> In l used)
      by (intros l0 [J|J]; [apply IU|apply IU']; now right).
    destruct (ops_key _ _ _ _ _ _ _ N N' C C' V V' IUs E E') as (-> & -> & S).
    apply ops_lut_same; [exact S|]. apply Forall_forall. intros o I. apply W, I.
Qed.

Lemma node_bytes t b fr ins r l : cache_hash_bytes p (x_expand X) t b fr ins = Ok l -> request_bytes r = Ok l -> False.
Proof.
  unfold cache_hash_bytes. intros E E'. apply bind_ok in E. destruct E as (h & _ & E).
  destruct r as [from to n|s n nc]; cbn [request_bytes] in E'.
  - rewrite <- E in E'. apply Ok_inj in E'. apply (f_equal (hd 0)) in E'. destruct t; discriminate E'.
  - unfold ops_lut_bytes in E'. apply bind_ok in E'. destruct E' as (h' & _ & E').
    rewrite <- E in E'. apply Ok_inj in E'. apply (f_equal (hd 0)) in E'. destruct t; discriminate E'.
Qed.

Definition lut_inv (c : cache shared) : Prop :=
  forall k img, In (k, img) (lru c) -> forall r l, request_ok r -> (forall l, hashed p X r l -> In l used) ->
    request_bytes r = Ok l -> x_digest X l = k -> wanted p X r = Ok img.

Lemma call_inv r c img c' : lut_inv c -> request_ok r -> (forall l, hashed p X r l -> In l used) -> call p X r c = Ok (img, c') ->
  wanted p X r = Ok img /\ lut_inv c'.
Proof.
  intros I K HU E. apply call_lut in E. destruct E as (l & El & E). unfold get_lut in E.
  destruct (get c (x_digest X l)) as [c1 [i|]] eqn:G.
  - assert (i = img /\ c1 = c') as [-> ->] by (split; congruence).
    destruct (get_some image_bytes _ _ _ _ G) as (In1 & W). split; [exact (I _ _ In1 r l K HU El eq_refl)|].
    intros k i0 J. apply (I k i0). now apply W.
  - apply (get_none image_bytes) in G. apply bind_ok in E. destruct E as (i & Ei & E). apply bind_ok in E. destruct E as (c2 & Ec & E).
    assert (i = img /\ c2 = c') as [-> ->] by (split; congruence). split; [exact Ei|].
    intros k i0 J r' l' K' HU' El' D'. destruct (insert_entries _ _ _ _ _ _ Ec _ J) as [Q|J'].
    + injection Q as -> ->. assert (UL' : In l' used) by (apply HU', request_bytes_hashed, El').
      apply NC in D'; [|exact UL'|apply HU, request_bytes_hashed, El]. subst l'.
      rewrite <- Ei. symmetry. exact (requests_same r r' l K K' HU HU' El El').
    + exact (I k i0 (G _ J') r' l' K' HU' El' D').
Qed.

Theorem history_inv c : history p X used c -> lut_inv c.
Proof.
  induction 1 as [cap|c r img c' _ I K HU E|c t b fr ins l img c' _ I El UL Ei|c o c' r _ I N E].
  - intros k img [].
  - exact (proj2 (call_inv r c img c' I K HU E)).
  - intros k0 i0 J r' l' K' HU' El' D'. destruct (insert_entries _ _ _ _ _ _ Ei _ J) as [Q|J'].
    + exfalso. injection Q as -> ->. apply NC in D'; [|apply HU', request_bytes_hashed, El'|exact UL]. subst l'.
      exact (node_bytes _ _ _ _ _ _ El El').
    + exact (I _ _ J' r' l' K' HU' El' D').
  - intros k0 i0 J. apply I. destruct (step_entries _ _ _ _ _ _ E _ J) as [J'|(k & v & -> & _)]; [exact J'|].
    now elim (N k v).
Qed.

Theorem call_correct c r img c' : history p X used c -> request_ok r -> (forall l, hashed p X r l -> In l used) -> call p X r c = Ok (img, c') ->
  wanted p X r = Ok img.
Proof. intros H K HU E. exact (proj1 (call_inv r c img c' (history_inv c H) K HU E)). Qed.
End Ops.

(** Equal keys mean equal work. *)
From Coq Require String.
Import String.StringSyntax.
From Coq Require Import Floats.SpecFloat.
From Verif Require Import Machine Loops CacheModel FloatModel BBoxModel PixelModel MergeModel PathModel EnumModel AttrModel
  HashModel HashSpec HashProofs StreamModel GradeModel DeformModel BakeModel GraphModel NodeModel NodeSpec NodeProofs
  SoundSpec SoundProofs1.
Local Open Scope string_scope.

Lemma hash_f32s_length p l h : hash_f32s p l = Ok h -> length h = (11 * length l)%nat.
Proof.
  revert h. induction l as [|a l IH]; intros h H; cbn [hash_f32s] in H.
  - apply Ok_inj in H. now subst h.
  - apply bind_ok in H. destruct H as (h1 & E1 & H). apply bind_ok in H. destruct H as (h2 & E2 & H).
    apply Ok_inj in H. subst h. rewrite app_length. rewrite (hash_f32_length p a h1 E1), (IH h2 E2). cbn [length]. lia.
Qed.
Lemma hash_i32_length v : length (hash_i32 v) = 4%nat.
Proof. apply le_bytes_length. Qed.

Lemma agree_get_f l b b' n : agree_on l b b' -> In (AF32 n) l -> b_f32 b n = b_f32 b' n.
Proof. intros H I. exact (H _ I). Qed.
Lemma agree_get_i l b b' n : agree_on l b b' -> In (AI32 n) l -> b_i32 b n = b_i32 b' n.
Proof. intros H I. exact (H _ I). Qed.
Lemma agree_get_s l b b' n : agree_on l b b' -> In (AStr n) l -> b_str b n = b_str b' n.
Proof. intros H I. exact (H _ I). Qed.

(** The node marks its result with its key. *)
Definition processes (b : block) : Prop :=
  b_i32 b "process_r" <> 0 \/ b_i32 b "process_g" <> 0 \/ b_i32 b "process_b" <> 0 \/ b_i32 b "process_a" <> 0.
Definition keyed (t : node_type) (b : block) : Prop :=
  match t with
  | TNull | TWrite => False
  | TTransform | TLens => True
  | TGrade => b_i32 b "enable" = 1 /\ processes b
  | _ => active t b
  end.

Section Keys.
Context {D : Type}.
Variable p : profile.
Variable x : externals D.
Variable E : setting D.
Hypothesis CP : clean_paths (x_expand x).

Notation bytes t b fr hs := (cache_hash_bytes p (x_expand x) t b fr hs).

(** Every key but that of a null node goes on with the enable flag. *)
Lemma key_enable t b b' fr fr' hs hs' l : t <> TNull -> wf_block b -> wf_block b' ->
  bytes t b fr hs = Ok l -> bytes t b' fr' hs' = Ok l -> b_i32 b "enable" = b_i32 b' "enable".
Proof.
  intros N W W' H H'.
  assert (S : forall b fr h, attr_hash p (x_expand x) t b fr = Ok h -> exists r, h = (hash_i32 (b_i32 b "enable") ++ r)%list).
  { clear - N. intros b fr h H. destruct t; cbn [attr_hash] in H; [easy| | | | | | | | |].
    - unfold path_hash in H. destruct (b_i32 b "enable" =? 1).
      + apply bind_ok in H. destruct H as (s & _ & H). apply Ok_inj in H. eauto.
      + apply Ok_inj in H. exists nil. now rewrite app_nil_r.
    - unfold path_hash in H. destruct (b_i32 b "enable" =? 1).
      + apply bind_ok in H. destruct H as (s & _ & H). apply Ok_inj in H. eauto.
      + apply Ok_inj in H. exists nil. now rewrite app_nil_r.
    - unfold grade_hash in H. cbv zeta in H. destruct (b_i32 b "enable" =? 0).
      + apply Ok_inj in H. exists nil. now rewrite app_nil_r.
      + do 5 (apply bind_ok in H; destruct H as (? & _ & H)). apply Ok_inj in H. eauto.
    - unfold lens_hash in H. cbv zeta in H. destruct (b_i32 b "enable" =? 0).
      + apply Ok_inj in H. exists nil. now rewrite app_nil_r.
      + apply bind_ok in H; destruct H as (? & _ & H). apply Ok_inj in H. eauto.
    - unfold transform_hash in H. cbv zeta in H. destruct (b_i32 b "enable" =? 0).
      + apply Ok_inj in H. exists nil. now rewrite app_nil_r.
      + apply bind_ok in H; destruct H as (? & _ & H). apply Ok_inj in H. eauto.
    - unfold merge_hash in H. cbv zeta in H. destruct (b_i32 b "enable" =? 1).
      + apply bind_ok in H; destruct H as (? & _ & H). apply Ok_inj in H. eauto.
      + apply Ok_inj in H. exists nil. now rewrite app_nil_r.
    - unfold crop_hash in H. cbv zeta in H. destruct (b_i32 b "enable" =? 0); apply Ok_inj in H.
      + exists nil. now rewrite app_nil_r.
      + eauto.
    - unfold viewer_hash in H. cbv zeta in H. destruct (b_i32 b "enable" =? 0).
      + apply Ok_inj in H. exists nil. now rewrite app_nil_r.
      + destruct (bake_from _); apply Ok_inj in H; eauto. exists nil. now rewrite app_nil_r.
    - unfold resample_hash in H. cbv zeta in H. destruct (b_i32 b "enable" =? 1); [destruct (negb _)|]; apply Ok_inj in H; eauto;
        exists nil; now rewrite app_nil_r. }
  unfold cache_hash_bytes in H, H'. apply bind_ok in H, H'. destruct H as (h & Eh & H), H' as (h' & Eh' & H').
  destruct (S _ _ _ Eh) as [r ->]. destruct (S _ _ _ Eh') as [r' ->].
  apply Ok_inj in H, H'. rewrite <- H' in H. apply app_split in H; [|reflexivity]. destruct H as [_ H].
  rewrite <- !app_assoc in H. apply hash_i32_split in H; [apply H|apply W|apply W'].
Qed.

(** What equal keys of marking nodes tell. *)
Lemma key_facts t b b' fr fr' hs hs' l : keyed t b -> keyed t b' -> wf_block b -> wf_block b' ->
  Forall u64_value hs -> Forall u64_value hs' ->
  bytes t b fr hs = Ok l -> bytes t b' fr' hs' = Ok l ->
  b_i32 b "enable" = b_i32 b' "enable" /\ hs = hs' /\
  (active t b -> agree_on (match t with TLens => tl (influences t b) | _ => influences t b end) b b' /\
                 same_path (x_expand x) t b b' fr fr').
Proof.
  intros K K' W W' U U' H H'.
  assert (N : t <> TNull) by (intros ->; exact K).
  pose proof (key_enable t b b' fr fr' hs hs' l N W W' H H') as EN. split; [exact EN|].
  assert (AC : active t b -> active t b' ->
    agree_on (match t with TLens => tl (influences t b) | _ => influences t b end) b b' /\
    same_path (x_expand x) t b b' fr fr' /\ hs = hs').
  { intros A A'. exact (key_settings p (x_expand x) t b b' fr fr' hs hs' l CP W W' A A' U U' H H'). }
  assert (MARK : (t = TTransform \/ t = TLens) -> hs = hs').
  { intro T. unfold cache_hash_bytes in H, H'. apply bind_ok in H, H'. destruct H as (h & Eh & H), H' as (h' & Eh' & H').
    apply Ok_inj in H, H'. rewrite <- H' in H. apply app_split in H; [|reflexivity]. destruct H as [_ H].
    apply app_split in H.
    - now apply hash_inputs_inj.
    - clear - Eh Eh' EN T. destruct T as [-> | ->]; cbn [attr_hash] in *.
      + unfold transform_hash in *. cbv zeta in *. rewrite <- EN in Eh'. destruct (b_i32 b "enable" =? 0).
        * congruence.
        * apply bind_ok in Eh, Eh'. destruct Eh as (r & Er & Eh), Eh' as (r' & Er' & Eh'). apply Ok_inj in Eh, Eh'. subst h h'.
          rewrite !app_length, !hash_i32_length, (hash_f32s_length _ _ _ Er), (hash_f32s_length _ _ _ Er'). reflexivity.
      + unfold lens_hash in *. cbv zeta in *. rewrite <- EN in Eh'. destruct (b_i32 b "enable" =? 0).
        * congruence.
        * apply bind_ok in Eh, Eh'. destruct Eh as (r & Er & Eh), Eh' as (r' & Er' & Eh'). apply Ok_inj in Eh, Eh'. subst h h'.
          rewrite !app_length, !hash_i32_length, (hash_f32s_length _ _ _ Er), (hash_f32s_length _ _ _ Er'). reflexivity. }
  destruct t; cbn [keyed active] in *; try contradiction;
    try (destruct (AC K K') as (A1 & A2 & A3); split; [exact A3|intros _; split; [exact A1|exact A2]]).
  - destruct (AC (proj1 K) (proj1 K')) as (A1 & A2 & A3). split; [exact A3|]. intros _. split; [exact A1|exact A2].
  - split; [apply MARK; now right|]. intro A. destruct (AC A) as (A1 & A2 & _); [congruence|]. split; [exact A1|exact A2].
  - split; [apply MARK; now left|]. intro A. destruct (AC A) as (A1 & A2 & _); [congruence|]. split; [exact A1|exact A2].
Qed.

(** The flags of a grade that [influences] leaves out. *)
Lemma grade_flags b b' fr fr' hs hs' l : keyed TGrade b -> keyed TGrade b' -> wf_block b -> wf_block b' ->
  bytes TGrade b fr hs = Ok l -> bytes TGrade b' fr' hs' = Ok l ->
  agree_on [AI32 "clamp_black"; AI32 "clamp_white"; AI32 "premult"] b b'.
Proof.
  intros [K PR] [K' _] W W' H H'. unfold cache_hash_bytes in H, H'. apply bind_ok in H, H'.
  destruct H as (h & Eh & H), H' as (h' & Eh' & H').
  apply Ok_inj in H, H'. rewrite <- H' in H. apply app_split in H; [|reflexivity]. destruct H as [_ H].
  cbn [attr_hash] in Eh, Eh'.
  destruct (grade_split_all p b b' h h' _ _ W W' K K' Eh Eh' H) as (_ & A & _).
  replace ((b_i32 b "process_r" =? 0) && (b_i32 b "process_g" =? 0) && (b_i32 b "process_b" =? 0)
             && (b_i32 b "process_a" =? 0)) with false in A; [exact A|].
  symmetry. destruct PR as [Q|[Q|[Q|Q]]]; apply Z.eqb_neq in Q; rewrite Q; rewrite ?andb_false_r; reflexivity.
Qed.

Lemma bool_or4 a b c d : (negb (a =? 0) || negb (b =? 0) || negb (c =? 0) || negb (d =? 0))%bool = true ->
  a <> 0 \/ b <> 0 \/ c <> 0 \/ d <> 0.
Proof.
  destruct (Z.eqb_spec a 0), (Z.eqb_spec b 0), (Z.eqb_spec c 0), (Z.eqb_spec d 0); cbn; intro H; try discriminate; auto.
Qed.

Definition marks (pl : @plan D) : Prop := match pl with PMark _ _ | PImage _ _ _ _ => True | _ => False end.

Lemma marks_keyed t b fr h ins d : expressible x E t b fr -> marks (plan_of p x t b fr h ins d) -> keyed t b.
Proof.
  intro X. destruct t; cbn [plan_of keyed active expressible] in *; intro M; try easy.
  - destruct X as [X|[X _]]; [|exact X]. change (gi TRead b "enable") with (b_i32 b "enable") in M. rewrite X in M. easy.
  - change (gi TGrade b "enable") with (b_i32 b "enable") in M.
    change (gi TGrade b "process_r") with (b_i32 b "process_r") in M. change (gi TGrade b "process_g") with (b_i32 b "process_g") in M.
    change (gi TGrade b "process_b") with (b_i32 b "process_b") in M. change (gi TGrade b "process_a") with (b_i32 b "process_a") in M.
    destruct (first_input ins). destruct (b_i32 b "enable" =? 1) eqn:EN; [|easy]. apply Z.eqb_eq in EN.
    split; [exact EN|]. unfold processes. cbn [andb] in M.
    destruct (negb (b_i32 b "process_r" =? 0) || _ || _ || _)%bool eqn:B; [|easy]. now apply bool_or4.
  - change (gi TMerge b "enable") with (b_i32 b "enable") in M.
    destruct (b_i32 b "enable" =? 1) eqn:EN; [|easy]. now apply Z.eqb_eq.
  - change (gi TCrop b "enable") with (b_i32 b "enable") in M. destruct ins; [easy|].
    destruct (b_i32 b "enable" =? 1) eqn:EN; [|easy]. now apply Z.eqb_eq.
  - change (gi TViewer b "enable") with (b_i32 b "enable") in M.
    change (gi TViewer b "bake_option") with (b_i32 b "bake_option") in M.
    destruct (b_i32 b "enable" =? 1) eqn:EN; [|easy]. apply Z.eqb_eq in EN. split; [exact EN|].
    intro Q. rewrite Q in M. cbn [negb] in M. destruct (first_input ins). cbn in M. easy.
  - change (gi TResample b "enable") with (b_i32 b "enable") in M. destruct ins; [easy|].
    destruct (b_i32 b "enable" =? 1) eqn:EN; [|easy]. apply Z.eqb_eq in EN. split; [exact EN|].
    change (gi TResample b "factor") with (b_i32 b "factor") in M. cbn [negb] in M.
    intro Q. rewrite Q in M. destruct (match p with Debug => _ | Release => _ end); easy.
Qed.

(** Same work, up to whether the cache is used. *)
Definition same_plan (a b : @plan D) : Prop :=
  match a, b with
  | PMark st s, PMark st' s' => st = st' /\ s = s'
  | PImage _ hit make fin, PImage _ hit' make' fin' => hit = hit' /\ make = make' /\ fin = fin'
  | _, _ => False
  end.

Lemma copy_ext (f g : string -> Z) l : (forall n, In n l -> f n = g n) -> copy_attrs f l = copy_attrs g l.
Proof. intro H. unfold copy_attrs. apply map_ext_in. intros n I. now rewrite H. Qed.

Lemma grade_op_same b b' : agree_on (influences TGrade b) b b' -> processes b ->
  agree_on [AI32 "clamp_black"; AI32 "clamp_white"; AI32 "premult"] b b' ->
  (forall fr, expressible x E TGrade b fr) -> (forall fr, expressible x E TGrade b' fr) -> grade_op b = grade_op b'.
Proof.
  intros A PR F X X'. specialize (X (S754_zero false)). specialize (X' (S754_zero false)). cbn [expressible] in X, X'.
  assert (Pr : b_i32 b "process_r" = b_i32 b' "process_r") by (apply (agree_get_i _ _ _ _ A); cbn; tauto).
  assert (Pg : b_i32 b "process_g" = b_i32 b' "process_g") by (apply (agree_get_i _ _ _ _ A); cbn; tauto).
  assert (Pb : b_i32 b "process_b" = b_i32 b' "process_b") by (apply (agree_get_i _ _ _ _ A); cbn; tauto).
  assert (Pa : b_i32 b "process_a" = b_i32 b' "process_a") by (apply (agree_get_i _ _ _ _ A); cbn; tauto).
  assert (CH : forall flag suffix,
    In (flag, suffix) [("process_r", "r"); ("process_g", "g"); ("process_b", "b"); ("process_a", "a")] ->
    agree_on (channel_attrs suffix) b b').
  { intros flag suffix I. assert (SM : b_i32 b flag = b_i32 b' flag) by (destruct I as [Q|[Q|[Q|[Q|[]]]]]; injection Q as <- <-; assumption).
    destruct (Z.eq_dec (b_i32 b flag) 0) as [Z0|Z0].
    - assert (Z0' : b_i32 b' flag = 0) by congruence.
      pose proof (X flag suffix I Z0) as Y. pose proof (X' flag suffix I Z0') as Y'.
      intros a J. specialize (Y a J). specialize (Y' a J). destruct a; congruence.
    - intros a J. apply A. cbn [influences]. apply Z.eqb_neq in Z0.
      unfold processed. destruct I as [Q|[Q|[Q|[Q|[]]]]]; injection Q as <- <-; rewrite Z0; rewrite !in_app_iff; tauto. }
  assert (LAST : agree_on [AI32 "reverse"; AF32 "mix"] b b').
  { intros a J. apply A. cbn [influences].
    replace ((b_i32 b "process_r" =? 0) && (b_i32 b "process_g" =? 0) && (b_i32 b "process_b" =? 0)
             && (b_i32 b "process_a" =? 0)) with false; [rewrite !in_app_iff; tauto|].
    symmetry. destruct PR as [Q|[Q|[Q|Q]]]; apply Z.eqb_neq in Q; rewrite Q; rewrite ?andb_false_r; reflexivity. }
  unfold grade_op. f_equal.
  - f_equal. cbn [copy_attrs map].
    change (gi TGrade b) with (fun n => gi TGrade b n). cbv beta.
    repeat match goal with |- _ :: _ = _ :: _ => f_equal end; try reflexivity; f_equal;
      [exact Pr|exact Pg|exact Pb|exact Pa|exact (agree_get_i _ _ _ "reverse" LAST ltac:(cbn; tauto))
      |exact (agree_get_i _ _ _ "clamp_black" F ltac:(cbn; tauto))
      |exact (agree_get_i _ _ _ "clamp_white" F ltac:(cbn; tauto))
      |exact (agree_get_i _ _ _ "premult" F ltac:(cbn; tauto))].
  - apply copy_ext. intros n I.
    pose proof (CH "process_r" "r" ltac:(cbn; tauto)) as CR. pose proof (CH "process_g" "g" ltac:(cbn; tauto)) as CG.
    pose proof (CH "process_b" "b" ltac:(cbn; tauto)) as CB. pose proof (CH "process_a" "a" ltac:(cbn; tauto)) as CA.
    clear - I CR CG CB CA LAST.
    cbn [grade_f32_names In] in I.
    repeat (destruct I as [<-|I];
      [match goal with |- gf TGrade ?b ?n = gf TGrade ?b' ?n => change (b_f32 b n = b_f32 b' n) end;
       first [apply (agree_get_f _ _ _ _ CR); cbn; tauto | apply (agree_get_f _ _ _ _ CG); cbn; tauto
             |apply (agree_get_f _ _ _ _ CB); cbn; tauto | apply (agree_get_f _ _ _ _ CA); cbn; tauto
             |apply (agree_get_f _ _ _ _ LAST); cbn; tauto]|]).
    destruct I.
Qed.

Lemma lens_op_same b b' : agree_on (tl (influences TLens b)) b b' -> b_i32 b "direction" = b_i32 b' "direction" ->
  lens_op b = lens_op b'.
Proof.
  intros A DI. unfold lens_op. f_equal.
  - do 2 f_equal. f_equal. exact DI.
  - f_equal. apply copy_ext. intros n I. cbn [In] in I.
    repeat (destruct I as [<-|I];
      [match goal with |- gf TLens ?b ?n = gf TLens ?b' ?n => change (b_f32 b n = b_f32 b' n) end;
       apply (agree_get_f _ _ _ _ A); cbn; tauto|]).
    destruct I.
Qed.

Lemma transform_op_same b b' : agree_on (influences TTransform b) b b' -> transform_op b = transform_op b'.
Proof.
  intros A. unfold transform_op. f_equal.
  - do 2 f_equal. f_equal. exact (agree_get_i _ _ _ "invert" A ltac:(cbn; tauto)).
  - apply copy_ext. intros n I. cbn [In] in I.
    repeat (destruct I as [<-|I];
      [match goal with |- gf TTransform ?b ?n = gf TTransform ?b' ?n => change (b_f32 b n = b_f32 b' n) end;
       apply (agree_get_f _ _ _ _ A); cbn; tauto|]).
    destruct I.
Qed.

Theorem key_plan t b b' fr fr' ins hs hs' l h d d' : wf_block b -> wf_block b' ->
  expressible x E t b fr -> expressible x E t b' fr' -> Forall u64_value hs -> Forall u64_value hs' ->
  disk_ok x E d -> disk_ok x E d' ->
  bytes t b fr hs = Ok l -> bytes t b' fr' hs' = Ok l ->
  keyed t b -> marks (plan_of p x t b' fr' h ins d') ->
  same_plan (plan_of p x t b fr h ins d) (plan_of p x t b' fr' h ins d').
Proof.
  intros W W' X X' U U' DO DO' H H' K M'. pose proof (marks_keyed _ _ _ _ _ _ X' M') as K'.
  destruct (key_facts t b b' fr fr' hs hs' l K K' W W' U U' H H') as (EN & _ & AG).
  destruct t; cbn [plan_of keyed active expressible] in *; try contradiction.
  - (* read *)
    change (gi TRead b' "enable") with (b_i32 b' "enable") in *. change (gi TRead b "enable") with (b_i32 b "enable").
    rewrite K. rewrite K' in M' |- *. cbn [Z.eqb Pos.eqb] in M' |- *.
    destruct (AG K) as (_ & SP). cbn [same_path] in SP. fold (node_path x b fr) in SP. fold (node_path x b' fr') in SP.
    destruct X as [X|(_ & X)]; [congruence|]. destruct X' as [X'|(_ & X')]; [congruence|]. rewrite SP in *.
    destruct (node_path x b' fr') as [path|]; [|easy]. specialize (X path eq_refl).
    destruct (DO path X) as [D1 D2]. destruct (DO' path X) as [D1' D2']. rewrite D1. rewrite D1' in M' |- *.
    destruct (x_kind x (disk0 E) path); try easy. cbn [same_plan]. rewrite D2, D2'. auto.
  - (* grade *)
    destruct (AG (proj1 K)) as (A & _). pose proof (grade_flags b b' fr fr' hs hs' l K K' W W' H H') as F.
    assert (OP : grade_op b = grade_op b').
    { apply grade_op_same; [exact A|exact (proj2 K)|exact F|intro; exact X|intro; exact X']. }
    assert (WK : forall b, keyed TGrade b -> ((gi TGrade b "enable" =? 1)
        && (negb (gi TGrade b "process_r" =? 0) || negb (gi TGrade b "process_g" =? 0)
            || negb (gi TGrade b "process_b" =? 0) || negb (gi TGrade b "process_a" =? 0)) = true)%bool).
    { clear. intros b [K PR]. change (gi TGrade b "enable") with (b_i32 b "enable"). rewrite K. cbn [Z.eqb Pos.eqb andb].
      destruct PR as [Q|[Q|[Q|Q]]]; apply Z.eqb_neq in Q.
      - change (gi TGrade b "process_r") with (b_i32 b "process_r"). rewrite Q. reflexivity.
      - change (gi TGrade b "process_g") with (b_i32 b "process_g"). rewrite Q. cbn [negb]. now rewrite !orb_true_r.
      - change (gi TGrade b "process_b") with (b_i32 b "process_b"). rewrite Q. cbn [negb]. now rewrite !orb_true_r.
      - change (gi TGrade b "process_a") with (b_i32 b "process_a"). rewrite Q. cbn [negb]. now rewrite !orb_true_r. }
    rewrite (WK b K), (WK b' K'). destruct (first_input ins) as [s st]. cbn [negb same_plan]. now rewrite OP.
  - (* lens *)
    destruct (first_input ins) as [s st]. change (gi TLens b "enable") with (b_i32 b "enable") in *.
    change (gi TLens b' "enable") with (b_i32 b' "enable") in *. rewrite <- EN in *.
    destruct (b_i32 b "enable" =? 1) eqn:Q; [|now split]. apply Z.eqb_eq in Q. destruct (AG Q) as (A & _).
    rewrite <- (lens_op_same b b' A) in * by congruence. destruct (x_lens_ok x (lens_op b)); [|easy]. now split.
  - (* transform *)
    destruct (first_input ins) as [s st]. change (gi TTransform b "enable") with (b_i32 b "enable") in *.
    change (gi TTransform b' "enable") with (b_i32 b' "enable") in *. rewrite <- EN in *.
    destruct (b_i32 b "enable" =? 1) eqn:Q; [|now split]. apply Z.eqb_eq in Q. destruct (AG Q) as (A & _).
    rewrite <- (transform_op_same b b' A) in *. now split.
  - (* merge *)
    destruct (AG K) as (A & _). change (gi TMerge b "enable") with (b_i32 b "enable"). change (gi TMerge b' "enable") with (b_i32 b' "enable").
    rewrite K, K'. cbn [Z.eqb Pos.eqb negb]. change (gi TMerge b' "enable") with (b_i32 b' "enable") in M'.
    destruct ins as [|sa rest]; [rewrite K' in M'; easy|]. destruct (match rest with [] => _ | _ => _ end) as [sb st].
    change (gi TMerge b "mode") with (b_i32 b "mode"). change (gi TMerge b' "mode") with (b_i32 b' "mode").
    change (gf TMerge b "mix") with (b_f32 b "mix"). change (gf TMerge b' "mix") with (b_f32 b' "mix").
    rewrite (agree_get_i _ _ _ "mode" A) by (cbn; tauto). rewrite (agree_get_f _ _ _ "mix" A) by (cbn; tauto).
    cbn [same_plan]. auto.
  - (* crop *)
    destruct (AG K) as (A & _). destruct ins as [|s rest]; [easy|].
    change (gi TCrop b "enable") with (b_i32 b "enable"). change (gi TCrop b' "enable") with (b_i32 b' "enable").
    rewrite K, K'. cbn [Z.eqb Pos.eqb negb same_plan]. split; [reflexivity|]. split; [|reflexivity].
    change (gi TCrop b) with (fun n => gi TCrop b n). cbv beta.
    f_equal; [f_equal| | |];
      [exact (agree_get_i _ _ _ "window_min_x" A ltac:(cbn; tauto))|exact (agree_get_i _ _ _ "window_min_y" A ltac:(cbn; tauto))
      |exact (agree_get_i _ _ _ "window_max_x" A ltac:(cbn; tauto))|exact (agree_get_i _ _ _ "window_max_y" A ltac:(cbn; tauto))
      |f_equal; exact (agree_get_i _ _ _ "reformat" A ltac:(cbn; tauto))
      |f_equal; exact (agree_get_i _ _ _ "black_outside" A ltac:(cbn; tauto))
      |f_equal; exact (agree_get_i _ _ _ "intersect" A ltac:(cbn; tauto))].
  - (* viewer *)
    destruct (AG K) as (A & _). destruct K as [K KB], K' as [K' KB'].
    change (gi TViewer b "enable") with (b_i32 b "enable"). change (gi TViewer b' "enable") with (b_i32 b' "enable").
    rewrite K, K'. cbn [Z.eqb Pos.eqb negb]. destruct (first_input ins) as [s st]. unfold viewer_bake.
    change (gi TViewer b "bake_option") with (b_i32 b "bake_option"). change (gi TViewer b' "bake_option") with (b_i32 b' "bake_option").
    change (gi TViewer b "crop_to_format") with (b_i32 b "crop_to_format"). change (gi TViewer b' "crop_to_format") with (b_i32 b' "crop_to_format").
    change (gi TViewer b "bake_pixel_data_type") with (b_i32 b "bake_pixel_data_type").
    change (gi TViewer b' "bake_pixel_data_type") with (b_i32 b' "bake_pixel_data_type").
    change (gs TViewer b "bake_color_space") with (b_str b "bake_color_space").
    change (gs TViewer b' "bake_color_space") with (b_str b' "bake_color_space").
    rewrite <- (agree_get_i _ _ _ "bake_option" A) by (cbn; tauto).
    rewrite <- (agree_get_i _ _ _ "crop_to_format" A) by (cbn; tauto).
    rewrite <- (agree_get_i _ _ _ "bake_pixel_data_type" A) by (cbn; tauto).
    rewrite <- (agree_get_s _ _ _ "bake_color_space" A) by (cbn; tauto).
    destruct (bake_from (b_i32 b "bake_option")) eqn:BO; [now apply bake_from_nothing in BO| | | |]; cbn [same_plan]; auto.
  - (* resample *)
    destruct (AG K) as (A & _). destruct K as [K KB], K' as [K' KB']. destruct ins as [|s rest]; [easy|].
    change (gi TResample b "enable") with (b_i32 b "enable"). change (gi TResample b' "enable") with (b_i32 b' "enable") in *.
    rewrite K. rewrite K' in *. cbn [Z.eqb Pos.eqb negb] in *.
    destruct (match p with Debug => _ | Release => _ end); [easy|].
    change (gi TResample b "factor") with (b_i32 b "factor"). change (gi TResample b' "factor") with (b_i32 b' "factor").
    change (gi TResample b "interpolate") with (b_i32 b "interpolate"). change (gi TResample b' "interpolate") with (b_i32 b' "interpolate").
    apply Z.eqb_neq in KB, KB'. rewrite KB, KB'. cbn [same_plan].
    rewrite <- (agree_get_i _ _ _ "factor" A) by (cbn; tauto).
    rewrite <- (agree_get_i _ _ _ "interpolate" A) by (cbn; tauto). auto.
Qed.
End Keys.

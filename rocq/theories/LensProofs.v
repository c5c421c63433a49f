From Coq Require String.
Import String.StringSyntax.
From Coq Require Import Floats.SpecFloat.
From Verif Require Import Machine Loops FloatModel AttrModel StreamModel DeformModel NodeModel LensModel LensSpec.
Local Open Scope string_scope.

Section Proofs.
Context {L : Type}.
Variable P : plugin L.

Lemma commit_vals d d' : commit P d = Ok d' -> ln_vals d' = ln_vals d.
Proof.
  unfold commit. destruct (set_all P _ _ _) as [l|]; cbn [bind]; [|discriminate].
  destruct (pg_init P l); [|discriminate]. intro H. injection H as <-. reflexivity.
Qed.

Lemma point_step d win inverse xy r d' : use_point P d win inverse xy = Ok (r, d') ->
  ln_vals d' = ln_vals d /\ exists w p, ln_plugin d' = snd (pg_point P (ln_plugin d) w p).
Proof.
  unfold use_point. destruct xy as (x, y).
  destruct (vi (ln_vals d) "direction" =? 0); [|destruct (vi (ln_vals d) "direction" =? 1)]; cbn [bind];
    intro H; try discriminate H; injection H as _ <-; cbn [ln_vals ln_plugin]; eauto.
Qed.

Lemma box_step d b win r d' : use_box P d b win = Ok (r, d') ->
  ln_vals d' = ln_vals d /\ exists w q, ln_plugin d' = snd (pg_box P (ln_plugin d) w q).
Proof.
  unfold use_box.
  destruct (vi (ln_vals d) "direction" =? 0); [|destruct (vi (ln_vals d) "direction" =? 1)]; cbn [bind];
    intro H; try discriminate H; injection H as _ <-; cbn [ln_vals ln_plugin]; eauto.
Qed.

Lemma descends_made v d : descends P v d -> ln_vals d = v /\ exists d0, make P v = Ok d0.
Proof.
  induction 1 as [d M|d d' H IH C|d win i xy r d' H IH U|d b win r d' H IH U]; try destruct IH as (V & d0 & M).
  - split; [exact (commit_vals _ _ M)|]. exists d; exact M.
  - split; [|exists d0; exact M]. unfold clone in C. rewrite (commit_vals _ _ C). exact V.
  - destruct (point_step _ _ _ _ _ _ U) as (E & _). split; [congruence|exists d0; exact M].
  - destruct (box_step _ _ _ _ _ U) as (E & _). split; [congruence|exists d0; exact M].
Qed.

Lemma copies v d : descends P v d -> clone P d = make P v /\ exists d', clone P d = Ok d'.
Proof.
  intro H. destruct (descends_made v d H) as (V & d0 & M).
  assert (clone P d = make P v) as E by (unfold clone, make; rewrite V; reflexivity).
  split; [exact E|]. exists d0. rewrite E. exact M.
Qed.

Section Steady.
Variable alike : L -> L -> Prop.
Hypothesis ST : steady P alike.

Lemma descends_alike v d d0 : descends P v d -> make P v = Ok d0 -> alike (ln_plugin d) (ln_plugin d0).
Proof.
  intros H M. induction H as [d N|d d' H IH C|d win i xy r d' H IH U|d b win r d' H IH U].
  - rewrite M in N. injection N as <-. apply (sd_refl P alike ST).
  - destruct (copies v d H) as (E & _). rewrite E, M in C. injection C as <-. apply (sd_refl P alike ST).
  - destruct (point_step _ _ _ _ _ _ U) as (_ & w & p & ->). apply (sd_after_point P alike ST), IH.
  - destruct (box_step _ _ _ _ _ U) as (_ & w & q & ->). apply (sd_after_box P alike ST), IH.
Qed.

Lemma point_kept nx v d win inverse xy : descends P v d ->
  answer (use_point P d win inverse xy) = deform_point (with_lens nx P) (DTde4 v) win inverse xy.
Proof.
  intro H. destruct (descends_made v d H) as (V & d0 & M).
  pose proof (descends_alike v d d0 H M) as A.
  unfold use_point, deform_point, tde4_apply. destruct xy as (x, y). rewrite V.
  cbn [with_lens nx_lens]. rewrite M.
  set (p := (remap (fmin_x win) (fmax_x win) f32_zero f32_one x, remap (fmin_y win) (fmax_y win) f32_zero f32_one y)).
  destruct (vi v "direction" =? 0); [|destruct (vi v "direction" =? 1)]; cbn [bind answer]; [| |reflexivity].
  - rewrite <- (sd_point P alike ST _ _ inverse p A). destruct (fst (pg_point P (ln_plugin d) inverse p)). reflexivity.
  - rewrite <- (sd_point P alike ST _ _ (negb inverse) p A). destruct (fst (pg_point P (ln_plugin d) (negb inverse) p)). reflexivity.
Qed.

Lemma box_kept nx v d b win : descends P v d ->
  answer (use_box P d b win) = deform_box (with_lens nx P) (DTde4 v) b win.
Proof.
  intro H. destruct (descends_made v d H) as (V & d0 & M).
  pose proof (descends_alike v d d0 H M) as A.
  unfold use_box, deform_box, tde4_box. rewrite V. cbn [with_lens nx_lens_box]. rewrite M.
  set (q := BBoxF _ _ _ _).
  destruct (vi v "direction" =? 0); [|destruct (vi v "direction" =? 1)]; cbn [bind answer]; [| |reflexivity].
  - rewrite (sd_box P alike ST _ _ false q A). reflexivity.
  - rewrite (sd_box P alike ST _ _ true q A). reflexivity.
Qed.
End Steady.

Section Parameters.
Variable get : L -> String.string -> option Z.
Hypothesis K : keeps_parameters P get.

Lemma set_all_other v ps : forall l l' m, set_all P v ps l = Ok l' -> ~ In m (map fst ps) -> get l' m = get l m.
Proof.
  induction ps as [|(n, f) t IH]; intros l l' m H N; cbn [set_all] in H.
  - injection H as <-. reflexivity.
  - cbn [map fst In] in N. destruct (pg_set P l n (vf v f)) as [l1|] eqn:S; [|discriminate].
    rewrite (IH l1 l' m H) by tauto. apply (kp_other P get K l n (vf v f) l1 m S). intros ->. tauto.
Qed.

Lemma set_all_get v ps : forall l l' n f, NoDup (map fst ps) -> set_all P v ps l = Ok l' ->
  In (n, f) ps -> get l' n = Some (vf v f).
Proof.
  induction ps as [|(m, g) t IH]; intros l l' n f ND H I; [destruct I|]. cbn [set_all] in H.
  cbn [map fst] in ND. inversion ND as [|? ? NI ND']; subst.
  destruct (pg_set P l m (vf v g)) as [l1|] eqn:S; [|discriminate].
  destruct I as [E|I].
  - injection E as -> ->. rewrite (set_all_other v t l1 l' n H NI). apply (kp_set P get K l n _ l1 S).
  - apply (IH l1 l' n f ND' H I).
Qed.

Lemma names_distinct : NoDup (map fst parameters).
Proof.
  cbn [parameters map fst].
  repeat (apply NoDup_cons; [cbn [In]; intros H; repeat (destruct H as [H|H]; [discriminate H|]); exact H|]).
  apply NoDup_nil.
Qed.

Lemma commit_get v l d : commit P (Lens v l) = Ok d -> forall n f, In (n, f) parameters -> get (ln_plugin d) n = Some (vf v f).
Proof.
  unfold commit. cbn [ln_vals ln_plugin]. destruct (set_all P v parameters l) as [l1|] eqn:S; cbn [bind]; [|discriminate].
  destruct (pg_init P l1) as [l2|] eqn:I; [|discriminate]. intros H n f N. injection H as <-. cbn [ln_plugin].
  rewrite (kp_init P get K l1 l2 n I). apply (set_all_get v parameters l l1 n f names_distinct S N).
Qed.

Lemma descends_get v d : descends P v d -> forall n f, In (n, f) parameters -> get (ln_plugin d) n = Some (vf v f).
Proof.
  intros H. induction H as [d N|d d' H IH C|d win i xy r d' H IH U|d b win r d' H IH U]; intros n f I.
  - exact (commit_get v _ d N n f I).
  - destruct (descends_made v d H) as (V & _). unfold clone in C. rewrite V in C. exact (commit_get v _ d' C n f I).
  - destruct (point_step _ _ _ _ _ _ U) as (_ & w & p & ->). rewrite (kp_point P get K). apply IH, I.
  - destruct (box_step _ _ _ _ _ U) as (_ & w & q & ->). rewrite (kp_box P get K). apply IH, I.
Qed.

Lemma told_all b d : descends P (lens_op b) d ->
  forall n o, In (n, o) lens_parameters -> get (ln_plugin d) n = Some (told b o).
Proof.
  intros H n o I. pose proof (descends_get (lens_op b) d H) as G.
  cbn [lens_parameters In] in I.
  repeat (destruct I as [I|I]; [injection I as <- <-;
    match goal with |- get _ ?m = _ =>
      let f := eval vm_compute in (table "" parameters m) in
      exact (G m f ltac:(cbn [parameters In]; tauto)) end|]).
  destruct I.
Qed.

Lemma camera_fixed b d : descends P (lens_op b) d ->
  (forall n, In n ["focal_length"; "film_back_width"; "film_back_height"; "pixel_aspect"] ->
    ~ In n (a_exists (arms_of TLens))) /\
  get (ln_plugin d) "tde4_focal_length_cm" = Some 1077936128 /\
  get (ln_plugin d) "tde4_filmback_width_cm" = Some 1080452710 /\
  get (ln_plugin d) "tde4_filmback_height_cm" = Some 1075419546 /\
  get (ln_plugin d) "tde4_pixel_aspect" = Some 1065353216.
Proof.
  intro H. pose proof (told_all b d H) as T. split.
  { intros n I. cbn [In] in I.
    repeat (destruct I as [<-|I]; [intro J; vm_compute in J; repeat (destruct J as [J|J]; [discriminate J|]); exact J|]).
    destruct I. }
  split; [apply (T _ (Always 1077936128)); cbn [lens_parameters In]; tauto|].
  split; [apply (T _ (Always 1080452710)); cbn [lens_parameters In]; tauto|].
  split; [apply (T _ (Always 1075419546)); cbn [lens_parameters In]; tauto|].
  apply (T _ (Always 1065353216)); cbn [lens_parameters In]; tauto.
Qed.
End Parameters.
End Proofs.

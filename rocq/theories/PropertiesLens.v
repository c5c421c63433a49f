(** C81: lens parameters reach the lens model and stay with the picture. *)
From Coq Require String.
Import String.StringSyntax.
From Coq Require Import Floats.SpecFloat.
From Verif Require Import Machine Loops FloatModel AttrModel AttrProofs StreamModel DeformModel NodeModel NodeExamples
  LensModel LensSpec LensProofs.
Local Open Scope string_scope.

(** However often the deformer of a lens node is copied and used, its plug-in
    has the node's parameters. *)
Theorem C81_parameters : forall L (P : plugin L) get, keeps_parameters P get ->
  forall b d, descends P (lens_op b) d ->
  forall n o, In (n, o) lens_parameters -> get (ln_plugin d) n = Some (told b o).
Proof. exact (fun L P get K b d => told_all P get K b d). Qed.
Print Assumptions C81_parameters.

(** What it answers is the lens model of [DeformModel] with those parameters:
    the rest of the model may treat the lens as a function of the fields. *)
Theorem C81_points_kept : forall L (P : plugin L) alike, steady P alike ->
  forall nx v d win inverse xy, descends P v d ->
  answer (use_point P d win inverse xy) = deform_point (with_lens nx P) (DTde4 v) win inverse xy.
Proof. exact (fun L P alike ST => point_kept P alike ST). Qed.
Print Assumptions C81_points_kept.

Theorem C81_boxes_kept : forall L (P : plugin L) alike, steady P alike ->
  forall nx v d b win, descends P v d ->
  answer (use_box P d b win) = deform_box (with_lens nx P) (DTde4 v) b win.
Proof. exact (fun L P alike ST => box_kept P alike ST). Qed.
Print Assumptions C81_boxes_kept.

(** A copy is the deformer as it was made, and copying one that could be made
    never aborts. *)
Theorem C81_copies : forall L (P : plugin L) v d, descends P v d ->
  clone P d = make P v /\ exists d', clone P d = Ok d'.
Proof. exact (fun L P => copies P). Qed.
Print Assumptions C81_copies.

(** A plug-in that counts its calls, refuses unknown names and answers (0, 0)
    before it is initialised. *)
Definition param (n : String.string) (l : list (String.string * Z)) : option Z :=
  table None (map (fun m => (fst m, Some (snd m))) l) n.
Definition counting : plugin (list (String.string * Z) * bool * Z) :=
  Plugin _ ([], false, 0)
    (fun l n v => if existsb (fun m => seqb n (fst m)) parameters then Some ((n, v) :: fst (fst l), false, snd l) else None)
    (fun l => Some (fst (fst l), true, snd l))
    (fun l w p => ((if snd (fst l) then
                      if w then (match param "Distortion" (fst (fst l)) with Some v => f32_of_bits v | None => f32_zero end, snd p)
                      else p
                    else (f32_zero, f32_zero)), (fst l, snd l + 1)))
    (fun l w b => (b, (fst l, snd l + 1))).

Definition lens_block : block := blk_set_f32 (arms_of TLens) (default_attrs TLens) "distortion" 1056964608.

Example C81_example :
  keeps_parameters counting (fun l n => param n (fst (fst l))) /\
  steady counting (fun l l' => fst l = fst l') /\
  exists d, make counting (lens_op lens_block) = Ok d /\
    In ("Distortion", Attribute "distortion") lens_parameters /\
    told lens_block (Attribute "distortion") = 1056964608 /\
    answer (use_point counting d (BBoxF f32_zero f32_zero f32_one f32_one) true (f32_one, f32_one)) =
    Ok (f32_of_bits 1056964608, f32_one).
Proof.
  split.
  { constructor.
    - intros l n v l' H. cbn [pg_set counting] in H. destruct (existsb _ _); [|discriminate]. injection H as <-.
      unfold param. cbn [fst snd map table]. rewrite seqb_refl. reflexivity.
    - intros l n v l' m H N. cbn [pg_set counting] in H. destruct (existsb _ _); [|discriminate]. injection H as <-.
      unfold param. cbn [fst snd map table]. rewrite (proj2 (seqb_neq m n) N). reflexivity.
    - intros l l' m H. cbn [pg_init counting] in H. injection H as <-. reflexivity.
    - reflexivity.
    - reflexivity. }
  split.
  { constructor; try reflexivity; intros l l'; cbn [pg_point pg_box counting fst snd]; intros ? ? E; try exact E.
    rewrite E. reflexivity. }
  eexists. split; [vm_compute; reflexivity|]. split; [cbn [lens_parameters In]; tauto|].
  split; [reflexivity|]. vm_compute. reflexivity.
Qed.

(** Finding: focal length, film back and pixel aspect cannot be set: they are
    not attributes of the node, and the plug-in is always told the same
    (3 cm, 3.6 cm by 2.4 cm, 1), whatever the picture. *)
Theorem C81_camera_refuted : forall L (P : plugin L) get, keeps_parameters P get ->
  forall b d, descends P (lens_op b) d ->
  (forall n, In n ["focal_length"; "film_back_width"; "film_back_height"; "pixel_aspect"] ->
    ~ In n (a_exists (arms_of TLens))) /\
  get (ln_plugin d) "tde4_focal_length_cm" = Some 1077936128 /\
  get (ln_plugin d) "tde4_filmback_width_cm" = Some 1080452710 /\
  get (ln_plugin d) "tde4_filmback_height_cm" = Some 1075419546 /\
  get (ln_plugin d) "tde4_pixel_aspect" = Some 1065353216.
Proof. exact (fun L P get K b d => camera_fixed P get K b d). Qed.
Print Assumptions C81_camera_refuted.

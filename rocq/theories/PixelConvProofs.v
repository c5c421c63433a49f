(** Proofs about pixel format conversions.  The finite value domains (256 and
    65536 integers, all binary16 values) are covered exhaustively by kernel
    computation and lifted to all buffers by induction. *)
From Coq Require Import Floats.SpecFloat Psatz.
From Verif Require Import Machine Loops FloatModel BBoxModel PixelModel PixelSpec PixelProofs.

Lemma check_range : forall (f : Z -> bool) lo hi,
  forallb f (zrange lo hi) = true -> forall x, lo <= x < hi -> f x = true.
Proof.
  intros f lo hi H x Hx. rewrite forallb_forall in H. apply H. apply zrange_in. exact Hx.
Qed.

Lemma u8_f32_u8_check : forallb (fun x => f32_to_u8 (u8_to_f32 x) =? x) (zrange 0 256) = true.
Proof. vm_compute. reflexivity. Qed.
Lemma u8_u16_u8_check :
  forallb (fun x => f32_to_u8 (u16_to_f32 (f32_to_u16 (u8_to_f32 x))) =? x) (zrange 0 256) = true.
Proof. vm_compute. reflexivity. Qed.
Lemma u16_f32_u16_check : forallb (fun x => f32_to_u16 (u16_to_f32 x) =? x) (zrange 0 65536) = true.
Proof. vm_compute. reflexivity. Qed.
Lemma u8_u16_exact_check : forallb (fun x => f32_to_u16 (u8_to_f32 x) =? 257 * x) (zrange 0 256) = true.
Proof. vm_compute. reflexivity. Qed.

Lemma u8_f32_u8 : forall x, 0 <= x < 256 -> f32_to_u8 (u8_to_f32 x) = x.
Proof. intros x Hx. apply Z.eqb_eq. exact (check_range _ _ _ u8_f32_u8_check x Hx). Qed.
Lemma u8_u16_u8 : forall x, 0 <= x < 256 -> f32_to_u8 (u16_to_f32 (f32_to_u16 (u8_to_f32 x))) = x.
Proof. intros x Hx. apply Z.eqb_eq. exact (check_range _ _ _ u8_u16_u8_check x Hx). Qed.
Lemma u16_f32_u16 : forall x, 0 <= x < 65536 -> f32_to_u16 (u16_to_f32 x) = x.
Proof. intros x Hx. apply Z.eqb_eq. exact (check_range _ _ _ u16_f32_u16_check x Hx). Qed.
Lemma u8_u16_exact : forall x, 0 <= x < 256 -> f32_to_u16 (u8_to_f32 x) = 257 * x.
Proof. intros x Hx. apply Z.eqb_eq. exact (check_range _ _ _ u8_u16_exact_check x Hx). Qed.

Lemma map_id_on : forall {A} (f : A -> A) (P : A -> Prop) l,
  (forall a, P a -> f a = a) -> Forall P l -> map f l = l.
Proof.
  intros A f P l H HF. induction HF as [|a l Ha HF IH]; [reflexivity|].
  cbn [map]. rewrite H by exact Ha. rewrite IH. reflexivity.
Qed.

Definition is_u8 (x : Z) : Prop := 0 <= x < 256.
Definition is_u16 (x : Z) : Prop := 0 <= x < 65536.

(** [d] converted to [t] and back is [d]. *)
Definition round_trips (d : datablock) (t : datatype) : Prop :=
  exists d', db_convert d t = Ok d' /\ db_type d' = t /\ db_convert d' (db_type d) = Ok d.

Lemma u8_via_f32 : forall l, Forall is_u8 l -> round_trips (DU8 l) Float32.
Proof.
  intros l H. exists (DF32 (map u8_to_f32 l)). split; [reflexivity|]. split; [reflexivity|].
  cbn. rewrite map_map. rewrite (map_id_on _ is_u8); [reflexivity| |exact H].
  exact u8_f32_u8.
Qed.
Lemma u8_via_u16 : forall l, Forall is_u8 l -> round_trips (DU8 l) UInt16.
Proof.
  intros l H. exists (DU16 (map (fun x => f32_to_u16 (u8_to_f32 x)) l)).
  split; [reflexivity|]. split; [reflexivity|].
  cbn. rewrite map_map. rewrite (map_id_on _ is_u8); [reflexivity| |exact H].
  exact u8_u16_u8.
Qed.
Lemma u16_via_f32 : forall l, Forall is_u16 l -> round_trips (DU16 l) Float32.
Proof.
  intros l H. exists (DF32 (map u16_to_f32 l)). split; [reflexivity|]. split; [reflexivity|].
  cbn. rewrite map_map. rewrite (map_id_on _ is_u16); [reflexivity| |exact H].
  exact u16_f32_u16.
Qed.

(** Half floats *)
Lemma digits2_bound : forall m, Z.pos m < 2 ^ Z.pos (digits2_pos m).
Proof.
  induction m as [m IH|m IH|]; cbn [digits2_pos]; try rewrite Pos2Z.inj_succ, Z.pow_succ_r by lia; lia.
Qed.

Definition is_f16 (x : f16) : Prop := valid_binary prec16 emax16 x = true.

Lemma bounded16_range : forall m e, bounded prec16 emax16 m e = true -> Z.pos m < 2048 /\ -24 <= e <= 5.
Proof.
  intros m e H. unfold bounded, canonical_mantissa in H. apply andb_true_iff in H.
  destruct H as [H1 H2]. apply Zeq_bool_eq in H1. apply Z.leb_le in H2.
  unfold fexp, emin, prec16, emax16 in *. pose proof (digits2_bound m).
  set (dg := Z.pos (digits2_pos m)) in *.
  assert (D : dg <= 11) by lia. split; [|lia].
  assert (2 ^ dg <= 2 ^ 11) by (apply Z.pow_le_mono_r; lia). lia.
Qed.

Definition sf_eqb (x y : spec_float) : bool :=
  match x, y with
  | S754_zero a, S754_zero b => Bool.eqb a b
  | S754_infinity a, S754_infinity b => Bool.eqb a b
  | S754_nan, S754_nan => true
  | S754_finite s m e, S754_finite s' m' e' => Bool.eqb s s' && Pos.eqb m m' && (e =? e')
  | _, _ => false
  end.
Lemma sf_eqb_eq : forall x y, sf_eqb x y = true -> x = y.
Proof.
  intros [s|s| |s m e] [s'|s'| |s' m' e'] H; try discriminate; cbn in H.
  - apply Bool.eqb_prop in H. congruence.
  - apply Bool.eqb_prop in H. congruence.
  - reflexivity.
  - apply andb_true_iff in H. destruct H as [H H3]. apply andb_true_iff in H. destruct H as [H1 H2].
    apply Bool.eqb_prop in H1. apply Pos.eqb_eq in H2. apply Z.eqb_eq in H3. congruence.
Qed.

Definition f16_rt (s : bool) (m : positive) (e : Z) : bool :=
  negb (bounded prec16 emax16 m e) ||
  sf_eqb (f16_of_f32 (f32_of_f16 (S754_finite s m e))) (S754_finite s m e).

Lemma f16_rt_check :
  forallb (fun e => forallb (fun m =>
    f16_rt false (Z.to_pos m) e && f16_rt true (Z.to_pos m) e) (zrange 1 2048)) (zrange (-24) 6) = true.
Proof. vm_compute. reflexivity. Qed.

Lemma f16_f32_f16 : forall x, is_f16 x -> f16_of_f32 (f32_of_f16 x) = x.
Proof.
  intros [s|s| |s m e] H; try reflexivity. unfold is_f16 in H. cbn [valid_binary] in H.
  destruct (bounded16_range m e H) as [Hm He].
  pose proof (check_range _ _ _ f16_rt_check e ltac:(lia)) as C. cbn beta in C.
  pose proof (check_range _ _ _ C (Z.pos m) ltac:(lia)) as C2. cbn beta in C2.
  rewrite Pos2Z.id in C2. apply andb_true_iff in C2. destruct C2 as [Cf Ct].
  apply sf_eqb_eq. unfold f16_rt in *. rewrite H in *. destruct s; assumption.
Qed.

Lemma f16_via_f32 : forall l, Forall is_f16 l -> round_trips (DF16 l) Float32.
Proof.
  intros l H. exists (DF32 (map f32_of_f16 l)). split; [reflexivity|]. split; [reflexivity|].
  cbn. rewrite map_map. rewrite (map_id_on _ is_f16); [reflexivity| |exact H].
  exact f16_f32_f16.
Qed.

(** Conversion is element by element, for every pair of types. *)
Lemma convert_pointwise : forall s t, s <> UnknownType -> t <> UnknownType ->
  exists f : elem -> elem, forall d, db_type d = s ->
    exists d', db_convert d t = Ok d' /\ db_type d' = t /\ elems d' = map f (elems d).
Proof.
  intros s t Hs Ht.
  pose (lift1 := fun (g : spec_float -> elem) (h : Z -> elem) (e : elem) =>
                   match e with EF x => g x | EI z => h z end).
  destruct s; try congruence; destruct t; try congruence.
  all: first
    [ solve [ exists (fun e => e); intros [l|l|l|l] Hd; try discriminate;
              eexists; (split; [reflexivity|]); (split; [reflexivity|]); symmetry; apply map_id ]
    | idtac ].
  - exists (lift1 (fun x => EF (f16_of_f32 x)) EI). intros [l|l|l|l] Hd; try discriminate.
    eexists; (split; [reflexivity|]); (split; [reflexivity|]). cbn [elems]. rewrite !map_map. reflexivity.
  - exists (lift1 (fun x => EI (f32_to_u8 x)) EI). intros [l|l|l|l] Hd; try discriminate.
    eexists; (split; [reflexivity|]); (split; [reflexivity|]). cbn [elems]. rewrite !map_map. reflexivity.
  - exists (lift1 (fun x => EI (f32_to_u16 x)) EI). intros [l|l|l|l] Hd; try discriminate.
    eexists; (split; [reflexivity|]); (split; [reflexivity|]). cbn [elems]. rewrite !map_map. reflexivity.
  - exists (lift1 (fun x => EF (f32_of_f16 x)) EI). intros [l|l|l|l] Hd; try discriminate.
    eexists; (split; [reflexivity|]); (split; [reflexivity|]). cbn [elems]. rewrite !map_map. reflexivity.
  - exists (lift1 (fun x => EI (f32_to_u8 (f32_of_f16 x))) EI). intros [l|l|l|l] Hd; try discriminate.
    eexists; (split; [reflexivity|]); (split; [reflexivity|]). cbn [elems]. rewrite !map_map. reflexivity.
  - exists (lift1 (fun x => EI (f32_to_u16 (f32_of_f16 x))) EI). intros [l|l|l|l] Hd; try discriminate.
    eexists; (split; [reflexivity|]); (split; [reflexivity|]). cbn [elems]. rewrite !map_map. reflexivity.
  - exists (lift1 EF (fun x => EF (u8_to_f32 x))). intros [l|l|l|l] Hd; try discriminate.
    eexists; (split; [reflexivity|]); (split; [reflexivity|]). cbn [elems]. rewrite !map_map. reflexivity.
  - exists (lift1 EF (fun x => EF (f16_of_f32 (u8_to_f32 x)))). intros [l|l|l|l] Hd; try discriminate.
    eexists; (split; [reflexivity|]); (split; [reflexivity|]). cbn [elems]. rewrite !map_map. reflexivity.
  - exists (lift1 EF (fun x => EI (f32_to_u16 (u8_to_f32 x)))). intros [l|l|l|l] Hd; try discriminate.
    eexists; (split; [reflexivity|]); (split; [reflexivity|]). cbn [elems]. rewrite !map_map. reflexivity.
  - exists (lift1 EF (fun x => EF (u16_to_f32 x))). intros [l|l|l|l] Hd; try discriminate.
    eexists; (split; [reflexivity|]); (split; [reflexivity|]). cbn [elems]. rewrite !map_map. reflexivity.
  - exists (lift1 EF (fun x => EF (f16_of_f32 (u16_to_f32 x)))). intros [l|l|l|l] Hd; try discriminate.
    eexists; (split; [reflexivity|]); (split; [reflexivity|]). cbn [elems]. rewrite !map_map. reflexivity.
  - exists (lift1 EF (fun x => EI (f32_to_u8 (u16_to_f32 x)))). intros [l|l|l|l] Hd; try discriminate.
    eexists; (split; [reflexivity|]); (split; [reflexivity|]). cbn [elems]. rewrite !map_map. reflexivity.
Qed.

(** The result of a cast to an integer format is always in range. *)
Lemma f_as_int_range : forall lo hi x, lo <= 0 <= hi -> lo <= f_as_int lo hi x <= hi.
Proof. intros lo hi [s|[]| |s m e] H; cbn [f_as_int]; lia. Qed.

Lemma convert_in_range : forall d t d',
  db_convert d t = Ok d' -> db_type d <> t ->
  match d' with DU8 l => Forall is_u8 l | DU16 l => Forall is_u16 l | _ => True end.
Proof.
  intros d t d' E N. unfold db_convert in E.
  destruct t; destruct d as [l|l|l|l]; cbn in E, N; try discriminate; try (exfalso; apply N; reflexivity);
    injection E as <-; try exact I; apply Forall_forall; intros x Hx; apply in_map_iff in Hx;
    destruct Hx as (z & <- & _); unfold is_u8, is_u16, f32_to_u8, f32_to_u16, f32_as_u8, f32_as_u16.
  all: match goal with |- context [f_as_int ?lo ?hi ?x] => pose proof (f_as_int_range lo hi x ltac:(lia)); lia end.
Qed.

Definition half_loses (x : Z) : bool := negb (f32_to_u8 (f32_of_f16 (f16_of_f32 (u8_to_f32 x))) =? x).

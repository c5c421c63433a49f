(** Proofs about files that cannot be read to the end. *)
From Coq Require String.
Import String.StringSyntax.
From Coq Require Import Floats.SpecFloat Lia.
From Verif Require Import Machine Loops FloatModel BBoxModel BBoxSpec PixelModel PixelSpec PixelProofs PixelProofs2 EnumModel AttrModel StreamModel GraphModel PathModel HashModel CacheModel NodeModel NodeSpec ChainSpec FileModel FileSpec FileProofs DamageSpec.

Lemma put_some_spec {A} got stride nch : (nch <= stride)%nat -> forall n k0 (dst : list A) o l,
  (o + n * stride <= length dst)%nat -> length l = (n * nch)%nat ->
  exists d, put_some got n k0 dst o stride nch l = Some d /\ length d = length dst /\
  (forall i, (i < o)%nat -> nth_error d i = nth_error dst i) /\
  forall k c, (k < n)%nat -> (c < stride)%nat ->
    nth_error d (o + k * stride + c) = if got (k0 + k)%nat && Nat.ltb c nch then nth_error l (k * nch + c) else nth_error dst (o + k * stride + c).
Proof.
  intros LE. induction n as [|n IH]; intros k0 dst o l H L; cbn [put_some].
  - exists dst. repeat split. intros k c K. lia.
  - assert (LF : length (firstn nch l) = nch) by (rewrite firstn_length; lia).
    assert (X : exists d1, (if got k0 then put_values dst o (firstn nch l) else Some dst) = Some d1 /\ length d1 = length dst /\
      forall i, nth_error d1 i = if got k0 && (Nat.leb o i && Nat.ltb i (o + nch)) then nth_error (firstn nch l) (i - o) else nth_error dst i).
    { destruct (got k0); [|exists dst; now repeat split].
      destruct (put_values_spec (firstn nch l) dst o) as (d1 & E1 & L1 & N1); [lia|]. rewrite LF in N1. exists d1. repeat split; assumption. }
    destruct X as (d1 & -> & L1 & N1).
    destruct (IH (S k0) d1 (o + stride)%nat (skipn nch l)) as (d & E & LD & B & N); [lia|rewrite skipn_length; lia|].
    exists d. split; [exact E|]. split; [congruence|]. split.
    + intros i I. rewrite B by lia. rewrite N1. replace (Nat.leb o i) with false by (symmetry; apply Nat.leb_gt; lia). now rewrite andb_false_r.
    + intros [|k] c K C.
      * rewrite Nat.mul_0_l, !Nat.add_0_r. rewrite B by lia. rewrite N1.
        replace (Nat.leb o (o + c)) with true by (symmetry; apply Nat.leb_le; lia). cbn [andb].
        destruct (got k0); cbn [andb]; [|reflexivity].
        destruct (Nat.ltb_spec c nch); destruct (Nat.ltb_spec (o + c) (o + nch)); try lia; [|reflexivity].
        replace (o + c - o)%nat with c by lia. rewrite <- (firstn_skipn nch l) at 2. rewrite Nat.mul_0_l, Nat.add_0_l. rewrite nth_error_app1 by lia. reflexivity.
      * replace (o + S k * stride + c)%nat with (o + stride + k * stride + c)%nat by lia. rewrite N by lia.
        replace (k0 + S k)%nat with (S k0 + k)%nat by lia. destruct (got (S k0 + k)%nat); cbn [andb].
        -- destruct (Nat.ltb_spec c nch).
           ++ rewrite <- (firstn_skipn nch l) at 2. rewrite nth_error_app2 by lia. rewrite LF. f_equal. lia.
           ++ rewrite N1. destruct (Nat.leb_spec o (o + stride + k * stride + c)), (Nat.ltb_spec (o + stride + k * stride + c) (o + nch)); cbn [andb]; rewrite ?andb_false_r; try lia; reflexivity.
        -- rewrite N1. destruct (Nat.leb_spec o (o + stride + k * stride + c)), (Nat.ltb_spec (o + stride + k * stride + c) (o + nch)); cbn [andb]; rewrite ?andb_false_r; try lia; reflexivity.
Qed.
Lemma put_some_fresh {A} got n stride nch (a : A) l : (nch <= stride)%nat -> length l = (n * nch)%nat ->
  exists d, put_some got n 0 (repeat a (n * stride)) 0 stride nch l = Some d /\ length d = (n * stride)%nat /\
  forall k c, (k < n)%nat -> (c < stride)%nat ->
    nth_error d (k * stride + c) = if got k && Nat.ltb c nch then nth_error l (k * nch + c) else Some a.
Proof.
  intros LE L. destruct (put_some_spec got stride nch LE n 0 (repeat a (n * stride)) 0 l) as (d & E & LD & _ & N); [rewrite repeat_length; lia|exact L|].
  exists d. split; [exact E|]. split; [now rewrite LD, repeat_length|]. intros k c K C. specialize (N k c K C). rewrite !Nat.add_0_l in N. rewrite N.
  destruct (got k && Nat.ltb c nch); [reflexivity|]. apply nth_error_repeat. nia.
Qed.
Lemma put_block_some_fresh got n stride nch src : (nch <= stride)%nat -> length (elems src) = (n * nch)%nat ->
  exists d, put_block_some got n (ones (db_type src) (n * stride)) stride nch src = Some d /\ db_type d = db_type src /\
  length (elems d) = (n * stride)%nat /\
  forall k c, (k < n)%nat -> (c < stride)%nat ->
    nth_error (elems d) (k * stride + c) = if got k && Nat.ltb c nch then nth_error (elems src) (k * nch + c) else Some (full_elem (db_type src)).
Proof.
  intros LE L. destruct src as [l|l|l|l]; cbn [elems] in L; rewrite map_length in L; cbn [ones db_type put_block_some];
  match goal with |- context[put_some _ _ _ (repeat ?a _) _ _ _ _] => destruct (put_some_fresh got n stride nch a l LE L) as (d & E & LD & N) end;
  rewrite E; (eexists; split; [reflexivity|]; split; [reflexivity|]);
  cbn [elems]; rewrite map_length; (split; [exact LD|]); intros k c K C; rewrite !nth_error_map, N by assumption; destruct (got k && Nat.ltb c nch); reflexivity.
Qed.

Lemma damaged_ok got p f img : whole_file f -> 3 <= o_channels (fi_spec f) <= stored_channels f -> o_format (fi_spec f) <> OOther ->
  db_len (pb_data (sh_block img)) = 0 ->
  exists b, oiio_read_damaged got p (Some f) img = Done (true, Shared b (read_display (fi_spec f)) (read_data (fi_spec f)) (read_spec (fi_spec f))) /\ pixels_got got b f.
Proof.
  intros WF C F E.
  assert (AS : as_stored (fi_spec f) = stored_channels f) by reflexivity.
  pose proof (whole_len f WF ltac:(lia)) as L. pose proof WF as (W & H & B & T & LV).
  unfold oiio_read_damaged, oiio_read_with. set (s := fi_spec f) in *.
  replace (o_channels s <? 3) with false by (symmetry; apply Z.ltb_ge; lia).
  rewrite (stride_ok s F). cbn [bind]. rewrite allocate_ok; [|exact F|exact W|exact H|lia|exact B|exact E].
  cbn [bind sh_block pb_data pb_size sh_display sh_data].
  replace (oiio_format_to_ocg (o_format s)) with (db_type (fi_values f)) by (rewrite T; destruct (o_format s); reflexivity).
  rewrite AS.
  destruct (put_block_some_fresh got (Z.to_nat (o_width s * o_height s)) (Z.to_nat (stored_channels f))
              (Z.to_nat (o_channels s)) (fi_values f)) as (d & P & TD & LD & N); [lia|exact L|].
  rewrite P. eexists. split; [reflexivity|].
  assert (S0 : 0 <= stored_channels f) by lia. assert (Q : 0 <= o_width s * o_height s) by nia.
  unfold pixels_got. fold s. cbn [pb_size pb_data]. split; [reflexivity|]. split; [now rewrite TD|]. split.
  - rewrite len_elems, LD. rewrite Nat2Z.inj_mul, !Z2Nat.id by assumption. reflexivity.
  - intros k c K CC. unfold value.
    replace (Z.to_nat (k * stored_channels f + c)) with (Z.to_nat k * Z.to_nat (stored_channels f) + Z.to_nat c)%nat
      by (rewrite Z2Nat.inj_add, Z2Nat.inj_mul by nia; reflexivity).
    rewrite N by lia. rewrite T. replace (Nat.ltb (Z.to_nat c) (Z.to_nat (o_channels s))) with (c <? o_channels s).
    + destruct (got (Z.to_nat k)); [|reflexivity]. destruct (Z.ltb_spec c (o_channels s)); [|reflexivity]. cbn [andb].
      f_equal. rewrite Z2Nat.inj_add, Z2Nat.inj_mul by nia. reflexivity.
    + destruct (Z.ltb_spec c (o_channels s)); symmetry; [apply Nat.ltb_lt|apply Nat.ltb_ge]; lia.
Qed.

Local Open Scope string_scope.
(** An enabled read node whose picture is not in the cache yet. *)
Lemma damaged_shown {D} p (x : externals D) got b fr h mode out (w : world D) f path st s w' :
  whole_file f -> 3 <= o_channels (fi_spec f) <= stored_channels f -> o_format (fi_spec f) <> OOther ->
  (forall ok r, oiio_read_damaged got p (Some f) empty_image = Done (ok, r) -> x_read x (w_disk w) path empty_image = r) ->
  Z.land mode m_pixel <> 0 -> gi TRead b "enable" <> 0 ->
  expand_string (x_expand x) (gs TRead b "file_path") (frame_number fr) = Ok path -> x_kind x (w_disk w) path = RegularFile ->
  gi TRead b "use_cache" = 0 \/ misses w h ->
  read_compute p x b fr h mode out w = Ok (st, s, w') ->
  st = NsValid /\ pixels_got got (st_block s) f /\ st_display s = read_display (fi_spec f) /\ st_data s = read_data (fi_spec f).
Proof.
  intros WF C F X M EN E K CA R. destruct (damaged_ok got p f empty_image WF C F eq_refl) as (blk & RD & P).
  apply X in RD. unfold read_compute in R.
  replace (Z.land mode m_pixel =? 0) with false in R by (symmetry; apply Z.eqb_neq; exact M).
  replace (gi TRead b "enable" =? 0) with false in R by (symmetry; apply Z.eqb_neq; exact EN).
  rewrite E in R. cbn [bind] in R. rewrite K, RD in R.
  destruct (cached p _ h w tt _) as [((img, u), w1)|] eqn:CE; [|discriminate R]. cbn [bind] in R.
  assert (I : img = Shared blk (read_display (fi_spec f)) (read_data (fi_spec f)) (read_spec (fi_spec f))).
  { unfold cached in CE. destruct (Z.eqb_spec (gi TRead b "use_cache") 0) as [U|U]; cbn [negb] in CE.
    - cbn [bind] in CE. congruence.
    - destruct CA as [CA|CA]; [contradiction|]. unfold misses in CA. destruct (get (w_cache w) h) as (c, r). cbn [snd] in CA. subst r.
      cbn [bind] in CE. destruct (insert image_bytes p c h _); cbn [bind] in CE; [|discriminate CE]. congruence. }
  subst img. injection R as <- <- _. split; [reflexivity|]. split; [exact P|]. split; reflexivity.
Qed.

Lemma put_some_all {A} : forall n k (dst : list A) o stride nch l, put_some (fun _ => true) n k dst o stride nch l = put_pixels n dst o stride nch l.
Proof.
  induction n as [|n IH]; intros k dst o stride nch l; cbn [put_some put_pixels]; [reflexivity|]. destruct (put_values dst o (firstn nch l)); [apply IH|reflexivity].
Qed.
Lemma put_block_some_all n dst stride nch src : put_block_some (fun _ => true) n dst stride nch src = put_block n dst stride nch src.
Proof. destruct dst, src; cbn [put_block_some put_block]; rewrite ?put_some_all; reflexivity. Qed.
Lemma undamaged p f img : oiio_read_damaged (fun _ => true) p f img = oiio_read_image p f img.
Proof.
  unfold oiio_read_damaged, oiio_read_image, oiio_read_with. destruct f as [f|]; [|reflexivity]. destruct (_ <? 3); [reflexivity|].
  destruct (bind _ _) as [(n, i)|]; [|reflexivity]. rewrite put_block_some_all. reflexivity.
Qed.

(** A file the library cannot open at all. *)
Lemma unopened_shown {D} p (x : externals D) b fr h mode out (w : world D) path st s w' :
  (forall ok r, oiio_read_image p None empty_image = Done (ok, r) -> x_read x (w_disk w) path empty_image = r) ->
  Z.land mode m_pixel <> 0 -> gi TRead b "enable" <> 0 ->
  expand_string (x_expand x) (gs TRead b "file_path") (frame_number fr) = Ok path -> x_kind x (w_disk w) path = RegularFile ->
  gi TRead b "use_cache" = 0 \/ misses w h ->
  read_compute p x b fr h mode out w = Ok (st, s, w') ->
  st = NsValid /\ pb_size (st_block s) = BS 0 0 0 /\ pb_data (st_block s) = DF32 [] /\
  st_display s = BBox 0 0 0 0 /\ st_data s = BBox 0 0 0 0 /\ sp_color_space (st_spec s) = linear_name.
Proof.
  intros X M EN E K CA R. pose proof (X false empty_image eq_refl) as RD. unfold read_compute in R.
  replace (Z.land mode m_pixel =? 0) with false in R by (symmetry; apply Z.eqb_neq; exact M).
  replace (gi TRead b "enable" =? 0) with false in R by (symmetry; apply Z.eqb_neq; exact EN).
  rewrite E in R. cbn [bind] in R. rewrite K, RD in R.
  destruct (cached p _ h w tt _) as [((img, u), w1)|] eqn:CE; [|discriminate R]. cbn [bind] in R.
  assert (I : img = empty_image).
  { unfold cached in CE. destruct (Z.eqb_spec (gi TRead b "use_cache") 0) as [U|U]; cbn [negb] in CE.
    - cbn [bind] in CE. congruence.
    - destruct CA as [CA|CA]; [contradiction|]. unfold misses in CA. destruct (get (w_cache w) h) as (c, r). cbn [snd] in CA. subst r.
      cbn [bind] in CE. destruct (insert image_bytes p c h _); cbn [bind] in CE; [|discriminate CE]. congruence. }
  subst img. injection R as <- <- _. repeat split.
Qed.

(** Proofs about reading and writing files. *)
From Coq Require String.
Import String.StringSyntax.
From Coq Require Import Floats.SpecFloat Lia.
From Verif Require Import Machine Loops FloatModel BBoxModel BBoxSpec PixelModel PixelSpec PixelProofs PixelProofs2 EnumModel AttrModel StreamModel GraphModel PathModel HashModel CacheModel NodeModel NodeSpec ChainSpec RenderProofs FileModel FileSpec.

Lemma set_nth_get {A} (l : list A) : forall i j a, (i < length l)%nat ->
  nth_error (set_nth l i a) j = if Nat.eqb j i then Some a else nth_error l j.
Proof.
  induction l as [|h t IH]; intros [|i] [|j] a H; cbn [set_nth nth_error length Nat.eqb] in *; try lia; try reflexivity. apply IH. lia.
Qed.
Lemma set_nth_len {A} (l : list A) : forall i a, length (set_nth l i a) = length l.
Proof. induction l as [|h t IH]; intros [|i] a; cbn [set_nth length]; congruence. Qed.

Lemma put_values_spec {A} (l : list A) : forall dst o, (o + length l <= length dst)%nat ->
  exists d, put_values dst o l = Some d /\ length d = length dst /\
  forall i, nth_error d i = if Nat.leb o i && Nat.ltb i (o + length l) then nth_error l (i - o) else nth_error dst i.
Proof.
  induction l as [|v l IH]; intros dst o H; cbn [put_values length] in *.
  - exists dst. split; [reflexivity|]. split; [reflexivity|]. intros i.
    destruct (Nat.leb_spec o i), (Nat.ltb_spec i (o + 0)); cbn [andb]; try reflexivity. lia.
  - replace (Nat.ltb o (length dst)) with true by (symmetry; apply Nat.ltb_lt; lia).
    destruct (IH (set_nth dst o v) (S o)) as (d & E & L & N); [rewrite set_nth_len; lia|].
    exists d. split; [exact E|]. split; [now rewrite L, set_nth_len|]. intros i. rewrite N, set_nth_get by lia.
    destruct (Nat.eqb_spec i o) as [->|NE].
    + replace (Nat.leb (S o) o) with false by (symmetry; apply Nat.leb_gt; lia).
      rewrite Nat.leb_refl. replace (Nat.ltb o (o + S (length l))) with true by (symmetry; apply Nat.ltb_lt; lia).
      cbn [andb]. now rewrite Nat.sub_diag.
    + destruct (Nat.leb_spec o i) as [O|O].
      * replace (Nat.leb (S o) i) with true by (symmetry; apply Nat.leb_le; lia). cbn [andb].
        replace (o + S (length l))%nat with (S o + length l)%nat by lia.
        destruct (Nat.ltb_spec i (S o + length l)); [|reflexivity]. now replace (i - o)%nat with (S (i - S o)) by lia.
      * replace (Nat.leb (S o) i) with false by (symmetry; apply Nat.leb_gt; lia). reflexivity.
Qed.
Lemma put_values_over {A} (l : list A) : forall dst o, (length dst < o + length l)%nat -> (o <= length dst)%nat -> put_values dst o l = None.
Proof.
  induction l as [|v l IH]; intros dst o H K; cbn [put_values length] in *; [lia|].
  destruct (Nat.ltb_spec o (length dst)); [|reflexivity]. apply IH; rewrite set_nth_len; lia.
Qed.

Lemma put_pixels_spec {A} stride nch : (nch <= stride)%nat -> forall n (dst : list A) o l,
  (o + n * stride <= length dst)%nat -> length l = (n * nch)%nat ->
  exists d, put_pixels n dst o stride nch l = Some d /\ length d = length dst /\
  (forall i, (i < o)%nat -> nth_error d i = nth_error dst i) /\
  forall k c, (k < n)%nat -> (c < stride)%nat ->
    nth_error d (o + k * stride + c) = if Nat.ltb c nch then nth_error l (k * nch + c) else nth_error dst (o + k * stride + c).
Proof.
  intros LE. induction n as [|n IH]; intros dst o l H L; cbn [put_pixels].
  - exists dst. repeat split. intros k c K. lia.
  - assert (LF : length (firstn nch l) = nch) by (rewrite firstn_length; lia).
    destruct (put_values_spec (firstn nch l) dst o) as (d1 & E1 & L1 & N1); [lia|]. rewrite E1.
    destruct (IH d1 (o + stride)%nat (skipn nch l)) as (d & E & LD & B & N); [lia|rewrite skipn_length; lia|].
    exists d. split; [exact E|]. split; [congruence|]. rewrite LF in N1. split.
    + intros i I. rewrite B by lia. rewrite N1. replace (Nat.leb o i) with false by (symmetry; apply Nat.leb_gt; lia). reflexivity.
    + intros [|k] c K C.
      * rewrite Nat.mul_0_l, Nat.add_0_r. rewrite B by lia. rewrite N1.
        replace (Nat.leb o (o + c)) with true by (symmetry; apply Nat.leb_le; lia). cbn [andb].
        destruct (Nat.ltb_spec c nch); destruct (Nat.ltb_spec (o + c) (o + nch)); try lia; [|reflexivity].
        replace (o + c - o)%nat with c by lia. rewrite <- (firstn_skipn nch l) at 2. rewrite Nat.mul_0_l, Nat.add_0_l. rewrite nth_error_app1 by lia. reflexivity.
      * replace (o + S k * stride + c)%nat with (o + stride + k * stride + c)%nat by lia. rewrite N by lia.
        destruct (Nat.ltb_spec c nch).
        -- rewrite <- (firstn_skipn nch l) at 2. rewrite nth_error_app2 by lia. rewrite LF. f_equal. lia.
        -- rewrite N1. destruct (Nat.leb_spec o (o + stride + k * stride + c)), (Nat.ltb_spec (o + stride + k * stride + c) (o + nch)); cbn [andb]; try lia; reflexivity.
Qed.
Lemma put_pixels_over {A} stride nch : (stride < nch)%nat -> forall n (dst : list A) o l,
  (0 < n)%nat -> (o + n * stride = length dst)%nat -> length l = (n * nch)%nat -> put_pixels n dst o stride nch l = None.
Proof.
  intros LT. induction n as [|n IH]; intros dst o l N H L; [lia|]. cbn [put_pixels].
  assert (LF : length (firstn nch l) = nch) by (rewrite firstn_length; lia).
  destruct (Nat.le_gt_cases (o + nch) (length dst)) as [F|F].
  - destruct (put_values_spec (firstn nch l) dst o) as (d1 & E1 & L1 & _); [lia|]. rewrite E1. apply IH; [|lia|rewrite skipn_length; lia].
    destruct n; lia.
  - rewrite put_values_over by lia. reflexivity.
Qed.

Lemma nth_ext_error {A} (l : list A) : forall l', length l = length l' -> (forall i, (i < length l)%nat -> nth_error l i = nth_error l' i) -> l = l'.
Proof.
  induction l as [|a l IH]; intros [|b l'] L H; try discriminate L; [reflexivity|].
  pose proof (H 0%nat ltac:(cbn; lia)) as [= ->]. f_equal. apply IH; [now injection L|]. intros i I. apply (H (S i)). cbn. lia.
Qed.
Lemma put_all {A} n nch (dst l : list A) : length dst = (n * nch)%nat -> length l = (n * nch)%nat -> put_pixels n dst 0 nch nch l = Some l.
Proof.
  intros LD L. destruct (put_pixels_spec nch nch (le_n _) n dst 0 l) as (d & E & LE & _ & N); [lia|exact L|]. rewrite E. f_equal.
  apply nth_ext_error; [congruence|]. intros i I. rewrite LE, LD in I.
  destruct nch as [|m]; [lia|]. specialize (N (i / S m)%nat (i mod S m)%nat).
  pose proof (Nat.div_mod i (S m) ltac:(lia)) as DM. rewrite Nat.mul_comm in DM.
  pose proof (Nat.mod_upper_bound i (S m) ltac:(lia)) as MB.
  rewrite Nat.add_0_l, <- DM in N. rewrite N; [|apply Nat.div_lt_upper_bound; lia|exact MB].
  replace (Nat.ltb (i mod S m) (S m)) with true by (symmetry; apply Nat.ltb_lt; exact MB). reflexivity.
Qed.

Lemma put_fresh {A} n stride nch (a : A) l : (nch <= stride)%nat -> length l = (n * nch)%nat ->
  exists d, put_pixels n (repeat a (n * stride)) 0 stride nch l = Some d /\ length d = (n * stride)%nat /\
  forall k c, (k < n)%nat -> (c < stride)%nat ->
    nth_error d (k * stride + c) = if Nat.ltb c nch then nth_error l (k * nch + c) else Some a.
Proof.
  intros LE L. destruct (put_pixels_spec stride nch LE n (repeat a (n * stride)) 0 l) as (d & E & LD & _ & N); [rewrite repeat_length; lia|exact L|].
  exists d. split; [exact E|]. split; [now rewrite LD, repeat_length|]. intros k c K C. specialize (N k c K C). rewrite Nat.add_0_l in N. rewrite N.
  destruct (Nat.ltb c nch); [reflexivity|]. apply nth_error_repeat. nia.
Qed.

(** A buffer of [n] ones. *)
Definition ones (t : datatype) (n : nat) : datablock :=
  match t with UInt8 => DU8 (repeat 255 n) | UInt16 => DU16 (repeat 65535 n) | Half16 => DF16 (repeat f16_one n) | _ => DF32 (repeat f32_one n) end.
Lemma resize_empty d n t : db_len d = 0 -> 0 <= n < 2 ^ 63 -> t <> UnknownType -> db_resize d n t = Ok (ones t (Z.to_nat n)).
Proof.
  intros D N T. unfold db_resize. replace (n >=? 2 ^ 63) with false by (symmetry; apply Z.geb_leb, Z.leb_gt || (rewrite Z.geb_leb; apply Z.leb_gt); lia).
  assert (V : forall A (l : list A) k a, zlen l = 0 -> vec_resize l k a = repeat a k).
  { intros A l k a Z0. unfold zlen in Z0. destruct l; [|cbn [length] in Z0; lia]. unfold vec_resize. rewrite firstn_nil. cbn [length app]. now rewrite Nat.sub_0_r. }
  destruct t, d; try contradiction; cbn [db_len ones] in *; rewrite ?V by exact D; reflexivity.
Qed.

Lemma len_elems d : db_len d = Z.of_nat (length (elems d)).
Proof. destruct d; cbn [db_len elems]; unfold zlen; now rewrite map_length. Qed.
Lemma put_block_fresh n stride nch src : (nch <= stride)%nat -> length (elems src) = (n * nch)%nat ->
  exists d, put_block n (ones (db_type src) (n * stride)) stride nch src = Some d /\ db_type d = db_type src /\
  length (elems d) = (n * stride)%nat /\
  forall k c, (k < n)%nat -> (c < stride)%nat ->
    nth_error (elems d) (k * stride + c) = if Nat.ltb c nch then nth_error (elems src) (k * nch + c) else Some (full_elem (db_type src)).
Proof.
  intros LE L. destruct src as [l|l|l|l]; cbn [elems] in L; rewrite map_length in L; cbn [ones db_type put_block].
  - destruct (put_fresh n stride nch f32_one l LE L) as (d & E & LD & N). rewrite E. eexists. split; [reflexivity|]. split; [reflexivity|].
    cbn [elems]. rewrite map_length. split; [exact LD|]. intros k c K C. rewrite !nth_error_map, N by assumption. destruct (Nat.ltb c nch); reflexivity.
  - destruct (put_fresh n stride nch 255 l LE L) as (d & E & LD & N). rewrite E. eexists. split; [reflexivity|]. split; [reflexivity|].
    cbn [elems]. rewrite map_length. split; [exact LD|]. intros k c K C. rewrite !nth_error_map, N by assumption. destruct (Nat.ltb c nch); reflexivity.
  - destruct (put_fresh n stride nch 65535 l LE L) as (d & E & LD & N). rewrite E. eexists. split; [reflexivity|]. split; [reflexivity|].
    cbn [elems]. rewrite map_length. split; [exact LD|]. intros k c K C. rewrite !nth_error_map, N by assumption. destruct (Nat.ltb c nch); reflexivity.
  - destruct (put_fresh n stride nch f16_one l LE L) as (d & E & LD & N). rewrite E. eexists. split; [reflexivity|]. split; [reflexivity|].
    cbn [elems]. rewrite map_length. split; [exact LD|]. intros k c K C. rewrite !nth_error_map, N by assumption. destruct (Nat.ltb c nch); reflexivity.
Qed.
Lemma put_block_all n nch src : length (elems src) = (n * nch)%nat -> put_block n (ones (db_type src) (n * nch)) nch nch src = Some src.
Proof.
  intros L. destruct src as [l|l|l|l]; cbn [elems] in L; rewrite map_length in L; cbn [ones db_type put_block];
    (rewrite put_all; [reflexivity|apply repeat_length|exact L]).
Qed.
Lemma put_block_over n stride nch src : (stride < nch)%nat -> (0 < n)%nat -> length (elems src) = (n * nch)%nat ->
  put_block n (ones (db_type src) (n * stride)) stride nch src = None.
Proof.
  intros LT P L. destruct src as [l|l|l|l]; cbn [elems] in L; rewrite map_length in L; cbn [ones db_type put_block];
    (rewrite put_pixels_over; [reflexivity|exact LT|exact P|symmetry; apply repeat_length|exact L]).
Qed.

(** The window a file is given. *)
Definition read_display (s : ospec) : bbox := BBox 0 0 (o_full_width s) (o_full_height s).
Definition read_data (s : ospec) : bbox :=
  BBox (o_x s + o_full_x s) (o_y s + o_full_y s) (o_x s + o_width s + o_full_x s) (o_y s + o_height s + o_full_y s).
Definition read_spec (s : ospec) : image_spec :=
  Spec (default [] (o_color_space s)) (default f1 (o_gamma s)) (default f1 (o_aspect s))
       (default 0 (o_orientation s) mod 256) (negb (default 0 (o_unassociated s) =? 0)) (default 0 (o_dither s)).

Definition as_stored (s : ospec) : Z := match o_format s with OFloat => o_channels s | _ => 4 end.
Lemma stride_ok s : o_format s <> OOther -> stride_num_channels (o_channels s) (oiio_format_to_ocg (o_format s)) = Ok (as_stored s).
Proof. unfold as_stored. destruct (o_format s); try reflexivity. contradiction. Qed.
Lemma allocate_ok p s img : o_format s <> OOther -> 0 <= o_width s -> 0 <= o_height s -> 0 <= o_channels s ->
  count_fits (o_width s) (o_height s) (as_stored s) -> db_len (pb_data (sh_block img)) = 0 ->
  allocate p s img = Ok (Shared (PB (BS (o_width s) (o_height s) (as_stored s))
    (ones (oiio_format_to_ocg (o_format s)) (Z.to_nat (o_width s * o_height s) * Z.to_nat (as_stored s)))) (read_display s) (read_data s) (sh_spec img)).
Proof.
  intros F W H C B E. assert (S0 : 0 <= as_stored s) by (unfold as_stored; destruct (o_format s); lia).
  unfold allocate. rewrite (stride_ok s F). cbn [bind]. unfold pb_resize.
  rewrite bs_size_ok by (cbn [bs_w bs_h bs_nc]; assumption). cbn [bind bs_w bs_h bs_nc].
  rewrite resize_empty; [|exact E| |destruct (o_format s); cbn; try discriminate; contradiction].
  - cbn [bind min_x min_y max_x max_y]. rewrite Z2Nat.inj_mul by nia. unfold read_display, read_data. do 3 f_equal; lia.
  - destruct B as (B & _). change (2 ^ 63) with 9223372036854775808. unfold two31 in B.
    assert (Q : 0 <= o_width s * o_height s) by nia. remember (o_width s * o_height s) as q. clear - B Q S0. split; nia.
Qed.

Lemma read_step p f img : whole_file f -> 3 <= o_channels (fi_spec f) -> o_format (fi_spec f) <> OOther ->
  db_len (pb_data (sh_block img)) = 0 ->
  let s := fi_spec f in
  oiio_read_image p (Some f) img =
  match put_block (Z.to_nat (o_width s * o_height s)) (ones (db_type (fi_values f)) (Z.to_nat (o_width s * o_height s) * Z.to_nat (as_stored s)))
          (Z.to_nat (as_stored s)) (Z.to_nat (o_channels s)) (fi_values f) with
  | None => Undefined
  | Some d => Done (true, Shared (PB (BS (o_width s) (o_height s) (as_stored s)) d) (read_display s) (read_data s) (read_spec s))
  end.
Proof.
  intros (W & H & B & T & L) C F E s. unfold oiio_read_image, oiio_read_with. fold s.
  replace (o_channels s <? 3) with false by (symmetry; apply Z.ltb_ge; exact C).
  rewrite (stride_ok s F). cbn [bind]. rewrite allocate_ok; [|exact F|exact W|exact H|unfold s; lia| |exact E].
  - cbn [bind sh_block pb_data pb_size sh_display sh_data]. rewrite T. reflexivity.
  - exact B.
Qed.
Lemma whole_len f : whole_file f -> 0 <= o_channels (fi_spec f) ->
  length (elems (fi_values f)) = (Z.to_nat (o_width (fi_spec f) * o_height (fi_spec f)) * Z.to_nat (o_channels (fi_spec f)))%nat.
Proof.
  intros (W & H & B & T & L) C. rewrite len_elems in L.
  assert (Q : 0 <= o_width (fi_spec f) * o_height (fi_spec f)) by nia. rewrite <- Z2Nat.inj_mul by assumption. rewrite <- L. now rewrite Nat2Z.id.
Qed.

Lemma read_ok p f img : whole_file f -> 3 <= o_channels (fi_spec f) <= stored_channels f -> o_format (fi_spec f) <> OOther ->
  db_len (pb_data (sh_block img)) = 0 ->
  exists b, oiio_read_image p (Some f) img = Done (true, Shared b (read_display (fi_spec f)) (read_data (fi_spec f)) (read_spec (fi_spec f))) /\ pixels_of b f.
Proof.
  intros WF C F E. rewrite read_step by (assumption || lia). cbv zeta.
  assert (AS : as_stored (fi_spec f) = stored_channels f) by reflexivity. rewrite AS.
  pose proof (whole_len f WF ltac:(lia)) as L. pose proof WF as (W & H & B & T & _).
  destruct (put_block_fresh (Z.to_nat (o_width (fi_spec f) * o_height (fi_spec f))) (Z.to_nat (stored_channels f))
              (Z.to_nat (o_channels (fi_spec f))) (fi_values f)) as (d & P & TD & LD & N); [lia|exact L|].
  rewrite P. eexists. split; [reflexivity|].
  unfold pixels_of. cbn [pb_size pb_data]. rewrite <- T.
  assert (Q : 0 <= o_width (fi_spec f) * o_height (fi_spec f)) by nia.
  split; [reflexivity|]. split; [exact TD|]. split.
  { rewrite len_elems, LD. rewrite Nat2Z.inj_mul, !Z2Nat.id by lia. reflexivity. }
  intros k c K CC. unfold value. specialize (N (Z.to_nat k) (Z.to_nat c) ltac:(lia) ltac:(lia)).
  rewrite <- Z2Nat.inj_mul, <- Z2Nat.inj_add in N by nia. rewrite N.
  destruct (Z.ltb_spec c (o_channels (fi_spec f))), (Nat.ltb_spec (Z.to_nat c) (Z.to_nat (o_channels (fi_spec f)))); try lia; [|reflexivity].
  rewrite <- Z2Nat.inj_mul, <- Z2Nat.inj_add by nia. reflexivity.
Qed.

(** Too many channels for the padding. *)
Lemma read_over p f img : whole_file f -> 4 < o_channels (fi_spec f) -> o_format (fi_spec f) <> OOther -> o_format (fi_spec f) <> OFloat ->
  0 < o_width (fi_spec f) -> 0 < o_height (fi_spec f) ->
  db_len (pb_data (sh_block img)) = 0 -> oiio_read_image p (Some f) img = Undefined.
Proof.
  intros WF C F G W H E. rewrite read_step by (assumption || lia). cbv zeta.
  pose proof (whole_len f WF ltac:(lia)) as L.
  assert (AS : as_stored (fi_spec f) = 4) by (unfold as_stored; destruct (o_format (fi_spec f)); congruence). rewrite AS.
  rewrite put_block_over; [reflexivity| | |exact L]; [lia|].
  assert (0 < o_width (fi_spec f) * o_height (fi_spec f)) by nia. lia.
Qed.

(** Unknown formats. *)
Lemma read_unknown p f img : 3 <= o_channels (fi_spec f) -> o_format (fi_spec f) = OOther -> oiio_read_image p (Some f) img = Aborted.
Proof.
  intros C F. unfold oiio_read_image, oiio_read_with. replace (o_channels (fi_spec f) <? 3) with false by (symmetry; apply Z.ltb_ge; exact C).
  rewrite F. reflexivity.
Qed.
Lemma read_few p f img : o_channels (fi_spec f) < 3 -> oiio_read_image p (Some f) img = Done (false, img).
Proof. intros C. unfold oiio_read_image, oiio_read_with. now replace (o_channels (fi_spec f) <? 3) with true by (symmetry; apply Z.ltb_lt; exact C). Qed.

Lemma format_back t : oiio_format_to_ocg (ocg_format_to_oiio t) = t.
Proof. destruct t; reflexivity. Qed.
Lemma moved (b : bbox) dx dy w h : w = max_x b - min_x b -> h = max_y b - min_y b ->
  BBox (min_x b + dx) (min_y b + dy) (min_x b + w + dx) (min_y b + h + dy) =
  BBox (min_x b + dx) (min_y b + dy) (max_x b + dx) (max_y b + dy).
Proof. intros -> ->. f_equal; lia. Qed.

(** What comes back of a written picture. *)
Lemma round_trip p img src : storable img -> db_len (pb_data (sh_block src)) = 0 ->
  let dx := min_x (sh_display img) in let dy := min_y (sh_display img) in
  oiio_read_image p (Some (file_of img)) src =
  Done (true, Shared (sh_block img) (BBox 0 0 (max_x (sh_display img) - dx) (max_y (sh_display img) - dy))
    (BBox (min_x (sh_data img) + dx) (min_y (sh_data img) + dy) (max_x (sh_data img) + dx) (max_y (sh_data img) + dy)) (sh_spec img)).
Proof.
  intros (OK & N3 & FM & OR) E dx dy. destruct OK as (WB & PL & _ & _ & CF). cbn [plain im_block im_data] in *.
  destruct WB as (W & H & NC & L). destruct PL as (PW & PH).
  assert (KN := db_type_known (pb_data (sh_block img))).
  assert (ST : as_stored (fi_spec (file_of img)) = bs_nc (pb_size (sh_block img))).
  { unfold as_stored. cbn [file_of fi_spec o_format o_channels construct_spec]. destruct FM as [-> | ->]; [reflexivity|].
    destruct (db_type (pb_data (sh_block img))); reflexivity. }
  assert (WF : whole_file (file_of img)).
  { unfold whole_file. split; [exact W|]. split; [exact H|]. split.
    - change (stored_channels (file_of img)) with (as_stored (fi_spec (file_of img))). rewrite ST.
      cbn [file_of fi_spec o_width o_height construct_spec]. rewrite PW, PH. exact CF.
    - cbn [file_of fi_spec fi_values o_width o_height o_channels o_format construct_spec]. rewrite format_back. split; [reflexivity|exact L]. }
  rewrite read_step; [|exact WF|exact N3| |exact E].
  - cbv zeta. rewrite ST.
    pose proof (whole_len (file_of img) WF NC) as WL.
    change (o_channels (fi_spec (file_of img))) with (bs_nc (pb_size (sh_block img))) in *.
    rewrite (put_block_all _ _ _ WL).
    change (fi_values (file_of img)) with (pb_data (sh_block img)).
    unfold read_display, read_data, read_spec.
    cbn [file_of fi_spec fi_values o_width o_height o_x o_y o_full_x o_full_y o_full_width o_full_height construct_spec
         o_color_space o_gamma o_aspect o_orientation o_unassociated o_dither default].
    fold dx dy. rewrite (moved (sh_data img) dx dy _ _ PW PH).
    do 3 f_equal.
    + destruct (sh_block img) as [[? ? ?] ?]. reflexivity.
    + destruct (sh_spec img) as [? ? ? ? u ?]. cbn [StreamModel.sp_orientation] in OR |- *. rewrite Z.mod_small by exact OR. destruct u; reflexivity.
  - cbn [file_of fi_spec o_format construct_spec]. destruct (db_type (pb_data (sh_block img))); discriminate || contradiction.
Qed.

Section Kept.
Context {D : Type}.
Variables (p : profile) (x : externals D) (find : D -> list Z -> option file) (creates : list Z -> bool)
  (store : D -> list Z -> file -> list oattr -> D * bool).
Hypothesis K : files_kept p x find creates store.

Lemma read_kept d path f img : find d path = Some f ->
  oiio_read_image p (Some f) empty_image = Done (true, img) -> x_read x d path empty_image = img.
Proof. intros F R. eapply (fk_read _ _ _ _ _ K). rewrite F. exact R. Qed.

Lemma kept_exact d path img co : storable img -> min_x (sh_display img) = 0 -> min_y (sh_display img) = 0 ->
  creates path = true -> (forall f a, snd (store d path f a) = true) ->
  exists d', x_write x d path img co = (d', true) /\ x_read x d' path empty_image = img.
Proof.
  intros S X Y C ST. rewrite (fk_write _ _ _ _ _ K). unfold oiio_write_image. rewrite C. eexists. split; [reflexivity|].
  eapply read_kept; [apply (fk_keeps _ _ _ _ _ K), ST|].
  rewrite round_trip by (assumption || reflexivity). cbv zeta. rewrite X, Y, !Z.add_0_r, !Z.sub_0_r.
  destruct img as [b [dx0 dy0 dx1 dy1] [ex0 ey0 ex1 ey1] sp]. cbn [min_x min_y max_x max_y sh_block sh_display sh_data sh_spec] in *. now rewrite X, Y.
Qed.

Lemma kept_uncropped d path img co : storable img -> min_x (sh_display img) = 0 -> min_y (sh_display img) = 0 ->
  creates path = true -> (forall f a, snd (store d path f a) = true) ->
  exists d', write_image p x d path img false co = Ok (d', true) /\
    x_read x d' path empty_image = Shared (sh_block img) (sh_display img) (sh_data img) spec_new.
Proof.
  intros S X Y C ST. unfold write_image. cbn [bind].
  destruct (kept_exact d path (with_plain (plain img) spec_new) co) as (d' & E & R); try assumption.
  { destruct S as (OK & N3 & FM & OR). exact (conj OK (conj N3 (conj FM (conj (Z.le_refl 0) (eq_refl : 0 < 256))))). }
  rewrite E. exists d'. split; [reflexivity|exact R].
Qed.

Lemma kept_cropped d path img co : storable img -> min_x (sh_display img) = 0 -> min_y (sh_display img) = 0 ->
  well_formed (sh_display img) -> coords_small (sh_display img) ->
  count_fits (width (sh_display img)) (height (sh_display img)) (bs_nc (pb_size (sh_block img))) ->
  creates path = true -> (forall f a, snd (store d path f a) = true) ->
  exists d' r, write_image p x d path img true co = Ok (d', true) /\ x_read x d' path empty_image = r /\
    sh_display r = sh_display img /\ sh_data r = sh_display img /\ sh_spec r = spec_new /\
    bs_nc (pb_size (sh_block r)) = bs_nc (pb_size (sh_block img)) /\ db_type (pb_data (sh_block r)) = db_type (pb_data (sh_block img)) /\
    forall px py c, in_box (sh_display img) px py -> 0 <= c < bs_nc (pb_size (sh_block img)) ->
      pixel_val (sh_block r) (sh_data r) px py c =
      if in_boxb (sh_data img) px py then pixel_val (sh_block img) (sh_data img) px py c
      else Some (zero_elem (db_type (pb_data (sh_block img)))).
Proof.
  intros (OK & N3 & FM & OR) X Y WF CS CF C ST. unfold write_image.
  destruct (crop_image_plain p (plain img) (sh_display img) true false OK WF CS CF) as (im & E & OK' & ED & EI & FB).
  rewrite E. cbn [bind]. pose proof OK as (WB & PL & WD & CD & FD). cbn [plain im_block im_data] in *.
  destruct (crop_exact p (sh_block img) (sh_data img) (sh_display img) WB PL WD WF CD CS FD CF) as (r & ER & _ & _ & NR & TR & VR).
  rewrite ER in FB. injection FB as FB; subst r.
  destruct (kept_exact d path (with_plain im spec_new) co) as (d' & E' & R); try assumption.
  - split; [exact OK'|]. cbn [with_plain sh_block]. rewrite NR, TR. split; [assumption|]. split; [assumption|]. exact (conj (Z.le_refl 0) (eq_refl : 0 < 256)).
  - cbn [with_plain sh_display]. rewrite EI. exact X.
  - cbn [with_plain sh_display]. rewrite EI. exact Y.
  - exists d', (with_plain im spec_new). rewrite E'. split; [reflexivity|]. split; [exact R|].
    cbn [with_plain sh_block sh_display sh_data sh_spec]. rewrite EI, ED.
    split; [reflexivity|]. split; [reflexivity|]. split; [reflexivity|]. split; [exact NR|]. split; [exact TR|]. exact VR.
Qed.
End Kept.

(** ** Resampling *)
Lemma scaled_ok n f : resizable n f -> exists v, scaled n f = Some v /\
  v * 2 ^ Z.max 0 (- f) <= n * 2 ^ Z.max 0 f < (v + 1) * 2 ^ Z.max 0 (- f).
Proof.
  intros ((N0 & N1) & F & B). unfold scaled. replace (1024 <=? f) with false by (symmetry; apply Z.leb_gt; lia).
  destruct (Z.leb_spec 0 f) as [P|P].
  - rewrite Z.max_l by lia. rewrite Z.max_r by lia. rewrite Z.pow_0_r.
    assert (R : 0 <= n * 2 ^ f < 2 ^ 31).
    { destruct (Z.eq_dec f 0) as [->|NZ]; [rewrite Z.pow_0_r; lia|]. split; [|apply B; lia]. assert (0 < 2 ^ f) by (apply Z.pow_pos_nonneg; lia). nia. }
    replace ((- 2 ^ 31 <=? n * 2 ^ f) && (n * 2 ^ f <? 2 ^ 31)) with true by (symmetry; apply andb_true_iff; split; [apply Z.leb_le|apply Z.ltb_lt]; lia).
    eexists. split; [reflexivity|]. lia.
  - rewrite Z.max_r by lia. rewrite Z.max_l by lia. rewrite Z.pow_0_r, Z.mul_1_r.
    assert (Q : 0 < 2 ^ (- f)) by (apply Z.pow_pos_nonneg; lia).
    rewrite Z.quot_div_nonneg by lia.
    pose proof (Z.div_pos n _ N0 Q). pose proof (Z.mul_div_le n _ Q). pose proof (Z.mul_succ_div_gt n _ Q).
    assert (n / 2 ^ (- f) <= n) by (apply Z.div_le_upper_bound; [exact Q|nia]).
    replace ((- 2 ^ 31 <=? n / 2 ^ (- f)) && (n / 2 ^ (- f) <? 2 ^ 31)) with true by (symmetry; apply andb_true_iff; split; [apply Z.leb_le|apply Z.ltb_lt]; lia).
    eexists. split; [reflexivity|]. lia.
Qed.
Lemma limited_ok n f v : v * 2 ^ Z.max 0 (- f) <= n * 2 ^ Z.max 0 f < (v + 1) * 2 ^ Z.max 0 (- f) -> resized n f (limited v).
Proof. intros H. exists v. split; [exact H|]. unfold limited. lia. Qed.

Section Resample.
Variable algorithm : datablock -> Z -> Z -> Z -> Z -> Z -> bool -> bool * datablock.
Hypothesis M : makes_size algorithm.
Lemma resample_ok p src dst f i : let b := sh_block src in
  db_len (pb_data (sh_block dst)) = 0 -> 0 <= bs_nc (pb_size b) <= 4 ->
  (db_type (pb_data b) = Float32 \/ bs_nc (pb_size b) = 4) ->
  resizable (bs_w (pb_size b)) f -> resizable (bs_h (pb_size b)) f ->
  exists w h, resized (bs_w (pb_size b)) f w /\ resized (bs_h (pb_size b)) f h /\
  let r := algorithm (pb_data b) (bs_w (pb_size b)) (bs_h (pb_size b)) (bs_nc (pb_size b)) w h i in
  oiio_image_resample algorithm p src dst f i =
  Done (fst r, Shared (PB (BS w h (bs_nc (pb_size b))) (snd r)) (BBox 0 0 w h) (BBox 0 0 w h) (sh_spec dst)).
Proof.
  intros b E N FM RW RH. unfold oiio_image_resample. fold b.
  destruct (scaled_ok _ _ RW) as (v & -> & SV). destruct (scaled_ok _ _ RH) as (u & -> & SU).
  exists (limited v), (limited u). split; [exact (limited_ok _ _ _ SV)|]. split; [exact (limited_ok _ _ _ SU)|]. cbv zeta.
  assert (LV : 1 <= limited v <= 16384) by (unfold limited; lia). assert (LU : 1 <= limited u <= 16384) by (unfold limited; lia).
  remember (limited v) as w. remember (limited u) as h. remember (bs_nc (pb_size b)) as n. clear SV SU Heqw Heqh.
  set (s := construct_spec 0 0 w h 0 0 w h n (db_type (pb_data b))).
  assert (ST : as_stored s = n).
  { unfold as_stored, s. cbn [construct_spec o_format o_channels]. destruct FM as [-> | NF]; [reflexivity|]. destruct (db_type (pb_data b)); cbn [ocg_format_to_oiio]; congruence. }
  rewrite allocate_ok; [|destruct (pb_data b); discriminate|cbn; lia|cbn; lia|cbn; lia| |exact E].
  - rewrite ST. cbn [sh_block pb_data pb_size sh_display sh_data sh_spec].
    change (o_width s) with w. change (o_height s) with h. change (o_format s) with (ocg_format_to_oiio (db_type (pb_data b))). rewrite format_back.
    destruct (M (pb_data b) (bs_w (pb_size b)) (bs_h (pb_size b)) n w h i) as (TM & LM). specialize (LM ltac:(nia)).
    destruct (algorithm (pb_data b) (bs_w (pb_size b)) (bs_h (pb_size b)) n w h i) as [ok l]. cbn [fst snd] in *. rewrite <- TM.
    rewrite put_block_all.
    + unfold read_display, read_data, s. cbn [construct_spec o_full_width o_full_height o_full_x o_full_y o_x o_y o_width o_height].
      rewrite !Z.add_0_l, !Z.add_0_r, !Z.sub_0_r. reflexivity.
    + rewrite len_elems in LM. rewrite <- Z2Nat.inj_mul by nia. rewrite <- LM. now rewrite Nat2Z.id.
  - rewrite ST. change (o_width s) with w. change (o_height s) with h.
    unfold count_fits, two31. assert (w * h <= 16384 * 16384) by nia. repeat split; nia.
Qed.
End Resample.

(** ** Compression settings *)
Lemma ends_with_app a b e : (length e <= length b)%nat -> ends_with (a ++ b) e = ends_with b e.
Proof.
  intros L. unfold ends_with. rewrite app_length. rewrite skipn_app.
  replace (length a + length b - length e - length a)%nat with (length b - length e)%nat by lia.
  rewrite (skipn_all2 a) by lia. rewrite app_nil_l. f_equal.
  destruct (Nat.leb_spec (length e) (length a + length b)), (Nat.leb_spec (length e) (length b)); lia || reflexivity.
Qed.
Lemma any_case_ends path ext e : any_case path ext -> (length e <= length ext)%nat -> ends_with (map lower path) e = ends_with ext e.
Proof.
  intros (a & b & -> & S) L. assert (M : map lower b = ext); [|rewrite <- M in *; rewrite map_app; apply ends_with_app; exact L].
  clear L. induction S as [|c d b ext [(-> & N)|I] _ IH]; [reflexivity| |]; cbn [map]; rewrite IH; f_equal.
  - unfold lower. destruct (Z.leb_spec 65 d), (Z.leb_spec d 90); try reflexivity. exfalso. apply N. unfold capitals.
    assert (C : exists k, (k < 26)%nat /\ d = 65 + Z.of_nat k) by (exists (Z.to_nat (d - 65)); lia). destruct C as (k & K & ->).
    do 26 (destruct k as [|k]; [cbn; tauto|]). lia.
  - cbn in I. repeat (destruct I as [[= <- <-]|I]; [reflexivity|]). contradiction.
Qed.

Local Open Scope string_scope.
Lemma exr_file path co k name : any_case path ext_exr -> In (k, name) exr_names -> co_exr co = exr_from k ->
  compression_attrs path co =
  OStr "Compression" name :: (if (k =? 9) || (k =? 10) then [OFloatAttr "openexr:dwaCompressionLevel" (f32_of_Z (co_dwa co))] else []).
Proof.
  intros C I E. unfold compression_attrs. rewrite (any_case_ends path ext_exr ext_exr C) by (cbn; lia).
  change (ends_with ext_exr ext_exr) with true. unfold exr_attrs. rewrite E.
  cbn [exr_names In] in I. repeat destruct I as [[= <- <-]|I]; try reflexivity. contradiction.
Qed.
Lemma png_file path co : any_case path ext_png -> compression_attrs path co = [OInt "png:compressionLevel" (co_png co)].
Proof.
  intros C. unfold compression_attrs. rewrite (any_case_ends path ext_png ext_exr C), (any_case_ends path ext_png ext_png C) by (cbn; lia).
  reflexivity.
Qed.
Lemma jpeg_file path co ext k name : In ext jpeg_endings -> any_case path ext -> In (k, name) jpeg_names -> co_sampling co = jpeg_from k ->
  compression_attrs path co =
  [OStr "Compression" "jpeg"; OInt "CompressionQuality" (co_jpeg co); OStr "jpeg:subsampling" name;
   OInt "jpeg:progressive" (if co_progressive co then 1 else 0)].
Proof.
  intros I C J E. unfold compression_attrs.
  assert (L : (4 <= length ext)%nat) by (cbn [jpeg_endings In] in I; repeat destruct I as [<-|I]; cbn; lia || contradiction).
  rewrite (any_case_ends path ext ext_exr C), (any_case_ends path ext ext_png C) by exact L.
  assert (X : ends_with ext ext_exr = false) by (cbn [jpeg_endings In] in I; repeat destruct I as [<-|I]; reflexivity || contradiction).
  assert (P : ends_with ext ext_png = false) by (cbn [jpeg_endings In] in I; repeat destruct I as [<-|I]; reflexivity || contradiction).
  rewrite X, P.
  assert (O : ends_with (map lower path) ext_jpg || ends_with (map lower path) ext_jpeg || ends_with (map lower path) ext_jpe
          || ends_with (map lower path) ext_jif || ends_with (map lower path) ext_jfif || ends_with (map lower path) ext_jfi = true).
  { assert (Y : forall e, ext = e -> ends_with (map lower path) e = true).
    { intros e <-. rewrite (any_case_ends path ext ext C) by lia. cbn [jpeg_endings In] in I. repeat destruct I as [<-|I]; reflexivity || contradiction. }
    cbn [jpeg_endings In] in I. rewrite !orb_true_iff. intuition auto. }
  rewrite O. unfold jpeg_attrs. rewrite E. cbn [jpeg_names In] in J. repeat destruct J as [[= <- <-]|J]; reflexivity || contradiction.
Qed.


Lemma lower_letter c d : lower c = d -> same_letter c d.
Proof.
  unfold lower, same_letter. destruct (Z.leb_spec 65 c), (Z.leb_spec c 90); cbn [andb]; intros <-;
    try (left; split; [reflexivity|]; cbn; lia).
  right. assert (C : exists k, (k < 26)%nat /\ c = 65 + Z.of_nat k) by (exists (Z.to_nat (c - 65)); lia). destruct C as (k & K & ->).
  do 26 (destruct k as [|k]; [cbn; tauto|]). lia.
Qed.
Lemma ends_any_case path e : ends_with (map lower path) e = true -> any_case path e.
Proof.
  intros H. apply ends_with_spec in H. destruct H as (a & H). apply map_eq_app in H. destruct H as (a' & b & -> & _ & <-).
  exists a', b. split; [reflexivity|]. clear. induction b as [|c b IH]; cbn [map]; constructor; [now apply lower_letter|exact IH].
Qed.
Lemma other_file path co : ~ any_case path ext_exr -> ~ any_case path ext_png -> (forall ext, In ext jpeg_endings -> ~ any_case path ext) ->
  compression_attrs path co = [].
Proof.
  intros X P J. unfold compression_attrs.
  assert (N : forall e, ~ any_case path e -> ends_with (map lower path) e = false).
  { intros e H. destruct (ends_with (map lower path) e) eqn:E; [|reflexivity]. now apply ends_any_case in E. }
  rewrite !N; try assumption; try reflexivity; apply J; cbn; tauto.
Qed.
Lemma exr_unnamed path co k : any_case path ext_exr -> (k <= 0 \/ 10 < k) -> co_exr co = exr_from k -> compression_attrs path co = [].
Proof.
  intros C K E. unfold compression_attrs. rewrite (any_case_ends path ext_exr ext_exr C) by (cbn; lia).
  change (ends_with ext_exr ext_exr) with true. unfold exr_attrs. rewrite E. clear - K.
  destruct k as [|k|k]; try reflexivity. do 4 (destruct k as [k|k|]; try reflexivity; try lia).
Qed.
Lemma jpeg_unnamed path co ext k : In ext jpeg_endings -> any_case path ext -> (k <= 0 \/ 4 < k) -> co_sampling co = jpeg_from k ->
  compression_attrs path co =
  [OStr "Compression" "jpeg"; OInt "CompressionQuality" (co_jpeg co); OInt "jpeg:progressive" (if co_progressive co then 1 else 0)].
Proof.
  intros I C K E.
  pose proof (jpeg_file path (Compression (co_exr co) (co_dwa co) (co_png co) (co_jpeg co) (jpeg_from 1) (co_progressive co)) ext 1 "4:4:4" I C
                (or_introl eq_refl) eq_refl) as H.
  assert (L : (4 <= length ext)%nat) by (cbn [jpeg_endings In] in I; repeat destruct I as [<-|I]; cbn; lia || contradiction).
  unfold compression_attrs in *. rewrite (any_case_ends path ext ext_exr C), (any_case_ends path ext ext_png C) in * by exact L.
  assert (X : ends_with ext ext_exr = false) by (cbn [jpeg_endings In] in I; repeat destruct I as [<-|I]; reflexivity || contradiction).
  assert (P : ends_with ext ext_png = false) by (cbn [jpeg_endings In] in I; repeat destruct I as [<-|I]; reflexivity || contradiction).
  rewrite X, P in *.
  destruct (_ || _); [|discriminate H]. unfold jpeg_attrs. rewrite E. clear - K.
  destruct k as [|k|k]; try reflexivity. do 3 (destruct k as [k|k|]; try reflexivity; try lia).
Qed.


(** ** Nodes *)
Lemma source_shows {D} (x : externals D) n d fr s path :
  source x n d fr s -> expand_string (x_expand x) (node_get_str n "file_path") (frame_number fr) = Ok path ->
  x_kind x d path = RegularFile -> shows (x_read x d path empty_image) s.
Proof. intros (q & Q & S) E K. rewrite E in Q. injection Q as <-. rewrite K in S. exact S. Qed.

Lemma written_spec_new {D} p (x : externals D) n fr s path img co : written p x n fr s path img co -> sh_spec img = spec_new.
Proof. intros W. destruct (wr_image _ _ _ _ _ _ _ _ W) as (sp & ty & r & _ & _ & _ & [(_ & ->)|(_ & im & _ & ->)]); reflexivity. Qed.

Lemma rendered_back {D} p (x : externals D) find creates store n fr s path img co d n' fr' s' :
  files_kept p x find creates store -> written p x n fr s path img co ->
  storable img -> min_x (sh_display img) = 0 -> min_y (sh_display img) = 0 ->
  creates path = true -> (forall f a, snd (store d path f a) = true) ->
  let d' := fst (x_write x d path img co) in
  expand_string (x_expand x) (node_get_str n' "file_path") (frame_number fr') = Ok path -> x_kind x d' path = RegularFile ->
  source x n' d' fr' s' -> shows img s'.
Proof.
  intros K _ S X Y C ST d' E KD SO. pose proof (source_shows x n' d' fr' s' path SO E KD) as SH.
  destruct (kept_exact p x find creates store K d path img co S X Y C ST) as (d2 & E2 & R2).
  unfold d' in SH. rewrite E2 in SH. cbn [fst] in SH. now rewrite R2 in SH.
Qed.

(** A picture read from a file that has it. *)
Lemma file_shown {D} p (x : externals D) find creates store n fr d f s path :
  files_kept p x find creates store -> find d path = Some f ->
  whole_file f -> 3 <= o_channels (fi_spec f) <= stored_channels f -> o_format (fi_spec f) <> OOther ->
  expand_string (x_expand x) (node_get_str n "file_path") (frame_number fr) = Ok path -> x_kind x d path = RegularFile ->
  source x n d fr s -> pixels_of (st_block s) f /\ st_display s = read_display (fi_spec f) /\ st_data s = read_data (fi_spec f) /\ st_spec s = read_spec (fi_spec f).
Proof.
  intros K F WF C FM E KD SO. destruct (source_shows x n d fr s path SO E KD) as (B & DI & DA & SP & _).
  destruct (read_ok p f empty_image WF C FM eq_refl) as (b & R & P).
  rewrite (read_kept p x find creates store K d path f _ F R) in *. cbn [sh_block sh_display sh_data sh_spec] in *. subst b. auto.
Qed.

(** The resample node. *)
Lemma resample_node {D} p (x : externals D) algorithm b h s rest (w : world D) st s' w' :
  makes_size algorithm -> resample_glue p x algorithm ->
  gi TResample b "enable" = 1 -> gi TResample b "factor" <> 0 -> misses w h ->
  resample_compute p x b h (s :: rest) w = Ok (st, s', w') ->
  let sz := pb_size (st_block s) in let f := gi TResample b "factor" in
  0 <= bs_nc sz <= 4 -> (db_type (pb_data (st_block s)) = Float32 \/ bs_nc sz = 4) ->
  resizable (bs_w sz) f -> resizable (bs_h sz) f ->
  exists w1 h1, resized (bs_w sz) f w1 /\ resized (bs_h sz) f h1 /\
  let r := algorithm (pb_data (st_block s)) (bs_w sz) (bs_h sz) (bs_nc sz) w1 h1 (negb (gi TResample b "interpolate" =? 0)) in
  (st = NsValid <-> fst r = true) /\ st_block s' = PB (BS w1 h1 (bs_nc sz)) (snd r) /\
  st_display s' = BBox 0 0 w1 h1 /\ st_data s' = BBox 0 0 w1 h1 /\ st_spec s' = st_spec s.
Proof.
  intros M G EN FZ MI H sz f N FM RW RH.
  destruct (resample_ok algorithm M p (Shared (st_block s) (st_display s) (st_data s) (st_spec s)) empty_image f
              (negb (gi TResample b "interpolate" =? 0)) eq_refl N FM RW RH) as (w1 & h1 & A & B & R).
  cbn [sh_block] in *. fold sz in A, B, R. exists w1, h1. split; [exact A|]. split; [exact B|]. cbv zeta in *.
  apply G in R. unfold resample_compute in H. rewrite EN in H. change (negb (1 =? 1)) with false in H. cbv iota in H.
  destruct (match p with Debug => _ | Release => _ end); [discriminate H|].
  destruct (Z.eqb_spec (gi TResample b "factor") 0) as [Z0|_]; [contradiction|]. fold f in H. rewrite R in H.
  set (r := algorithm _ _ _ _ _ _ _) in *.
  assert (X : forall img sts w2, cached p (negb (gi TResample b "use_cache" =? 0)) h w NsValid
     (Ok (Shared (PB (BS w1 h1 (bs_nc sz)) (snd r)) (BBox 0 0 w1 h1) (BBox 0 0 w1 h1) (sh_spec empty_image), if fst r then NsValid else NsError))
     = Ok (img, sts, w2) -> img = Shared (PB (BS w1 h1 (bs_nc sz)) (snd r)) (BBox 0 0 w1 h1) (BBox 0 0 w1 h1) (sh_spec empty_image) /\
       sts = if fst r then NsValid else NsError).
  { intros img sts w2. unfold cached, misses in *. destruct (negb (gi TResample b "use_cache" =? 0)); cbn [bind]; [|intros [= <- <- <-]; auto].
    destruct (get (w_cache w) h) as [c o]. cbn [snd] in MI. subst o. cbn [bind].
    destruct (insert image_bytes p c h _) as [c2|]; cbn [bind]; [|discriminate]. intros [= <- <- <-]. auto. }
  destruct (cached _ _ _ _ _ _) as [[[img sts] w2]|]; cbn [bind] in H; [|discriminate H].
  destruct (X img sts w2 eq_refl) as (-> & ->). injection H as <- <- <-.
  split; [destruct (fst r); split; intros; congruence || discriminate|].
  split; [reflexivity|]. split; [reflexivity|]. split; reflexivity.
Qed.

Lemma settings {D} p (x : externals D) n fr s path img co : written p x n fr s path img co ->
  (any_case path ext_exr -> forall name, In (node_get_i32 n "exr_compression", name) exr_names ->
   In (OStr "Compression" name) (compression_attrs path co)) /\
  (any_case path ext_exr -> node_get_i32 n "exr_compression" = 9 \/ node_get_i32 n "exr_compression" = 10 ->
   In (OFloatAttr "openexr:dwaCompressionLevel" (f32_of_Z (node_get_i32 n "exr_dwa_compression_level"))) (compression_attrs path co)) /\
  (any_case path ext_png -> In (OInt "png:compressionLevel" (node_get_i32 n "png_compression_level")) (compression_attrs path co)) /\
  (forall ext name, In ext jpeg_endings -> any_case path ext -> In (node_get_i32 n "jpeg_subsampling", name) jpeg_names ->
   In (OInt "CompressionQuality" (node_get_i32 n "jpeg_compression_level")) (compression_attrs path co) /\
   In (OStr "jpeg:subsampling" name) (compression_attrs path co) /\
   In (OInt "jpeg:progressive" (if node_get_i32 n "jpeg_progressive" =? 0 then 0 else 1)) (compression_attrs path co)).
Proof.
  intros W. pose proof (wr_options _ _ _ _ _ _ _ _ W) as O. split; [|split; [|split]].
  - intros C name I. rewrite (exr_file path co _ name C I) by (rewrite O; reflexivity). now left.
  - intros C [E|E].
    + rewrite (exr_file path co 9 "dwaa" C) by (first [solve [cbn; tauto] | rewrite O; cbn [co_exr]; rewrite E; reflexivity]). rewrite O. right. now left.
    + rewrite (exr_file path co 10 "dwab" C) by (first [solve [cbn; tauto] | rewrite O; cbn [co_exr]; rewrite E; reflexivity]). rewrite O. right. now left.
  - intros C. rewrite (png_file path co C), O. now left.
  - intros ext name I C J. rewrite (jpeg_file path co ext _ name I C J) by (rewrite O; reflexivity). rewrite O. cbn [co_jpeg co_progressive].
    split; [right; now left|]. split; [right; right; now left|]. right; right; right; left. now destruct (node_get_i32 n "jpeg_progressive" =? 0).
Qed.

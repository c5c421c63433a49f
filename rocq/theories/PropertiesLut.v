(** C44: keys of colour conversion tables; C45: the identity cube;
    C57: tables of colour operations. *)
From Coq Require String.
Import String.StringSyntax.
From Coq Require Import Reals Floats.SpecFloat.
From Verif Require Import Machine Loops FloatModel FloatReal BBoxModel PixelModel CacheModel AttrModel HashModel
  StreamModel GradeModel DeformModel BakeModel BakeSpec NodeModel NodeExamples LutModel LutSpec LutHistory
  LutProofs LutProofs2 LutProofs3.

(* ------------------------------ C44 ------------------------------ *)

(** The names are hashed without anything that marks their ends: for all names,
    a "To:" inside a name can be read as the separator. *)
Theorem C44_names_run_together : forall n from x to,
  transform_lut_bytes n (from ++ ascii_bytes "To:"%string ++ x) to
  = transform_lut_bytes n from (x ++ ascii_bytes "To:"%string ++ to).
Proof. intros. unfold transform_lut_bytes. now rewrite <- !app_assoc. Qed.
Print Assumptions C44_names_run_together.

Theorem C44_key_refuted : exists n from to from' to',
  transform_lut_bytes n from to = transform_lut_bytes n from' to' /\ from <> from' /\ to <> to'.
Proof.
  exists 2, (ascii_bytes "aTo:b"%string), (ascii_bytes "c"%string), (ascii_bytes "a"%string), (ascii_bytes "bTo:c"%string).
  split; [reflexivity|]. split; discriminate.
Qed.
Print Assumptions C44_key_refuted.

(** Two requests that share a key get the same table from a warm cache ... *)
Theorem C44_shared_key_answer : forall D p (X : externals D) from to n from' to' n' cap img c,
  cap <> 0 -> transform_lut_bytes n from to = transform_lut_bytes n' from' to' ->
  get_transform_lut p X from to n (with_capacity cap) = Ok (img, c) ->
  exists c', get_transform_lut p X from' to' n' c = Ok (img, c').
Proof. intros D p X. exact (shared_key_answer p X). Qed.
Print Assumptions C44_shared_key_answer.

(** ... which may be a table for another conversion.  A converter that knows
    one conversion (to black): *)
Definition one_conversion : externals disk :=
  Externals (x_expand demo) (x_digest demo) (x_numerics demo)
    (fun px _ _ _ _ _ from _ => if bytes_eqb from (ascii_bytes "a"%string) then Some (map (fun _ => f32_zero) px) else None)
    (x_resample demo) (x_lens_ok demo) (x_kind demo) (x_read demo) (x_write demo).

Theorem C44_wrong_table_refuted :
  let a := ascii_bytes "a"%string in let to := ascii_bytes "bTo:c"%string in
  exists img c img' c' img0,
    get_transform_lut Debug one_conversion (ascii_bytes "aTo:b"%string) (ascii_bytes "c"%string) 2 (with_capacity 1000) = Ok (img, c)
    /\ get_transform_lut Debug one_conversion a to 2 c = Ok (img', c')
    /\ generate_transform_lut Debug one_conversion 2 3 a to = Ok img0
    /\ img' <> img0.
Proof.
  eexists _, _, _, _, _. split; [vm_compute; reflexivity|]. split; [vm_compute; reflexivity|].
  split; [vm_compute; reflexivity|]. discriminate.
Qed.
Print Assumptions C44_wrong_table_refuted.

(** Without a colon in the source names the key identifies the conversion. *)
Theorem C44_key_partial : forall n n' from from' to to',
  - 2 ^ 31 <= n < 2 ^ 31 -> - 2 ^ 31 <= n' < 2 ^ 31 -> ~ In 58 from -> ~ In 58 from' ->
  transform_lut_bytes n from to = transform_lut_bytes n' from' to' -> n = n' /\ from = from' /\ to = to'.
Proof. exact transform_key. Qed.
Print Assumptions C44_key_partial.

(** And then every request, of conversions and of colour operations, whatever
    happened to the cache before, is answered with the table asked for.  [used]
    lists the byte strings hashed in the history; none of them collide. *)
Theorem C44_tables_correct : forall D p (X : externals D) used,
  no_collisions (x_digest X) used -> digest_u64 (x_digest X) ->
  forall c r img c', history p X used c -> request_ok r -> (forall l, hashed p X r l -> In l used) ->
  call p X r c = Ok (img, c') -> wanted p X r = Ok img.
Proof. intros D p X used NC U. exact (call_correct p X used NC U). Qed.
Print Assumptions C44_tables_correct.

(** A cache that served a conversion, then a request for colour operations. *)
Definition some_ops : request := ROps (push_color_op stream_new (grade_op grade_new)) 2 3.
Definition some_used : list (list Z) :=
  transform_lut_bytes 2 (ascii_bytes "a"%string) (ascii_bytes "b"%string)
  :: (match ops_lut_bytes Debug one_conversion 2 3 [grade_op grade_new] with Ok l => [l] | Panic => [] end)
  ++ (match ops_bytes Debug one_conversion [grade_op grade_new] with Ok l => [l] | Panic => [] end)
  ++ (match grade_hash Debug (op_block (grade_op grade_new)) with Ok l => [l] | Panic => [] end).
Example C44_example :
  let r := RTransform (ascii_bytes "a"%string) (ascii_bytes "b"%string) 2 in
  no_collisions (x_digest one_conversion) some_used /\ digest_u64 (x_digest one_conversion)
  /\ request_ok r /\ request_ok some_ops
  /\ (forall l, hashed Debug one_conversion r l -> In l some_used)
  /\ (forall l, hashed Debug one_conversion some_ops l -> In l some_used)
  /\ exists img c img' c', call Debug one_conversion r (with_capacity 5000) = Ok (img, c)
     /\ call Debug one_conversion some_ops c = Ok (img', c')
     /\ history Debug one_conversion some_used c'
     /\ wanted Debug one_conversion r = Ok img /\ img <> img'.
Proof.
  intro r. assert (NC : no_collisions (x_digest one_conversion) some_used).
  { apply collision_check. vm_compute. reflexivity. }
  split; [exact NC|].
  split. { intro l. cbn [one_conversion x_digest demo]. unfold demo_digest. rewrite <- (rev_involutive l).
           destruct (rev l) as [|b t]; [vm_compute; split; congruence|]. cbn [rev].
           rewrite fold_left_app. cbn [fold_left]. apply Z.mod_pos_bound. reflexivity. }
  assert (K : request_ok r).
  { split; [lia|]. intros [H|[]]. vm_compute in H. discriminate H. }
  assert (V : op_values (grade_op grade_new)).
  { split; intro n; [unfold vi|unfold vf]; apply HashProofs.table_all; try lia;
      match goal with |- Forall _ ?l => let v := eval vm_compute in l in change l with v end;
      repeat (apply Forall_cons; [lia|]); apply Forall_nil. }
  assert (K' : request_ok some_ops).
  { split; [lia|split; [lia|]]. cbn [some_ops st_ops push_color_op]. intros o [<-|[]]. split; [exact V|].
    intros _. right. right. vm_compute. repeat split; discriminate. }
  assert (HU : forall l, hashed Debug one_conversion r l -> In l some_used) by (intros l <-; now left).
  assert (HU' : forall l, hashed Debug one_conversion some_ops l -> In l some_used).
  { unfold some_ops. cbn [hashed]. change (st_ops (push_color_op stream_new (grade_op grade_new))) with [grade_op grade_new].
    unfold some_used. intros l [H|[H|(o & [<-|[]] & H)]]; rewrite H; right; rewrite !in_app_iff.
    - left. now left.
    - right. left. now left.
    - right. right. now left. }
  split; [exact K|]. split; [exact K'|]. split; [exact HU|]. split; [exact HU'|].
  destruct (call Debug one_conversion r (with_capacity 5000)) as [[img c]|] eqn:E; [|vm_compute in E; discriminate E].
  assert (H : history Debug one_conversion some_used c) by (eapply h_request; [apply h_new|exact K|exact HU|exact E]).
  destruct (call Debug one_conversion some_ops c) as [[img' c']|] eqn:E'.
  2:{ exfalso. revert E'. vm_compute in E. injection E as <- <-. vm_compute. discriminate. }
  exists img, c, img', c'. split; [reflexivity|]. split; [exact E'|].
  split; [eapply h_request; [exact H|exact K'|exact HU'|exact E']|].
  vm_compute in E. injection E as <- <-. vm_compute in E'. injection E' as <- <-.
  split; [vm_compute; reflexivity|discriminate].
Qed.

(* ------------------------------ C45 ------------------------------ *)

(** The table from a colour space to itself is an n x n x n grid over [0,1],
    red fastest, one row per blue; the image has n rows, for all n below 413. *)
Theorem C45_identity_cube : forall D p (X : externals D) n cs, 2 <= n < 413 ->
  exists img, generate_transform_lut p X n 3 cs cs = Ok img
    /\ pb_size (sh_block img) = BS (n * n) n 3
    /\ sh_data img = BBox 0 0 (n * n) n /\ sh_display img = sh_data img
    /\ sp_color_space (sh_spec img) = cs
    /\ identity_cube img n.
Proof.
  intros D p X n cs N. destruct (identity_cube_ok p X n cs) as (img & h & E & S & W & V & C & _ & H & I & _); [lia|].
  rewrite (H ltac:(lia)) in *. exists img. auto 6.
Qed.
Print Assumptions C45_identity_cube.

(** Up to 894 (the largest cube whose buffer size fits i32) the grid is right
    too, but the image can have one row too many, filled with black. *)
Theorem C45_large_cubes_partial : forall D p (X : externals D) n cs, 2 <= n <= 894 ->
  exists img h, generate_transform_lut p X n 3 cs cs = Ok img
    /\ pb_size (sh_block img) = BS (n * n) h 3
    /\ sh_data img = BBox 0 0 (n * n) h /\ sh_display img = sh_data img
    /\ sp_color_space (sh_spec img) = cs
    /\ n <= h <= n + 1 /\ (n < 413 -> h = n)
    /\ identity_cube img n
    /\ (forall x y c, 0 <= x < n * n -> n <= y < h -> 0 <= c < 3 -> texel img x y c = Some f32_zero).
Proof. intros D p X. exact (identity_cube_ok p X). Qed.
Print Assumptions C45_large_cubes_partial.

(** The sizes with a row too many. *)
Definition tall : list Z := [413; 421; 429; 437; 651; 657; 689; 819; 823; 825; 826; 829; 842; 858; 859; 865; 874; 887; 893].
Theorem C45_extra_row_refuted : forall p n, In n tall -> lut_size p n 3 = Ok (n * n, n + 1).
Proof.
  intros p n H. unfold tall in H. cbn [In] in H.
  repeat (destruct H as [<-|H]; [destruct p; vm_compute; reflexivity|]). destruct H.
Qed.
Print Assumptions C45_extra_row_refuted.

(** No table for 895 and above: the buffer size overflows. *)
Theorem C45_too_large_refuted : forall D p (X : externals D) cs, generate_transform_lut p X 895 3 cs cs = Panic.
Proof. intros D p X cs. destruct p; vm_compute; reflexivity. Qed.
Print Assumptions C45_too_large_refuted.

(** Why at least two: a single texel is not a number. *)
Theorem C45_single_refuted : forall D p (X : externals D) cs, exists img,
  generate_transform_lut p X 1 3 cs cs = Ok img /\ texel img 0 0 0 = Some S754_nan.
Proof.
  intros D p X cs. unfold generate_transform_lut.
  assert (E : identity_block p 1 3 = Ok (PB (BS 1 1 3) (DF32 [S754_nan; S754_nan; S754_nan]))) by (destruct p; vm_compute; reflexivity).
  rewrite E. cbn [bind]. unfold bake_colorspace.
  change (pb_convert (PB (BS 1 1 3) (DF32 [S754_nan; S754_nan; S754_nan])) Float32)
    with (Ok (PB (BS 1 1 3) (DF32 [S754_nan; S754_nan; S754_nan]))).
  cbn [bind]. rewrite bytes_eqb_refl. cbn [bind]. eexists. split; reflexivity.
Qed.
Print Assumptions C45_single_refuted.

Example C45_example : exists img, generate_transform_lut Debug demo 3 3 linear_name linear_name = Ok img
  /\ texel img 5 1 0 = Some f32_one                                      (* red 2 of 0..2 *)
  /\ texel img 5 1 1 = Some (S754_finite false 8388608 (-24))           (* green 1: 0.5 *)
  /\ texel img 5 1 2 = Some (S754_finite false 8388608 (-24)).          (* blue 1: 0.5 *)
Proof.
  eexists. split; [vm_compute; reflexivity|]. split; [vm_compute; reflexivity|].
  split; vm_compute; reflexivity.
Qed.

(** The table of a conversion: the converter's result on the identity cube; if
    the converter fails, the identity cube, still tagged with the source. *)
Theorem C45_conversion_table : forall D p (X : externals D) n from to, 2 <= n <= 894 -> bytes_eqb from to = false ->
  exists idl px h, generate_transform_lut p X n 3 from from = Ok idl
    /\ sh_block idl = PB (BS (n * n) h 3) (DF32 px)
    /\ generate_transform_lut p X n 3 from to =
         match x_convert X px (n * n) h 3 (-1) false from to with
         | Some px' => Ok (Shared (PB (BS (n * n) h 3) (DF32 px')) (sh_display idl) (sh_data idl)
                             (set_color_space (sh_spec idl) to))
         | None => Ok idl
         end.
Proof. intros D p X. exact (conversion_table p X). Qed.
Print Assumptions C45_conversion_table.

(* ------------------------------ C57 ------------------------------ *)

(** The table of colour operations: for every texel, what the operations make
    of the identity cube's colour there. *)
Theorem C57_table : forall D p (X : externals D) n ops, 2 <= n <= 894 ->
  exists img h idl, generate_ops_lut p X n 3 ops = Ok img
    /\ generate_transform_lut p X n 3 linear_name linear_name = Ok idl
    /\ pb_size (sh_block img) = BS (n * n) h 3
    /\ sh_data img = BBox 0 0 (n * n) h /\ sh_display img = sh_data img
    /\ sp_color_space (sh_spec img) = linear_name
    /\ forall x y, 0 <= x < n * n -> 0 <= y < h -> exists r g b r' g' b',
         texel idl x y 0 = Some r /\ texel idl x y 1 = Some g /\ texel idl x y 2 = Some b
         /\ texel img x y 0 = Some r' /\ texel img x y 1 = Some g' /\ texel img x y 2 = Some b'
         /\ (r', g', b') = rgb_meaning (nx_powf (x_numerics X)) identity4 ops (r, g, b).
Proof. intros D p X. exact (ops_table p X). Qed.
Print Assumptions C57_table.

(** A table of one channel: a row of evenly spaced alphas, each replaced by what
    the operations make of it. *)
Theorem C57_alpha : forall D p (X : externals D) n ops, 2 <= n <= 2 ^ 24 ->
  exists img, generate_ops_lut p X n 1 ops = Ok img
    /\ pb_size (sh_block img) = BS n 1 1
    /\ sh_data img = BBox 0 0 n 1 /\ sh_display img = sh_data img
    /\ sp_color_space (sh_spec img) = linear_name
    /\ forall x, 0 <= x < n -> exists a, grid_value (Some a) x n
         /\ texel img x 0 0 = Some (alpha_meaning (nx_powf (x_numerics X)) identity4 ops a).
Proof. intros D p X. exact (ops_ramp p X). Qed.
Print Assumptions C57_alpha.

(** Asking a new cache for any other number of channels aborts, even for the two
    channels whose size the code works out. *)
Theorem C57_channels_refuted : forall D p (X : externals D) s n nc cap, nc <> 1 -> nc <> 3 ->
  get_ops_lut p X s n nc (with_capacity cap) = Panic.
Proof. intros D p X. exact (ops_channels p X). Qed.
Print Assumptions C57_channels_refuted.

(** The key of the table identifies size, channels and the operations. *)
Theorem C57_key_partial : forall D p (X : externals D) used,
  no_collisions (x_digest X) used -> digest_u64 (x_digest X) ->
  forall ops ops' n n' nc nc' l, - 2 ^ 31 <= n < 2 ^ 31 -> - 2 ^ 31 <= n' < 2 ^ 31 ->
  - 2 ^ 31 <= nc < 2 ^ 31 -> - 2 ^ 31 <= nc' < 2 ^ 31 -> Forall op_values ops -> Forall op_values ops' ->
  (forall l, ops_hashed p X ops l \/ ops_hashed p X ops' l -> In l used) ->
  ops_lut_bytes p X n nc ops = Ok l -> ops_lut_bytes p X n' nc' ops' = Ok l ->
  n = n' /\ nc = nc' /\ Forall2 op_same ops ops'.
Proof. intros D p X used NC U. exact (ops_key p X used NC U). Qed.
Print Assumptions C57_key_partial.

(** Unprocessed channels are missing from the key though they can show: with
    green unprocessed, an infinite green gain turns green into NaN. *)
Local Open Scope string_scope.
Definition gain_g (bits : Z) : stream :=
  push_color_op stream_new (grade_op (put_f32 (put_i32 grade_new "process_g" 0) "gain_g" bits)).
Local Close Scope string_scope.
Theorem C57_unprocessed_refuted :
  let s := gain_g 1065353216 (* 1.0 *) in let s' := gain_g 2139095040 (* infinity *) in
  ops_lut_bytes Debug demo 2 3 (st_ops s) = ops_lut_bytes Debug demo 2 3 (st_ops s')
  /\ ops_lut_bytes Debug demo 2 3 (st_ops s) <> Panic
  /\ exists img img', generate_ops_lut Debug demo 2 3 (st_ops s) = Ok img
     /\ generate_ops_lut Debug demo 2 3 (st_ops s') = Ok img'
     /\ texel img 0 0 1 = Some f32_zero /\ texel img' 0 0 1 = Some S754_nan.
Proof.
  cbv zeta. split; [vm_compute; reflexivity|]. split; [vm_compute; discriminate|].
  eexists _, _. split; [vm_compute; reflexivity|]. split; [vm_compute; reflexivity|].
  split; vm_compute; reflexivity.
Qed.
Print Assumptions C57_unprocessed_refuted.

(** A ramp of three alphas, and a table of two channels. *)
Example C57_alpha_example :
  (exists img, generate_ops_lut Debug demo 3 1 (st_ops (gain_g 1065353216)) = Ok img
     /\ texel img 1 0 0 = Some (S754_finite false 8388608 (-24)))
  /\ lut_size Debug 3 2 = Ok (3, 3)
  /\ get_ops_lut Debug demo stream_new 3 2 (with_capacity 1000) = Panic.
Proof. split; [eexists; split; vm_compute; reflexivity|]. split; vm_compute; reflexivity. Qed.

(** The colour matrix of a stream is left out of its table. *)
Theorem C57_matrix_ignored : forall D p (X : externals D) s m n nc c,
  get_ops_lut p X (set_color_matrix s m) n nc c = get_ops_lut p X s n nc c.
Proof. reflexivity. Qed.
Print Assumptions C57_matrix_ignored.

(** C115: lookup tables for C++ clients. *)
From Coq Require Import String.
From Coq Require Import Floats.SpecFloat.
From Verif Require Import Machine BBoxModel PixelModel CacheModel HashModel AttrModel AttrSpec StreamModel GraphModel GraphSpec GraphSim NodeModel NodeExamples FrameModel SoundSpec
  LutModel LutSpec LutHistory LutProofs2 ClientModel ClientSpec ClientSpec2 ClientSpec4 ClientProofs ClientProofs2 ClientProofs3 ClientProofs4
  LutProofs3 PropertiesNode PropertiesSafe PropertiesShow2 PropertiesLut PropertiesClient2.
Local Open Scope string_scope.

(** Whatever graphs the client builds and executes through the cache, and
    whatever other tables it asks for: each table it was given is the one made
    from scratch for its arguments. *)
Theorem C115_tables : forall D p (x : externals D) (E : setting D) srt,
  no_collisions (x_digest x) (SoundSpec.used E) -> digest_u64 (x_digest x) ->
  forall h cl call q r, tame_past p x E srt h cl -> In (call, r) h -> asks call q ->
  exists img, r = RTable img /\ wanted p x q = Ok img.
Proof. exact @tables_of_past. Qed.
Print Assumptions C115_tables.

(** So asking twice gives the same answer. *)
Theorem C115_repeat : forall D p (x : externals D) (E : setting D) srt,
  no_collisions (x_digest x) (SoundSpec.used E) -> digest_u64 (x_digest x) ->
  forall h cl c1 c2 q r1 r2, tame_past p x E srt h cl -> In (c1, r1) h -> In (c2, r2) h -> asks c1 q -> asks c2 q -> r1 = r2.
Proof. exact @tables_repeat. Qed.
Print Assumptions C115_repeat.

(** The table from a colour space to itself is a regular grid over the colours
    (see C45). *)
Theorem C115_identity : forall D p (x : externals D) (E : setting D) srt,
  no_collisions (x_digest x) (SoundSpec.used E) -> digest_u64 (x_digest x) ->
  forall h cl cs n k r, 2 <= n < 413 -> tame_past p x E srt h cl -> In (CTransformTable cs cs n k, r) h ->
  exists img, r = RTable img /\ pb_size (sh_block img) = BS (n * n) n 3 /\ sp_color_space (sh_spec img) = cs /\ identity_cube img n.
Proof. exact @client_identity. Qed.
Print Assumptions C115_identity.

(** The condition on the names is needed: a client of an empty graph that asks
    for a table of one conversion and then of another gets the first again. *)
Theorem C115_names_refuted : exists h cl from to from' to' img,
  past Debug one_conversion insertion_sort h cl /\
  h = [(CSetCapacity 0 1000, RVoid); (CTransformTable from to 2 0, RTable img); (CTransformTable from' to' 2 0, RTable img)] /\
  exists other, wanted Debug one_conversion (RTransform from' to' 2) = Ok other /\ other <> img.
Proof.
  pose (a := ascii_bytes "aTo:b"). pose (c := ascii_bytes "c"). pose (a' := ascii_bytes "a"). pose (b' := ascii_bytes "bTo:c").
  destruct (client_call Debug one_conversion insertion_sort 0 (client_new safe_disk) (CSetCapacity 0 1000)) as [[[cl1 r1]|]|] eqn:E1; try (vm_compute in E1; discriminate E1).
  pose proof (p_call _ _ _ [] _ 0 _ _ _ (p_new _ _ _ _) E1) as P1.
  assert (C1 : cl_caches cl1 0%nat = Some (with_capacity 1000)) by (vm_compute in E1; injection E1 as <- _; vm_compute; reflexivity).
  destruct (client_call Debug one_conversion insertion_sort 0 cl1 (CTransformTable a c 2 0)) as [[[cl2 r2]|]|] eqn:E2;
    [|cbn [client_call] in E2; unfold table_call in E2; rewrite C1 in E2; vm_compute in E2; discriminate E2..].
  pose proof (p_call _ _ _ _ _ 0 _ _ _ P1 E2) as P2.
  cbn [client_call] in E2. unfold table_call in E2. rewrite C1 in E2.
  destruct (get_transform_lut Debug one_conversion a c 2 (with_capacity 1000)) as [[i1 c1]|] eqn:T1; [|vm_compute in T1; discriminate T1].
  cbn [gives fst snd] in E2. injection E2 as E2a E2b.
  assert (C2 : cl_caches cl2 0%nat = Some c1) by (rewrite <- E2a; reflexivity).
  destruct (C44_shared_key_answer _ Debug one_conversion a c 2 a' b' 2 1000 i1 c1) as (c2 & T2); [discriminate|reflexivity|exact T1|].
  assert (E3 : client_call Debug one_conversion insertion_sort 0 cl2 (CTransformTable a' b' 2 0)
    = Some (Ok (Client (cl_graphs cl2) (put (cl_caches cl2) 0 (Some c2)) (cl_disk cl2), RTable i1))).
  { cbn [client_call]. unfold table_call. rewrite C2. rewrite T2. reflexivity. }
  pose proof (p_call _ _ _ _ _ 0 _ _ _ P2 E3) as P3.
  eexists _, _, a, c, a', b', i1. split; [exact P3|]. split.
  - rewrite <- E2b. vm_compute in E1. injection E1 as _ <-. reflexivity.
  - eexists. split; [vm_compute; reflexivity|]. vm_compute in T1. injection T1 as <- _. discriminate.
Qed.
Print Assumptions C115_names_refuted.

(** The client of C113_session_example, asking for two tables after its execution,
    the second one twice, the second time with another cache. *)
Definition first_table : ccall := CTransformTable (ascii_bytes "a") (ascii_bytes "b") 2 0.
Definition second_table : ccall := CTransformTable (ascii_bytes "a") (ascii_bytes "a") 3 0.
Definition third_table : ccall := CTransformTable (ascii_bytes "a") (ascii_bytes "a") 3 6.
Definition table_setting : setting disk :=
  Setting (transform_lut_bytes 2 (ascii_bytes "a") (ascii_bytes "b") :: transform_lut_bytes 3 (ascii_bytes "a") (ascii_bytes "a") :: SoundSpec.used kept_setting)
    (sources kept_setting) (disk0 kept_setting) (lens_direction kept_setting).
Example C115_example : no_collisions (x_digest demo) (SoundSpec.used table_setting) /\ digest_u64 (x_digest demo) /\
  exists h cl r1 r2, tame_past Debug demo table_setting insertion_sort (h ++ [(first_table, r1)] ++ [(second_table, r2)] ++ [(third_table, r2)]) cl /\
  In (CExecuteWhole 0 (Handle TCrop 4) [0] 0, RStatus ExSuccess) h /\ r1 <> r2.
Proof.
  split; [apply collision_check; vm_compute; reflexivity|]. split; [exact (proj1 (proj2 kept_surroundings))|].
  destruct kept_client as (h & cl & P & I & C & C6).
  assert (WI : forall l, In l (SoundSpec.used kept_setting) -> In l (SoundSpec.used table_setting)) by (intros l L; right; now right).
  apply (past_wider Debug demo insertion_sort _ _ (sources kept_setting) (disk0 kept_setting) (lens_direction kept_setting) WI) in P.
  pose (a := ascii_bytes "a"). pose (b := ascii_bytes "b").
  destruct (get_transform_lut Debug demo a b 2 (w_cache (snd (fst kept_first)))) as [[i1 c1]|] eqn:T1; [|vm_compute in T1; discriminate T1].
  destruct (get_transform_lut Debug demo a a 3 c1) as [[i2 c2]|] eqn:T2;
    [|exfalso; revert T2; vm_compute in T1; injection T1 as <- <-; vm_compute; discriminate].
  destruct (get_transform_lut Debug demo a a 3 (with_capacity 0)) as [[i3 c3]|] eqn:T3; [|vm_compute in T3; discriminate T3].
  assert (K : ~ In 58 a) by (intros [H|[]]; vm_compute in H; discriminate H).
  assert (S1 : tame_call Debug demo table_setting insertion_sort cl 0 first_table).
  { split; [split; [lia|exact K]|]. intros l <-. now left. }
  assert (S2 : forall cl, tame_call Debug demo table_setting insertion_sort cl 0 second_table).
  { intro. split; [split; [lia|exact K]|]. intros l <-. right. now left. }
  assert (S3 : forall cl, tame_call Debug demo table_setting insertion_sort cl 0 third_table).
  { intro. split; [split; [lia|exact K]|]. intros l <-. right. now left. }
  pose (next := fun k cl c' => Client (cl_graphs cl) (put (cl_caches cl) k (Some c')) (cl_disk cl) : client disk).
  assert (STEP : forall k cl c y sz m c', cl_caches cl k = Some c -> get_transform_lut Debug demo a y sz c = Ok (m, c') ->
    client_call Debug demo insertion_sort 0 cl (CTransformTable a y sz k) = Some (Ok (next k cl c', RTable m))).
  { intros k cl0 c y sz m c' C0 T. cbn [client_call]. unfold table_call. rewrite C0, T. reflexivity. }
  pose proof (tp_call _ _ _ _ _ _ 0 _ _ _ P S1 (STEP _ _ _ _ _ _ _ C T1)) as P1.
  pose proof (tp_call _ _ _ _ _ _ 0 _ _ _ P1 (S2 _) (STEP 0%nat (next 0%nat cl c1) c1 a 3 i2 c2 eq_refl T2)) as P2.
  pose proof (tp_call _ _ _ _ _ _ 0 _ _ _ P2 (S3 _) (STEP 6%nat (next 0%nat (next 0%nat cl c1) c2) (with_capacity 0) a 3 i3 c3 C6 T3)) as P3.
  rewrite <- !app_assoc in P3.
  assert (Q : i3 = i2 /\ i1 <> i2).
  { vm_compute in T1. injection T1 as <- <-. vm_compute in T2. injection T2 as <- <-. vm_compute in T3. injection T3 as <- _. split; [reflexivity|discriminate]. }
  destruct Q as (-> & Q). exists h, (next 6%nat (next 0%nat (next 0%nat cl c1) c2) c3), (RTable i1), (RTable i2). split; [exact P3|]. split; [exact I|]. congruence.
Qed.

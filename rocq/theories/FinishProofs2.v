(** Single pixels of finished pictures with three channels or one. *)
From Coq Require String.
Import String.StringSyntax.
From Coq Require Import Lia Floats.SpecFloat.
From Verif Require Import Machine Loops FloatModel FloatReal BBoxModel BBoxSpec PixelModel PixelSpec PixelProofs PixelProofs2 PathModel MergeModel MergeSpec EnumModel AttrModel AttrSpec HashModel StreamModel
  GradeModel DeformModel BakeModel BakeSpec BakeProofs SpaceSpec RemapSpec RemapProofs EdgeSpec EdgeProofs LevelSpec LevelProofs PartSpec PartProofs ViewSpec ViewProofs SafeSpec SafeProofs
  GraphModel GraphSpec NodeModel ChainSpec ShowSpec SceneSpec EachSpec FinishSpec FinishProofs FinishSpec2.
Local Open Scope string_scope.

Section Pixels.
Variable V : Type.
Variable n : Z.
Variable chan : Z -> V -> f32.
Variable flat : list V -> list f32.
Hypothesis Npos : 1 <= n.
Hypothesis flat_at : forall ps k c, 0 <= k -> 0 <= c < n ->
  nth_error (flat ps) (Z.to_nat (k * n + c)) = match nth_error ps (Z.to_nat k) with Some v => Some (chan c v) | None => None end.
Hypothesis flat_length : forall ps, Z.of_nat (length (flat ps)) = n * Z.of_nat (length ps).

Lemma pixels_follow nx convert s ty r win (f : V -> V) :
  PixelSpec.wf_block (st_block s) -> bs_nc (pb_size (st_block s)) = n -> placed (st_block s) (st_data s) ->
  sp_color_space (st_spec s) = linear_name -> finished nx convert s linear_name ty r win ->
  (forall px px', coloured (nx_powf nx) (st_matrix s) (st_ops s) n px px' -> exists ps, px = flat ps /\ px' = flat (map f ps)) ->
  forall X Y, in_box win X Y -> pixel_follows n chan f nx s ty r win X Y.
Proof.
  intros W N (PW & PH) SP (px & mid & px2 & px3 & (px0 & px1 & T0 & R1 & G) & DI & M2 & R3 & SR & TR & P3) SHAPE X Y IB.
  rewrite SP in R1. apply same_space in R1. apply same_space in R3. subst px1 px3.
  rewrite N in G. apply SHAPE in G. destruct G as (ps & -> & ->). set (b := pb_size (st_block s)) in *.
  assert (L0 : length (elems (pb_data (st_block s))) = length (flat ps)) by (clear - T0; induction T0; cbn; congruence).
  assert (LP : Z.of_nat (length ps) = bs_w b * bs_h b).
  { destruct W as (_ & _ & _ & W4). fold b in W4. rewrite N in W4.
    assert (E : Z.of_nat (length (elems (pb_data (st_block s)))) = db_len (pb_data (st_block s))) by (destruct (pb_data (st_block s)); cbn [elems db_len]; unfold zlen; now rewrite map_length).
    pose proof (flat_length ps) as F4. rewrite L0, F4 in E. apply (Z.mul_reg_r _ _ n); lia. }
  (* the values of the middle picture *)
  assert (MID : exists sx sy, comes_from nx (st_display s) (st_deformers s) (bs_w b) (bs_h b) (st_data s) X Y sx sy /\ 0 <= sy * bs_w b + sx /\
    forall c, 0 <= c < n -> exists u, nth_error px2 (Z.to_nat (offset win n X Y c)) = Some u /\ 0 <= offset win n X Y c /\
      nth_error (flat (map f ps)) (Z.to_nat ((sy * bs_w b + sx) * n + c)) = Some u).
  { destruct IB as (IX & IY).
    assert (OF : forall c, 0 <= c < n -> 0 <= offset win n X Y c).
    { intros c C. unfold offset. assert (0 <= (Y - min_y win) * (max_x win - min_x win)) by (apply Z.mul_nonneg_nonneg; lia). apply Z.add_nonneg_nonneg; [apply Z.mul_nonneg_nonneg; lia|lia]. }
    destruct DI as [(NE & -> & ->)|(SE & (MS & MW & _ & MV) & _)].
    - cbn [pb_data] in M2. injection M2 as <-. exists (X - min_x (st_data s)), (Y - min_y (st_data s)).
      fold b in PW, PH.
      assert (K : 0 <= (Y - min_y (st_data s)) * bs_w b) by (apply Z.mul_nonneg_nonneg; lia).
      split; [left; auto|]. split; [lia|]. intros c C.
      assert (OE : offset (st_data s) n X Y c = ((Y - min_y (st_data s)) * bs_w b + (X - min_x (st_data s))) * n + c) by (unfold offset; now rewrite PW).
      rewrite OE, flat_at by lia.
      destruct (nth_error (map f ps) (Z.to_nat ((Y - min_y (st_data s)) * bs_w b + (X - min_x (st_data s))))) as [v|] eqn:EV.
      + exists (chan c v). split; [reflexivity|]. split; [lia|reflexivity].
      + exfalso. apply nth_error_None in EV. rewrite map_length in EV.
        assert ((Y - min_y (st_data s)) * bs_w b + (X - min_x (st_data s)) < bs_w b * bs_h b) by (clear - IX IY PW PH; nia). lia.
    - destruct (MV X Y IX IY) as (qx & qy & sx & sy & TB & PX & PY & FE).
      exists sx, sy. split; [right; split; [exact SE|]; exists qx, qy; auto|].
      cbn [pb_size pb_data] in FE. unfold fetched in FE. cbn [pb_size pb_data elems] in FE. fold b in FE. rewrite N in FE.
      assert (NM : bs_nc (pb_size mid) = n) by (rewrite MS; cbn [bs_nc pb_size]; exact N).
      assert (AT : forall (l : list f32) i e, at_z (map EF l) i = Some e -> 0 <= i /\ exists u, e = EF u /\ nth_error l (Z.to_nat i) = Some u).
      { intros l i e. unfold at_z. destruct (Z.leb_spec 0 i); [|discriminate]. intro Q. split; [lia|].
        apply nth_mapped in Q. exact Q. }
      split; [destruct (FE 0 ltac:(lia)) as (e & _ & E2); apply AT in E2; destruct E2 as (E2 & _); destruct (Z.lt_ge_cases (sy * bs_w b + sx) 0) as [LT|]; [pose proof (Z.mul_neg_pos _ n LT ltac:(lia)); lia|lia]|].
      intros c C. destruct (FE c C) as (e & E1 & E2). unfold pixel_val in E1. rewrite M2, NM in E1. cbn [elems] in E1.
      apply AT in E1. apply AT in E2. destruct E1 as (E0 & u & -> & E1). destruct E2 as (_ & u' & EU & E2). injection EU as <-.
      exists u. auto. }
  destruct MID as (sx & sy & CF & K0 & MV).
  assert (PV : exists v, nth_error ps (Z.to_nat (sy * bs_w b + sx)) = Some v).
  { destruct (MV 0 ltac:(lia)) as (u & _ & _ & E). rewrite flat_at in E by lia. destruct (nth_error (map f ps) (Z.to_nat (sy * bs_w b + sx))) as [v0|] eqn:EV; [|discriminate E].
    apply nth_mapped in EV. destruct EV as (v & _ & EV). exists v. exact EV. }
  destruct PV as (v & PV). exists sx, sy, v. split; [exact CF|]. intros c C.
  destruct (MV c C) as (u & E1 & E0 & E2). rewrite flat_at in E2 by lia. rewrite (map_nth_error f _ ps PV) in E2. injection E2 as <-.
  destruct (both_back _ _ _ T0 (Z.to_nat ((sy * bs_w b + sx) * n + c)) (chan c v)) as (e & EE & TE); [rewrite flat_at by lia; now rewrite PV|].
  destruct (both_at _ _ _ P3 _ _ E1) as (e' & EE' & PE).
  exists e, e'. split; [unfold at_z; fold b; replace (0 <=? (sy * bs_w b + sx) * n + c) with true by (pose proof (Z.mul_nonneg_nonneg _ n K0 ltac:(lia)); lia); exact EE|]. split; [exact TE|].
  split; [|exact PE]. unfold pixel_val.
  assert (NR : bs_nc (pb_size r) = n).
  { rewrite SR. destruct DI as [(_ & -> & _)|(_ & (MS & _) & _)]; [exact N|rewrite MS; exact N]. }
  rewrite NR. unfold at_z. replace (0 <=? offset win n X Y c) with true by lia. exact EE'.
Qed.
End Pixels.

Lemma flat3_at ps k c : 0 <= k -> 0 <= c < 3 ->
  nth_error (flat3 ps) (Z.to_nat (k * 3 + c)) = match nth_error ps (Z.to_nat k) with Some v => Some (channel3 c v) | None => None end.
Proof.
  intros K C. rewrite nth_flat3. replace (Z.to_nat (k * 3 + c)) with (Z.to_nat c + Z.to_nat k * 3)%nat by lia.
  rewrite Nat.div_add, Nat.mod_add by lia.
  assert (Q : c = 0 \/ c = 1 \/ c = 2) by lia.
  destruct Q as [-> | [-> | ->]];
    [change (Z.to_nat 0) with 0%nat; change (0 / 3 + Z.to_nat k)%nat with (Z.to_nat k)
    |change (Z.to_nat 1) with 1%nat; change (1 / 3 + Z.to_nat k)%nat with (Z.to_nat k)
    |change (Z.to_nat 2) with 2%nat; change (2 / 3 + Z.to_nat k)%nat with (Z.to_nat k)];
    destruct (nth_error ps (Z.to_nat k)) as [[[r g] b]|]; reflexivity.
Qed.
Lemma flat3_length ps : Z.of_nat (length (flat3 ps)) = 3 * Z.of_nat (length ps).
Proof.
  induction ps as [|[[r g] b] l IH]; [reflexivity|]. change (length (flat3 ((r, g, b) :: l))) with (3 + length (flat3 l))%nat. cbn [length]. lia.
Qed.

Theorem finished_rgb_pixel nx convert s ty r win :
  PixelSpec.wf_block (st_block s) -> bs_nc (pb_size (st_block s)) = 3 -> placed (st_block s) (st_data s) ->
  sp_color_space (st_spec s) = linear_name -> finished nx convert s linear_name ty r win ->
  forall X Y, in_box win X Y -> rgb_pixel_right nx s ty r win X Y.
Proof.
  intros W N P SP F X Y IB. apply (pixels_follow _ 3 channel3 flat3 ltac:(lia) flat3_at flat3_length _ convert); auto.
  intros px px' [(Q & _)|[(_ & ps & E1 & E2)|(Q & _)]]; try discriminate Q. eauto.
Qed.

Theorem finished_alpha_pixel nx convert s ty r win :
  PixelSpec.wf_block (st_block s) -> bs_nc (pb_size (st_block s)) = 1 -> placed (st_block s) (st_data s) ->
  sp_color_space (st_spec s) = linear_name -> finished nx convert s linear_name ty r win ->
  forall X Y, in_box win X Y -> alpha_pixel_right nx s ty r win X Y.
Proof.
  intros W N P SP F X Y IB. apply (pixels_follow f32 1 (fun _ a => a) (fun l => l) ltac:(lia)) with (convert := convert); auto.
  - intros ps k c K C. replace (k * 1 + c) with k by lia. now destruct (nth_error ps (Z.to_nat k)).
  - intro ps. lia.
  - intros px px' [(Q & _)|[(Q & _)|(_ & E)]]; try discriminate Q. eauto.
Qed.

(** What nodes show that have nothing to show. *)
From Coq Require String.
Import String.StringSyntax.
From Coq Require Import Floats.SpecFloat.
From Verif Require Import Machine FloatModel BBoxModel PixelModel AttrModel StreamModel PathModel HashModel NodeModel.
Local Open Scope string_scope.

(** [v] is the positive f32 nearest to the fraction [n]/[d]: its significand has
    24 bits and it is off by less than half a unit of its last bit. *)
Definition nearest (v : f32) (n d : Z) : Prop :=
  exists m e, v = S754_finite false m (- e) /\ 2 ^ 23 <= Zpos m < 2 ^ 24 /\ 0 <= e < 149 /\
    2 * Z.abs (Zpos m * d - n * 2 ^ e) < d.

(** The colour bars, from the lower left corner: which of red, green and blue
    are lit. *)
Inductive bar := White | Yellow | Cyan | Green | Magenta | Red | Blue | Black.
Definition lit (b : bar) (channel : nat) : bool :=
  match b, channel with
  | White, _ => true
  | Yellow, (0 | 1)%nat => true
  | Cyan, (1 | 2)%nat => true
  | Green, 1%nat => true
  | Magenta, (0 | 2)%nat => true
  | Red, 0%nat => true
  | Blue, 2%nat => true
  | _, _ => false
  end.
Definition bar_at (column row : nat) : bar :=
  nth column (if (row <? 2)%nat then [White; Yellow; Cyan; Green] else [Magenta; Red; Blue; Black]) Black.

(** [s] shows colour bars: four by four pixels of three channels, lit channels
    at 0.9215 (235 of 255), the others at 0.0627 (16 of 255), Linear, with the
    windows fitting the picture. *)
Definition shows_bars (s : stream) : Prop :=
  pb_size (st_block s) = BS 4 4 3 /\ st_display s = BBox 0 0 4 4 /\ st_data s = BBox 0 0 4 4 /\
  sp_color_space (st_spec s) = linear_name /\
  exists pixels, pb_data (st_block s) = DF32 pixels /\ length pixels = 48%nat /\
    forall column row channel, (column < 4)%nat -> (row < 4)%nat -> (channel < 3)%nat ->
      nearest (nth ((row * 4 + column) * 3 + channel) pixels f32_zero)
        (if lit (bar_at column row) channel then 9215 else 627) 10000.

(** Nodes that have nothing to show when nothing is connected to them: all but
    readers that are on and find their file, viewers that are off or bake, and
    lens distortions that are on and not to the plug-in's liking. *)
Definition idle {D} (x : externals D) (d : D) (frame : spec_float) (n : node) : Prop :=
  match nd_type n with
  | TRead => node_get_i32 n "enable" = 0 \/
      exists path, expand_string (x_expand x) (node_get_str n "file_path") (frame_number frame) = Ok path /\
        x_kind x d path = NoEntry
  | TViewer => node_get_i32 n "enable" = 1 /\ node_get_i32 n "bake_option" = 0
  | TLens => node_get_i32 n "enable" <> 1 \/ x_lens_ok x (lens_op (nd_attrs n)) = true
  | _ => True
  end.
(** The nodes among them that do not mention it: viewers and writers that are off. *)
Definition silent (n : node) : Prop :=
  nd_type n = TViewer \/ nd_type n = TWrite /\ node_get_i32 n "enable" = 0.

(** The operation a grade leaves pending is its own. *)
Definition only_own (n : node) (s : stream) : Prop :=
  (nd_type n <> TGrade -> st_ops s = []) /\ (length (st_ops s) <= 1)%nat /\
  (nd_type n <> TTransform -> nd_type n <> TLens -> st_deformers s = []) /\ (length (st_deformers s) <= 1)%nat.

(** Pictures of the Rust "image" crate: what reading and writing them is for.
    The curve is that of IEC 61966-2-1 (sRGB): an encoded [e] of at most 0.04045
    stands for [e / 12.92], a greater one for [((e + 0.055) / 1.055) ^ 2.4]. *)
From Coq Require Import Floats.SpecFloat.
From Verif Require Import Machine Loops FloatModel BBoxModel BBoxSpec PixelModel PixelSpec CrateModel.

Definition channels (k : kind) : Z := match k with Rgb8 => 3 | Rgba8 => 4 | OtherKind => 0 end.

(** A picture of red, green, blue and perhaps alpha, with a sample for each
    channel of each pixel. *)
Definition whole_picture (img : dynimage) : Prop :=
  di_kind img <> OtherKind /\ 0 <= di_w img < two31 /\ 0 <= di_h img < two31 /\
  count_fits (di_w img) (di_h img) (channels (di_kind img)) /\
  zlen (di_samples img) = di_w img * di_h img * channels (di_kind img) /\
  Forall (fun s => 0 <= s <= 255) (di_samples img).

Definition a_number (v : f32) : bool := match v with S754_zero _ | S754_finite _ _ _ => true | _ => false end.
(** [v] is the fraction [n / d], not negative, but for one part in 2^22. *)
Definition about (v : f32) (n d : Z) : Prop :=
  a_number v = true /\ Z.abs (sf_num v * d - n * sf_den v) * 2 ^ 22 <= n * sf_den v.

(** The light an 8-bit sample stands for; [pow] is the library's power. *)
Definition light_of (pow : f32 -> f32 -> f32) (s : Z) (v : f32) : Prop :=
  (s <= 10 /\ about v (100 * s) (255 * 1292)) \/
  (10 < s /\ exists a e, v = pow a e /\ about a (1000 * s + 255 * 55) (255 * 1055) /\ about e 24 10).

(** Reading and writing pictures with the Rust "image" crate. *)
From Coq Require Import Reals Floats.SpecFloat.
From Verif Require Import Machine Loops FloatModel FloatReal BBoxModel BBoxSpec PixelModel PixelSpec MergeModel StreamModel AttrModel NodeModel
  BakeSpec CrateModel CrateSpec CrateProofs CrateReal.
Local Open Scope Z_scope.

(** The numbers in the two curves are the floats nearest to those of the sRGB
    standard (a quotient of integers below 2^24 is rounded once). *)
Theorem C92_numbers :
  lit_055 = f32_div (f32_of_Z 55) (f32_of_Z 1000) /\ lit_04045 = f32_div (f32_of_Z 4045) (f32_of_Z 100000) /\
  lit_1292 = f32_div (f32_of_Z 1292) (f32_of_Z 100) /\ lit_24 = f32_div (f32_of_Z 24) (f32_of_Z 10) /\
  lit_0031308 = f32_div (f32_of_Z 31308) (f32_of_Z 10000000).
Proof. repeat split; vm_compute; reflexivity. Qed.
Print Assumptions C92_numbers.

(** A picture of 8-bit red, green, blue and perhaps alpha is read as a block of
    floats of its size, on a window from the origin; each value is the light its
    sample stands for. *)
Theorem C92_read : forall p pow img, whole_picture img ->
  exists pb, let win := BBox 0 0 (di_w img) (di_h img) in
  read_with_crate p pow (Some img) = Ok (Shared pb win win spec_new) /\
  wf_block pb /\ pb_size pb = BS (di_w img) (di_h img) (channels (di_kind img)) /\ db_type (pb_data pb) = Float32 /\
  forall x y c, in_box win x y -> 0 <= c < channels (di_kind img) ->
    exists s v, at_z (di_samples img) ((y * di_w img + x) * channels (di_kind img) + c) = Some s /\
      pixel_val pb win x y c = Some (EF v) /\ light_of pow s v.
Proof. exact read_whole. Qed.
Print Assumptions C92_read.

(** A block is made of given data only if the data is as long as its size says. *)
Theorem C92_data : forall p b d, 0 <= bs_w b -> 0 <= bs_h b -> 0 <= bs_nc b -> count_fits (bs_w b) (bs_h b) (bs_nc b) ->
  pb_from_datablock p b d = if db_len d =? bs_w b * bs_h b * bs_nc b then Ok (PB b d) else Panic.
Proof. exact taken. Qed.
Print Assumptions C92_data.

(** What is shown on a file the crate cannot open, and on every other kind of
    colours (grey, 16 bits): nothing, the program ends. *)
Theorem C92_read_refuted : forall p pow w h ss,
  read_with_crate p pow None = Panic /\ read_with_crate p pow (Some (DynImage w h OtherKind ss)) = Panic.
Proof. intros. split; reflexivity. Qed.
Print Assumptions C92_read_refuted.

(** Alpha goes through the colour curve too: it does not stand for its share of 255. *)
Theorem C92_alpha_refuted : forall p pow, exists pb win, 
  read_with_crate p pow (Some (DynImage 1 1 Rgba8 [0; 0; 0; 5])) = Ok (Shared pb win win spec_new) /\
  exists v, pixel_val pb win 0 0 3 = Some (EF v) /\ ~ about v 5 255.
Proof. exact alpha_curved. Qed.
Print Assumptions C92_alpha_refuted.

(** A float picture of three or four channels is handed to the crate whole, a
    sample for each value; any other number of channels is refused. *)
Theorem C92_write : forall pow save img l, wf_block (sh_block img) ->
  let b := pb_size (sh_block img) in bs_w b < two31 -> bs_h b < two31 ->
  pb_data (sh_block img) = DF32 l ->
  exists samples, write_with_crate pow save img =
    Ok (if (bs_nc b =? 3) || (bs_nc b =? 4) then save (ImageBuffer (bs_w b) (bs_h b) (bs_nc b) samples) else false) /\
  Forall2 (fun x t =>
    (valid32 x -> fin32 x -> (0 <= R32 x <= 1)%R -> f32_le x lit_0031308 = true ->
      sample_of_level t (255 * (1292 / 100 * R32 x))) /\
    (let w := pow x (f32_div f32_one lit_24) in
     f32_le x lit_0031308 = false -> valid32 w -> fin32 w -> (0 <= R32 w <= 2)%R ->
      sample_of_level t (255 * (1055 / 1000 * R32 w - 55 / 1000)))) l samples.
Proof. exact written_levels. Qed.
Print Assumptions C92_write.

(** Read and written again. *)
Definition there_and_back (p : profile) (pow : f32 -> f32 -> f32) (img : dynimage) (save : imagebuffer -> bool) : Res bool :=
  let* sh := read_with_crate p pow (Some img) in write_with_crate pow save sh.

(** A picture of the eleven darkest levels is written as it was read, whatever
    the power function does; with a good one every sample is written as it was
    or one lower. *)
Theorem C92_back_partial : forall p pow img save, whole_picture img ->
  exists samples, there_and_back p pow img save = Ok (save (ImageBuffer (di_w img) (di_h img) (channels (di_kind img)) samples)) /\
  Forall2 (fun s t => (s <= 10 -> t = s) /\ (powers_agree pow -> t = s \/ t = s - 1)) (di_samples img) samples.
Proof. exact back_again. Qed.
Print Assumptions C92_back_partial.

(** White is not written as it was even if every power of one is one. *)
Theorem C92_back_refuted : forall p pow save, (forall e, pow f32_one e = f32_one) ->
  there_and_back p pow (DynImage 1 1 Rgb8 [255; 255; 255]) save = Ok (save (ImageBuffer 1 1 3 [254; 254; 254])).
Proof. exact white_lost. Qed.
Print Assumptions C92_back_refuted.

Example C92_example : whole_picture (DynImage 2 1 Rgba8 [0; 1; 2; 3; 10; 11; 128; 255]) /\
  powers_agree (fun a _ => a) /\
  there_and_back Debug (fun a _ => a) (DynImage 2 1 Rgba8 [0; 1; 2; 3; 10; 11; 128; 255])
    (fun b => match ib_samples b with [0; 1; 2; 3; 10; 11; 128; 254] => true | _ => false end) = Ok true.
Proof. exact example_met. Qed.

(** Model of the C++ that hands pictures to OpenImageIO: src/imageio.cpp,
    src/oiio_utils.cpp, src/ops/imageresample.cpp, with
    src/pixelblock/utils.rs 122-150.

    OpenImageIO itself is outside: a file is what [ImageInput] presents (its
    [ImageSpec] and its values, scan line by scan line), and the resampling
    algorithm and the storing of files are parameters.  Not modelled: C++
    integer overflow (undefined) in the window arithmetic; thread counts
    (ThreadModel); metadata other than that copied into our ImageSpec. *)
From Coq Require String.
Import String.StringSyntax.
From Coq Require Import Floats.SpecFloat.
From Verif Require Import Machine Loops FloatModel BBoxModel PixelModel EnumModel AttrModel StreamModel GraphModel NodeModel.

(** OIIO::TypeDesc, as far as the code tells them apart. *)
Inductive oiio_type := OUInt8 | OHalf | OFloat | OUInt16 | OOther.

(** oiio_utils.cpp 29-41 *)
Definition oiio_format_to_ocg (t : oiio_type) : datatype :=
  match t with OUInt8 => UInt8 | OHalf => Half16 | OFloat => Float32 | OUInt16 => UInt16 | OOther => UnknownType end.
(** oiio_utils.cpp 44-56 *)
Definition ocg_format_to_oiio (t : datatype) : oiio_type :=
  match t with UInt8 => OUInt8 | Half16 => OHalf | Float32 => OFloat | UInt16 => OUInt16 | UnknownType => OOther end.

(** OIIO::ImageSpec: the data window (corner and size), the full (display)
    window, channels, format and the attributes that are used. *)
Record ospec := OSpec {
  o_x : Z; o_y : Z; o_width : Z; o_height : Z;
  o_full_x : Z; o_full_y : Z; o_full_width : Z; o_full_height : Z;
  o_channels : Z; o_format : oiio_type;
  o_color_space : option (list Z); o_gamma : option Z; o_aspect : option Z;
  o_orientation : option Z; o_unassociated : option Z; o_dither : option Z
}.
(** A file: its spec and [width * height * channels] values. *)
Record file := File { fi_spec : ospec; fi_values : datablock }.

(** utils.rs 124-150; the panic aborts, as it crosses into C++. *)
Definition stride_num_channels (n : Z) (t : datatype) : Res Z :=
  match t with
  | UInt8 => Ok 4 | Half16 => Ok 4 | UInt16 => Ok 4
  | Float32 => Ok n
  | UnknownType => Panic
  end.

(** oiio_utils.cpp 58-85 *)
Definition construct_spec (x y w h dx0 dy0 dx1 dy1 n : Z) (t : datatype) : ospec :=
  OSpec x y w h dx0 dy0 (dx1 - dx0) (dy1 - dy0) n (ocg_format_to_oiio t) None None None None None None.

(** oiio_utils.cpp 103-148 *)
Definition allocate (p : profile) (s : ospec) (img : shared) : Res shared :=
  let data := BBox (o_x s) (o_y s) (o_x s + o_width s) (o_y s + o_height s) in
  let display := BBox (o_full_x s) (o_full_y s) (o_full_x s + o_full_width s) (o_full_y s + o_full_height s) in
  let data := BBox (min_x data + min_x display) (min_y data + min_y display)
                   (max_x data + min_x display) (max_y data + min_y display) in
  let display := BBox 0 0 (max_x display - min_x display) (max_y display - min_y display) in
  let t := oiio_format_to_ocg (o_format s) in
  let* n := stride_num_channels (o_channels s) t in
  let* b := pb_resize p (sh_block img) (BS (o_width s) (o_height s) n) t in
  Ok (Shared b display data (sh_spec img)).

(** Writing values one after the other; [None]: outside the buffer. *)
Fixpoint put_values {A} (dst : list A) (at_ : nat) (l : list A) : option (list A) :=
  match l with
  | [] => Some dst
  | v :: t => if Nat.ltb at_ (length dst) then put_values (set_nth dst at_ v) (S at_) t else None
  end.
(** OIIO's copy into a strided buffer: [n] pixels of [nch] values, pixel [k] at
    [k * stride]. *)
Fixpoint put_pixels {A} (n : nat) (dst : list A) (at_ stride nch : nat) (l : list A) : option (list A) :=
  match n with
  | O => Some dst
  | S n => match put_values dst at_ (firstn nch l) with
           | Some dst => put_pixels n dst (at_ + stride) stride nch (skipn nch l)
           | None => None
           end
  end.
(** The same when OIIO can decode only the pixels [got] tells, [k] being the
    number of the first one: the others are left alone. *)
Fixpoint put_some {A} (got : nat -> bool) (n k : nat) (dst : list A) (at_ stride nch : nat) (l : list A) : option (list A) :=
  match n with
  | O => Some dst
  | S n => match (if got k then put_values dst at_ (firstn nch l) else Some dst) with
           | Some dst => put_some got n (S k) dst (at_ + stride) stride nch (skipn nch l)
           | None => None
           end
  end.
Definition put_block (n : nat) (dst : datablock) (stride nch : nat) (src : datablock) : option datablock :=
  match dst, src with
  | DF32 d, DF32 l => option_map DF32 (put_pixels n d 0 stride nch l)
  | DU8 d, DU8 l => option_map DU8 (put_pixels n d 0 stride nch l)
  | DU16 d, DU16 l => option_map DU16 (put_pixels n d 0 stride nch l)
  | DF16 d, DF16 l => option_map DF16 (put_pixels n d 0 stride nch l)
  | _, _ => None
  end.
Definition put_block_some (got : nat -> bool) (n : nat) (dst : datablock) (stride nch : nat) (src : datablock) : option datablock :=
  match dst, src with
  | DF32 d, DF32 l => option_map DF32 (put_some got n 0 d 0 stride nch l)
  | DU8 d, DU8 l => option_map DU8 (put_some got n 0 d 0 stride nch l)
  | DU16 d, DU16 l => option_map DU16 (put_some got n 0 d 0 stride nch l)
  | DF16 d, DF16 l => option_map DF16 (put_some got n 0 d 0 stride nch l)
  | _, _ => None
  end.

Definition default {A} (d : A) (o : option A) : A := match o with Some v => v | None => d end.

(** What a call into C++ comes to: a result, an aborted process, or undefined
    behaviour (a write outside a buffer, an out-of-range cast). *)
Inductive outcome (A : Type) := Done (a : A) | Aborted | Undefined.
Arguments Done {A}.
Arguments Aborted {A}.
Arguments Undefined {A}.

(** imageio.cpp 47-159.  [None]: OpenImageIO cannot open the file.  The buffer
    is stepped through by the padded channel count (lines 84-86, 148), with all
    of the file's channels stored (146-147): line 80 was perhaps meant to
    limit them but discards its result.  Casting the orientation to the
    one-byte enumeration keeps its lowest byte (line 134).  [copy] is what
    [read_image] does; whether it succeeds is ignored (line 151). *)
Definition oiio_read_with (copy : nat -> datablock -> nat -> nat -> datablock -> option datablock)
  (p : profile) (f : option file) (img : shared) : outcome (bool * shared) :=
  match f with
  | None => Done (false, img)
  | Some f =>
      let s := fi_spec f in
      if o_channels s <? 3 then Done (false, img) else
      match (let* n := stride_num_channels (o_channels s) (oiio_format_to_ocg (o_format s)) in
             let* img := allocate p s img in Ok (n, img)) with
      | Panic => Aborted
      | Ok (n, img) =>
          let spec := Spec (default [] (o_color_space s)) (default f1 (o_gamma s)) (default f1 (o_aspect s))
                           (default 0 (o_orientation s) mod 256) (negb (default 0 (o_unassociated s) =? 0))
                           (default 0 (o_dither s)) in
          match copy (Z.to_nat (o_width s * o_height s)) (pb_data (sh_block img))
                  (Z.to_nat n) (Z.to_nat (o_channels s)) (fi_values f) with
          | None => Undefined
          | Some d => Done (true, Shared (PB (pb_size (sh_block img)) d) (sh_display img) (sh_data img) spec)
          end
      end
  end.

(** A file that OIIO reads to the end. *)
Definition oiio_read_image := oiio_read_with put_block.
(** One of which it reads only some pixels, [read_image] returning false. *)
Definition oiio_read_damaged (got : nat -> bool) := oiio_read_with (put_block_some got).

(* ------------------------------ writing ------------------------------ *)

(** An attribute set on the written file besides those of [ospec]. *)
Inductive oattr := OStr (name value : string) | OFloatAttr (name : string) (v : f32) | OInt (name : string) (v : Z).

(** imageio.cpp 243-249: std::tolower byte by byte (C locale). *)
Definition lower (c : Z) : Z := if (65 <=? c) && (c <=? 90) then c + 32 else c.

Local Open Scope string_scope.
(** imageio.cpp 251-277 *)
Definition exr_attrs (co : compression) : list oattr :=
  let level := OFloatAttr "openexr:dwaCompressionLevel" (f32_of_Z (co_dwa co)) in
  match co_exr co with
  | ExrNone => [OStr "Compression" "none"]
  | ExrRle => [OStr "Compression" "rle"]
  | ExrZip => [OStr "Compression" "zip"]
  | ExrZipScanline => [OStr "Compression" "zips"]
  | ExrPiz => [OStr "Compression" "piz"]
  | ExrPxr24 => [OStr "Compression" "pxr24"]
  | ExrB44 => [OStr "Compression" "b44"]
  | ExrB44a => [OStr "Compression" "b44a"]
  | ExrDwaa => [OStr "Compression" "dwaa"; level]
  | ExrDwab => [OStr "Compression" "dwab"; level]
  | _ => []
  end.
(** imageio.cpp 290-306 *)
Definition jpeg_attrs (co : compression) : list oattr :=
  [OStr "Compression" "jpeg"; OInt "CompressionQuality" (co_jpeg co)] ++
  match co_sampling co with
  | JpegNone444 => [OStr "jpeg:subsampling" "4:4:4"]
  | Jpeg422 => [OStr "jpeg:subsampling" "4:2:2"]
  | Jpeg420 => [OStr "jpeg:subsampling" "4:2:0"]
  | Jpeg421 => [OStr "jpeg:subsampling" "4:2:1"]
  | _ => []
  end ++
  [OInt "jpeg:progressive" (if co_progressive co then 1 else 0)].
(** imageio.cpp 241-308 *)
Definition compression_attrs (path : list Z) (co : compression) : list oattr :=
  let path := map lower path in
  if ends_with path ext_exr then exr_attrs co
  else if ends_with path ext_png then [OInt "png:compressionLevel" (co_png co)]
  else if ends_with path ext_jpg || ends_with path ext_jpeg || ends_with path ext_jpe
          || ends_with path ext_jif || ends_with path ext_jfif || ends_with path ext_jfi then jpeg_attrs co
  else [].
Local Close Scope string_scope.

(** imageio.cpp 172-175, 196-239: the file asked for. *)
Definition file_of (img : shared) : file :=
  let b := sh_block img in
  let s := construct_spec (min_x (sh_data img)) (min_y (sh_data img)) (bs_w (pb_size b)) (bs_h (pb_size b))
             (min_x (sh_display img)) (min_y (sh_display img)) (max_x (sh_display img)) (max_y (sh_display img))
             (bs_nc (pb_size b)) (db_type (pb_data b)) in
  let m := sh_spec img in
  File (OSpec (o_x s) (o_y s) (o_width s) (o_height s) (o_full_x s) (o_full_y s) (o_full_width s) (o_full_height s)
          (o_channels s) (o_format s) (Some (sp_color_space m)) (Some (sp_gamma m)) (Some (sp_pixel_aspect m))
          (Some (sp_orientation m)) (Some (if sp_unassociated_alpha m then 1 else 0)) (Some (sp_dither m)))
       (pb_data b).

Section Store.
Context {D : Type}.
(** [ImageOutput::create] finds a plug-in for the name. *)
Variable creates : list Z -> bool.
(** [open], [write_image] and [close]: the file system afterwards and whether
    they succeeded. *)
Variable store : D -> list Z -> file -> list oattr -> D * bool.

(** imageio.cpp 169-323: errors after [create] are printed, and [true] is
    returned. *)
Definition oiio_write_image (d : D) (path : list Z) (img : shared) (co : compression) : D * bool :=
  if creates path then (fst (store d path (file_of img) (compression_attrs path co)), true)
  else (d, false).
End Store.

(* ------------------------------ resampling ------------------------------ *)

(** imageresample.cpp 69-70: [static_cast<int32_t>(n * std::pow(2, f))]; the
    product is exact while finite; [None]: out of range for the cast. *)
Definition scaled (n f : Z) : option Z :=
  if 1024 <=? f then None else
  let v := if 0 <=? f then n * 2 ^ f else Z.quot n (2 ^ (- f)) in
  if (- 2 ^ 31 <=? v) && (v <? 2 ^ 31) then Some v else None.
(** imageresample.cpp 71-74 *)
Definition limited (n : Z) : Z := Z.min 16384 (Z.max 1 n).

Section Resample.
(** [ImageBufAlgo::resample] from a buffer of the given width, height and
    channels to one of the given width and height. *)
Variable algorithm : datablock -> Z -> Z -> Z -> Z -> Z -> bool -> bool * datablock.

(** imageresample.cpp 37-107.  Both buffers are wrapped with the source's
    channel count and no padding. *)
Definition oiio_image_resample (p : profile) (src dst : shared) (factor : Z) (interpolate : bool)
  : outcome (bool * shared) :=
  let b := sh_block src in
  let n := bs_nc (pb_size b) in
  match scaled (bs_w (pb_size b)) factor, scaled (bs_h (pb_size b)) factor with
  | Some w, Some h =>
      let w := limited w in
      let h := limited h in
      match allocate p (construct_spec 0 0 w h 0 0 w h n (db_type (pb_data b))) dst with
      | Panic => Aborted
      | Ok dst =>
          let (ok, l) := algorithm (pb_data b) (bs_w (pb_size b)) (bs_h (pb_size b)) n w h interpolate in
          match put_block (Z.to_nat (w * h)) (pb_data (sh_block dst)) (Z.to_nat n) (Z.to_nat n) l with
          | None => Undefined
          | Some d => Done (ok, Shared (PB (pb_size (sh_block dst)) d) (sh_display dst) (sh_data dst) (sh_spec dst))
          end
      end
  | _, _ => Undefined
  end.
End Resample.

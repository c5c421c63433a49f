(** Vocabulary for pictures in files. *)
From Coq Require String.
From Coq Require Import Floats.SpecFloat.
From Verif Require Import Machine FloatModel BBoxModel PixelModel PixelSpec PixelProofs2 StreamModel NodeModel FileModel.

(** The pixel type that a file's type is read as. *)
Definition file_type (t : oiio_type) : datatype :=
  match t with OUInt8 => UInt8 | OUInt16 => UInt16 | OHalf => Half16 | OFloat => Float32 | OOther => UnknownType end.

(** Eight and sixteen bit files are stored with four channels. *)
Definition stored_channels (f : file) : Z :=
  match o_format (fi_spec f) with OFloat => o_channels (fi_spec f) | _ => 4 end.

(** A file that holds as many values as its size says, of the type it says, and
    whose buffer can be allocated. *)
Definition whole_file (f : file) : Prop :=
  let s := fi_spec f in
  0 <= o_width s /\ 0 <= o_height s /\ count_fits (o_width s) (o_height s) (stored_channels f) /\
  db_type (fi_values f) = file_type (o_format s) /\
  db_len (fi_values f) = o_width s * o_height s * o_channels s.

(** Value [c] of pixel [k] of [n]-channel values. *)
Definition value (d : datablock) (n k c : Z) : option elem := nth_error (elems d) (Z.to_nat (k * n + c)).

(** [r] has the pixels of [f], opaque where [f] has no alpha to store. *)
Definition pixels_of (r : pixelblock) (f : file) : Prop :=
  let s := fi_spec f in
  pb_size r = BS (o_width s) (o_height s) (stored_channels f) /\
  db_type (pb_data r) = file_type (o_format s) /\
  db_len (pb_data r) = o_width s * o_height s * stored_channels f /\
  forall k c, 0 <= k < o_width s * o_height s -> 0 <= c < stored_channels f ->
    value (pb_data r) (stored_channels f) k c =
    if c <? o_channels s then value (fi_values f) (o_channels s) k c else Some (full_elem (file_type (o_format s))).

(** Where a window lies with respect to another one's corner. *)
Definition place (display data : bbox) : Z * Z := (min_x data - min_x display, min_y data - min_y display).

(** A picture that file formats can hold as it is: at least three channels, and
    four unless they are 32 bit floats.  The orientation is a byte. *)
Definition storable (img : shared) : Prop :=
  image_ok (plain img) /\ 3 <= bs_nc (pb_size (sh_block img)) /\
  (db_type (pb_data (sh_block img)) = Float32 \/ bs_nc (pb_size (sh_block img)) = 4) /\
  0 <= sp_orientation (sh_spec img) < 256.

(** Reading and writing are the C++ above, over an image library which, when it
    succeeds in storing a file, presents that file afterwards. *)
Record files_kept {D} (p : profile) (x : externals D) (find : D -> list Z -> option file)
    (creates : list Z -> bool) (store : D -> list Z -> file -> list oattr -> D * bool) : Prop := {
  fk_write : forall d path img co, x_write x d path img co = oiio_write_image creates store d path img co;
  fk_read : forall d path ok r, oiio_read_image p (find d path) empty_image = Done (ok, r) -> x_read x d path empty_image = r;
  fk_keeps : forall d path f a, snd (store d path f a) = true -> find (fst (store d path f a)) path = Some f
}.

(** Resampling by [f] steps: [m] is the size [n] times two to the [f], rounded
    down, at least one and at most 16384. *)
Definition resized (n f m : Z) : Prop :=
  exists v, v * 2 ^ Z.max 0 (- f) <= n * 2 ^ Z.max 0 f < (v + 1) * 2 ^ Z.max 0 (- f) /\
  (v < 1 -> m = 1) /\ (1 <= v <= 16384 -> m = v) /\ (16384 < v -> m = 16384).
(** The size fits an [int] before it is limited. *)
Definition resizable (n f : Z) : Prop := 0 <= n < 2 ^ 31 /\ f < 1024 /\ (0 < f -> n * 2 ^ f < 2 ^ 31).

(** The resampling is the C++ above. *)
Definition resample_glue {D} (p : profile) (x : externals D)
    (algorithm : datablock -> Z -> Z -> Z -> Z -> Z -> bool -> bool * datablock) : Prop :=
  forall src f i ok r, oiio_image_resample algorithm p src empty_image f i = Done (ok, r) -> x_resample x src empty_image f i = (ok, r).
(** It makes pictures of the size asked for. *)
Definition makes_size (algorithm : datablock -> Z -> Z -> Z -> Z -> Z -> bool -> bool * datablock) : Prop :=
  forall d w h n w' h' i, db_type (snd (algorithm d w h n w' h' i)) = db_type d /\
    (0 <= w' * h' * n -> db_len (snd (algorithm d w h n w' h' i)) = w' * h' * n).

(** Names with one of these endings, in whatever case. *)
Definition capitals : list Z := [65; 66; 67; 68; 69; 70; 71; 72; 73; 74; 75; 76; 77; 78; 79; 80; 81; 82; 83; 84; 85; 86; 87; 88; 89; 90].
Definition small_letters : list Z :=
  [97; 98; 99; 100; 101; 102; 103; 104; 105; 106; 107; 108; 109; 110; 111; 112; 113; 114; 115; 116; 117; 118; 119; 120; 121; 122].
Definition same_letter (c d : Z) : Prop := c = d /\ ~ In c capitals \/ In (c, d) (List.combine capitals small_letters).
Definition any_case (path ext : list Z) : Prop := exists a b, path = (a ++ b)%list /\ Forall2 same_letter b ext.
Definition jpeg_endings : list (list Z) := [ext_jpg; ext_jpeg; ext_jpe; ext_jif; ext_jfif; ext_jfi].

Import String.StringSyntax.
Local Open Scope string_scope.
(** OpenImageIO's names for the compressions that a Write node's
    "exr_compression" 1 to 10 and "jpeg_subsampling" 1 to 4 stand for. *)
Definition exr_names : list (Z * String.string) :=
  [(1, "none"); (2, "rle"); (3, "zip"); (4, "zips"); (5, "piz"); (6, "pxr24"); (7, "b44"); (8, "b44a"); (9, "dwaa"); (10, "dwab")].
Definition jpeg_names : list (Z * String.string) := [(1, "4:4:4"); (2, "4:2:2"); (3, "4:2:0"); (4, "4:2:1")].

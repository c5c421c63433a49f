(** Model of the API enumerations and their [From<i32>] conversions
    (src/cxxbridge.rs).  A CXX shared enum is a number; only its named values
    are modelled. *)
From Verif Require Import Machine.

(** cxxbridge.rs 272-283 and 900-910 *)
Inductive e_data_type := DtFloat32 | DtHalf16 | DtUInt8 | DtUInt16 | DtUnknown.
Definition data_type_code (e : e_data_type) : Z :=
  match e with DtFloat32 => 0 | DtHalf16 => 1 | DtUInt8 => 2 | DtUInt16 => 3 | DtUnknown => 255 end.
Definition data_type_from (v : Z) : e_data_type :=
  match v with 0 => DtFloat32 | 1 => DtHalf16 | 2 => DtUInt8 | 3 => DtUInt16 | _ => DtUnknown end.

(** cxxbridge.rs 204-217 and 912-922 *)
Inductive e_bake := BakeNothing | BakeColorSpace | BakeColorSpaceAndGrade | BakeAll | BakeUninitialized.
Definition bake_code (e : e_bake) : Z :=
  match e with BakeNothing => 0 | BakeColorSpace => 1 | BakeColorSpaceAndGrade => 2 | BakeAll => 3
  | BakeUninitialized => 255 end.
Definition bake_from (v : Z) : e_bake :=
  match v with 0 => BakeNothing | 1 => BakeColorSpace | 2 => BakeColorSpaceAndGrade | 3 => BakeAll
  | _ => BakeUninitialized end.

(** cxxbridge.rs: MergeImageMode and 924-933 *)
Inductive e_merge := MergeAdd | MergeOver | MergeMultiply | MergeUninitialized.
Definition merge_code (e : e_merge) : Z :=
  match e with MergeAdd => 0 | MergeOver => 1 | MergeMultiply => 2 | MergeUninitialized => 255 end.
Definition merge_from (v : Z) : e_merge :=
  match v with 0 => MergeAdd | 1 => MergeOver | 2 => MergeMultiply | _ => MergeUninitialized end.

(** cxxbridge.rs: LensDistortDirection and 935-943 *)
Inductive e_lens := LensUndistort | LensDistort | LensUninitialized.
Definition lens_code (e : e_lens) : Z :=
  match e with LensUndistort => 0 | LensDistort => 1 | LensUninitialized => 255 end.
Definition lens_from (v : Z) : e_lens :=
  match v with 0 => LensUndistort | 1 => LensDistort | _ => LensUninitialized end.

(** cxxbridge.rs: ImageOrientation and 945-959 *)
Inductive e_orient :=
| OrNormal | OrFlippedH | OrRot180 | OrFlippedV | OrTransposed | OrRot90CW | OrTransverse | OrRot90CCW
| OrUninitialized.
Definition orient_code (e : e_orient) : Z :=
  match e with OrNormal => 0 | OrFlippedH => 1 | OrRot180 => 2 | OrFlippedV => 3 | OrTransposed => 4
  | OrRot90CW => 5 | OrTransverse => 6 | OrRot90CCW => 7 | OrUninitialized => 255 end.
Definition orient_from (v : Z) : e_orient :=
  match v with 0 => OrNormal | 1 => OrFlippedH | 2 => OrRot180 | 3 => OrFlippedV | 4 => OrTransposed
  | 5 => OrRot90CW | 6 => OrTransverse | 7 => OrRot90CCW | _ => OrUninitialized end.

(** cxxbridge.rs: DiskCacheImageType and 961-972 *)
Inductive e_disk :=
| DiskJpeg | DiskJp2Lossy | DiskJp2Lossless | DiskExrLossy | DiskExrLossless | DiskUninitialized.
Definition disk_code (e : e_disk) : Z :=
  match e with DiskJpeg => 0 | DiskJp2Lossy => 1 | DiskJp2Lossless => 2 | DiskExrLossy => 3
  | DiskExrLossless => 4 | DiskUninitialized => 255 end.
Definition disk_from (v : Z) : e_disk :=
  match v with 0 => DiskJpeg | 1 => DiskJp2Lossy | 2 => DiskJp2Lossless | 3 => DiskExrLossy
  | 4 => DiskExrLossless | _ => DiskUninitialized end.

(** cxxbridge.rs: CropOnWrite and 974-983 *)
Inductive e_crop := CropDisable | CropEnable | CropAuto | CropUninitialized.
Definition crop_code (e : e_crop) : Z :=
  match e with CropDisable => 0 | CropEnable => 1 | CropAuto => 2 | CropUninitialized => 255 end.
Definition crop_from (v : Z) : e_crop :=
  match v with 0 => CropDisable | 1 => CropEnable | 2 => CropAuto | _ => CropUninitialized end.

(** cxxbridge.rs: JpegChromaSubSampling and 985-996 *)
Inductive e_jpeg := JpegDefault | JpegNone444 | Jpeg422 | Jpeg420 | Jpeg421 | JpegUninitialized.
Definition jpeg_code (e : e_jpeg) : Z :=
  match e with JpegDefault => 0 | JpegNone444 => 1 | Jpeg422 => 2 | Jpeg420 => 3 | Jpeg421 => 4
  | JpegUninitialized => 255 end.
Definition jpeg_from (v : Z) : e_jpeg :=
  match v with 0 => JpegDefault | 1 => JpegNone444 | 2 => Jpeg422 | 3 => Jpeg420 | 4 => Jpeg421
  | _ => JpegUninitialized end.

(** cxxbridge.rs: ExrCompression and 998-1015 *)
Inductive e_exr :=
| ExrDefault | ExrNone | ExrRle | ExrZip | ExrZipScanline | ExrPiz | ExrPxr24 | ExrB44 | ExrB44a
| ExrDwaa | ExrDwab | ExrUninitialized.
Definition exr_code (e : e_exr) : Z :=
  match e with ExrDefault => 0 | ExrNone => 1 | ExrRle => 2 | ExrZip => 3 | ExrZipScanline => 4
  | ExrPiz => 5 | ExrPxr24 => 6 | ExrB44 => 7 | ExrB44a => 8 | ExrDwaa => 9 | ExrDwab => 10
  | ExrUninitialized => 255 end.
Definition exr_from (v : Z) : e_exr :=
  match v with 0 => ExrDefault | 1 => ExrNone | 2 => ExrRle | 3 => ExrZip | 4 => ExrZipScanline
  | 5 => ExrPiz | 6 => ExrPxr24 | 7 => ExrB44 | 8 => ExrB44a | 9 => ExrDwaa | 10 => ExrDwab
  | _ => ExrUninitialized end.

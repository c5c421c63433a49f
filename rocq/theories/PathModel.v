(** Model of src/pathutils.rs.  A string is the list of its UTF-8 bytes. *)
From Verif Require Import Machine Loops.

Definition hash_char : Z := 35. (* b'#' *)
Definition minus_char : Z := 45.
Definition zero_char : Z := 48.

(** pathutils.rs 31-54: the loop of find_frame_padding_index_range over
    [value.bytes().enumerate()]; returns (start_index, end_index). *)
Fixpoint scan (bytes : list Z) (i start_index end_index : Z) (last_char_valid : bool) : Z * Z :=
  match bytes with
  | [] => (start_index, end_index)
  | b :: rest =>
      if b =? hash_char then
        if negb last_char_valid then scan rest (i + 1) i (i + 1) true
        else scan rest (i + 1) start_index (i + 1) true
      else
        if last_char_valid then (start_index, end_index) (* break *)
        else scan rest (i + 1) start_index end_index last_char_valid
  end.

(** pathutils.rs 31-61: (start, end, padding_count). *)
Definition find_frame_padding_index_range (value : list Z) : Z * Z * Z :=
  let (s, e) := scan value 0 0 0 false in (s, e, e - s).

(** Decimal digits of a non-negative number, as the integer formatting of the
    Rust standard library prints them ("0" for zero). *)
Fixpoint digits_fuel (fuel : nat) (n : Z) (acc : list Z) : list Z :=
  match fuel with
  | O => acc
  | S f =>
      let acc := (zero_char + n mod 10) :: acc in
      if n / 10 =? 0 then acc else digits_fuel f (n / 10) acc
  end.
(** 40 digits cover every Rust integer type. *)
Definition digits (n : Z) : list Z := digits_fuel 40 n [].

(** [format!("{:0w$}", n)] for a signed integer (core::fmt::Formatter::pad_integral
    with sign-aware zero padding): the sign comes first, zeros are inserted
    between sign and digits up to width [w]. *)
Definition format_zero_padded (w n : Z) : list Z :=
  let sign := if n <? 0 then [minus_char] else [] in
  let body := digits (Z.abs n) in
  sign ++ repeat zero_char (Z.to_nat (w - zlen sign - zlen body)) ++ body.

(** pathutils.rs 77-89: widths 1 to 9 are spelled out, any other count gives "". *)
Definition frame_string (padding_count frame : Z) : list Z :=
  if (1 <=? padding_count) && (padding_count <=? 9)
  then format_zero_padded padding_count frame
  else [].

(** String::replace_range(s..e, r): panics on a bad range.  (It also panics when
    an end is not a character boundary; both ends are next to an ASCII '#'.) *)
Definition replace_range (v : list Z) (s e : Z) (r : list Z) : Res (list Z) :=
  if (0 <=? s) && (s <=? e) && (e <=? zlen v)
  then Ok (firstn (Z.to_nat s) v ++ r ++ skipn (Z.to_nat e) v)
  else Panic.

(** pathutils.rs 63-95 *)
Definition create_expanded_string (value : list Z) (range : Z * Z * Z) (frame : Z) : Res (list Z) :=
  let '(s, e, n) := range in
  replace_range value s e (frame_string n frame).

Section Expand.
(** pathutils.rs 97-109: shellexpand::full ('~' and environment variables),
    an oracle; on error the input is returned, so the function is total. *)
Variable expand_file_path : list Z -> list Z.

(** pathutils.rs 111-121 *)
Definition expand_string (value : list Z) (frame : Z) : Res (list Z) :=
  let expanded_path := expand_file_path value in
  let '(s, e, n) := find_frame_padding_index_range expanded_path in
  if n >? 0 then create_expanded_string expanded_path (s, e, n) frame
  else Ok expanded_path.
End Expand.

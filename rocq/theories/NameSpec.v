(** Independent specification of how names cross to the lens model and back. *)
From Coq Require String.
Import String.StringSyntax.
From Verif Require Import Machine PathModel LutModel LensModel NameModel.
Local Open Scope string_scope.

(** UTF-8 (RFC 3629): the bytes of each Unicode scalar value. *)
Definition scalar (c : Z) : Prop := 0 <= c < 55296 \/ 57343 < c < 1114112.
Definition utf8_char (c : Z) : list Z :=
  if c <? 128 then [c]
  else if c <? 2048 then [192 + c / 64; 128 + c mod 64]
  else if c <? 65536 then [224 + c / 4096; 128 + c / 64 mod 64; 128 + c mod 64]
  else [240 + c / 262144; 128 + c / 4096 mod 64; 128 + c / 64 mod 64; 128 + c mod 64].
Definition utf8 (s : list Z) : Prop := exists cs, Forall scalar cs /\ s = List.concat (map utf8_char cs).

(** A C string fits the buffer and can be a Rust string. *)
Definition nameable (name : list Z) : Prop := ~ In 0 name /\ utf8 name /\ (length name <= 99)%nat.
Definition c_string (name : list Z) : Prop := ~ In 0 name /\ Forall (fun b => 0 <= b < 256) name.

(** A number, or no number. *)
Definition numeric (ty : Z) : Prop := ty = 1 \/ ty = 5.

(** A lens model that can be described. *)
Record describable (I : lens_info) (model : list Z) (count : nat) (name : nat -> list Z) : Prop := {
  ds_model : li_model I = Some model /\ nameable model;
  ds_count : li_count I = Some (Z.of_nat count) /\ Z.of_nat count < 2 ^ 31;
  ds_name : forall i, (i < count)%nat -> li_name I (Z.of_nat i) = Some (name i) /\ nameable (name i);
  ds_known : forall i, (i < count)%nat -> exists ty, li_type I (name i) = Some ty /\
    (numeric ty -> exists dv r, li_default I (name i) = Some dv /\ li_range I (name i) = Some r) }.

(** The text about one parameter: its own type, default value and range.  The
    name is filled up with zero bytes. *)
Definition filled (name : list Z) : list Z := (name ++ repeat 0 (100 - length name))%list.
Definition about (show_type show_f64 : Z -> list Z) (I : lens_info) (name line : list Z) : Prop :=
  exists ty, li_type I name = Some ty /\
    ((numeric ty /\ exists dv lo hi, li_default I name = Some dv /\ li_range I name = Some (lo, hi) /\
        line = (ascii_bytes "name=" ++ filled name ++ ascii_bytes " type=" ++ show_type ty ++ ascii_bytes " default_value=" ++ show_f64 dv ++
          ascii_bytes " range=" ++ show_f64 lo ++ ascii_bytes " to " ++ show_f64 hi)%list) \/
     (~ numeric ty /\ line = (ascii_bytes "name=" ++ filled name ++ ascii_bytes " type=" ++ show_type ty)%list)).
